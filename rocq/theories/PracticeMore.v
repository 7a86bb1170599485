(** Histories of calls keep the caches right. *)
From stdpp Require Import gmap strings list.
From Coq Require Import ZArith Lia.
From Verif Require Import F32 Graph GraphSpec GraphProofs Library LibrarySpec LibFacts SearchSpec Sql Stores StoresSpec StoresProofs StoresMore
  Options Scorer Propagate UnitScorer UnitSpec UnitProofs UnitCoherent Practice PracticeSpec PracticeProofs.
Local Open Scope bool_scope.

Section touch.
  Context (lib : library) (Hlib : opened lib).
  Let g := lib_graph lib.
  Context (w w' : world) (Hg : w_graph w = g) (Hg' : w_graph w' = g) (Eo : w_ord w' = w_ord w) (Hord : ∀ s, w_ord w s ≡ₚ elements s).

  Lemma known_lesson e : get_unit_type g e = Some Exercise → ∃ l c, get_exercise_lesson g e = Some l ∧ get_lesson_course g l = Some c.
  Proof using Hlib.
    intros He. destruct (k_exercise _ (opened_ok _ Hlib) e He) as [l Hl]. destruct (exercise_lesson_types lib Hlib e l Hl) as [_ Ht].
    destruct (k_lesson _ (opened_ok _ Hlib) l Ht) as [c Hc]. eauto.
  Qed.
  Lemma listed_known l es e : get_lesson_exercises g l = Some es → e ∈ es → get_exercise_lesson g e = Some l ∧ get_unit_type g e = Some Exercise.
  Proof using Hlib.
    intros H He. assert (Hl : get_exercise_lesson g e = Some l) by (apply (exercises_of_spec lib Hlib); eauto).
    split; [done|]. by destruct (exercise_lesson_types lib Hlib e l Hl).
  Qed.
  Lemma listed_lesson u ls l : get_course_lessons g u = Some ls → l ∈ ls → get_lesson_course g l = Some u.
  Proof using Hlib. intros H Hl. apply (lessons_of_spec lib Hlib). eauto. Qed.

  (** Only [u] changed. *)
  Lemma coh_touch u c : (∀ v, v ≠ u → w_bans w' v = w_bans w v) →
    (∀ v, v ≠ u → get_unit_type g v = Some Exercise → w_exercise w' v = w_exercise w v) →
    coh w c → coh w' (invalidate g u c).
  Proof using Hlib Hg Hg' Eo Hord.
    intros Hb He Hc.
    assert (HL : ∀ l, l ≠ u → get_exercise_lesson g u ≠ Some l → same_lesson w w' l).
    { intros l Hne Hl. split; [by apply Hb|]. rewrite Hg. intros es e Hes Hin. destruct (listed_known _ _ _ Hes Hin) as [Hel Het].
      assert (e ≠ u) by (intros ->; done). split; [by apply Hb|by apply He]. }
    assert (HC : ∀ d, d ≠ u → get_lesson_course g u ≠ Some d → (∀ l, get_exercise_lesson g u = Some l → get_lesson_course g l ≠ Some d) → same_course w w' d).
    { intros d Hne Hd Hl. split; [by apply Hb|]. rewrite Hg. intros ls l Hls Hin. pose proof (listed_lesson _ _ _ Hls Hin) as Hlc.
      apply HL; [by intros ->|]. intros Hu. by apply (Hl l). }
    apply (coh_change w w' ltac:(congruence) Eo Hord c); [done|..].
    - unfold known. rewrite Hg. intros e x Hk Hx. destruct (invalidate_exercise lib Hlib _ _ _ _ Hx Hk) as [H1 H2]. split; [done|].
      apply He; [|done]. intros ->. apply H2. by left.
    - intros l v Hv. destruct (invalidate_lesson lib Hlib c_lesson _ _ _ _ ltac:(by left) Hv) as (H1 & H2 & H3 & _). auto.
    - intros l v Hv. destruct (invalidate_course lib Hlib c_course _ _ _ _ ltac:(by left) Hv) as (H1 & H2 & H3 & H4). auto.
    - intros l v Hv. destruct (invalidate_lesson lib Hlib c_lesson_trials _ _ _ _ ltac:(by right) Hv) as (H1 & H2 & H3 & _). auto.
    - intros l v Hv. destruct (invalidate_course lib Hlib c_course_trials _ _ _ _ ltac:(by right) Hv) as (H1 & H2 & H3 & H4). auto.
  Qed.
  (** Only exercises whose lesson or course is in [us] changed. *)
  Lemma coh_rewards us c : (∀ v, w_bans w' v = w_bans w v) →
    (∀ e l d, get_exercise_lesson g e = Some l → get_lesson_course g l = Some d → l ∉ us → d ∉ us → w_exercise w' e = w_exercise w e) →
    coh w c → coh w' (fold_left (λ c u, invalidate g u c) us c).
  Proof using Hlib Hg Hg' Eo Hord.
    intros Hb He Hc.
    assert (HL : ∀ l, l ∉ us → (∀ u, u ∈ us → get_lesson_course g l ≠ Some u) → same_lesson w w' l).
    { intros l Hne Hl. split; [by apply Hb|]. rewrite Hg. intros es e Hes Hin. destruct (listed_known _ _ _ Hes Hin) as [Hel Het].
      split; [by apply Hb|]. destruct (known_lesson e Het) as (l' & d & Hl' & Hd). assert (l' = l) by congruence. subst l'.
      apply (He e l d); [done..|]. intros Hin'. by apply (Hl d). }
    assert (HC : ∀ d, (∀ u, u ∈ us → d ≠ u ∧ get_lesson_course g u ≠ Some d) → same_course w w' d).
    { intros d Hd. split; [by apply Hb|]. rewrite Hg. intros ls l Hls Hin. pose proof (listed_lesson _ _ _ Hls Hin) as Hlc.
      apply HL.
      - intros Hu. by destruct (Hd l Hu).
      - intros u Hu Hu'. destruct (Hd u Hu) as [Hn _]. congruence. }
    apply (coh_change w w' ltac:(congruence) Eo Hord c); [done|..].
    - unfold known. rewrite Hg. intros e x Hk Hx. destruct (fold_exercise lib Hlib _ _ _ _ Hx Hk) as [H1 H2]. split; [done|].
      destruct (known_lesson e Hk) as (l & d & Hl & Hd). apply (He e l d); [done..| |].
      + intros Hu. apply (H2 l Hu). right. right. by left.
      + intros Hu. apply (H2 d Hu). right. right. right. right. eauto.
    - intros l v Hv. destruct (fold_lesson lib Hlib c_lesson _ ltac:(by left) _ _ _ Hv) as (H1 & H2). split; [done|].
      apply HL; [intros Hu; by destruct (H2 l Hu)|]. intros u Hu. by apply H2.
    - intros l v Hv. destruct (fold_course lib Hlib c_course _ ltac:(by left) _ _ _ Hv) as (H1 & H2). auto.
    - intros l v Hv. destruct (fold_lesson lib Hlib c_lesson_trials _ ltac:(by right) _ _ _ Hv) as (H1 & H2). split; [done|].
      apply HL; [intros Hu; by destruct (H2 l Hu)|]. intros u Hu. by apply H2.
    - intros l v Hv. destruct (fold_course lib Hlib c_course_trials _ ltac:(by right) _ _ _ Hv) as (H1 & H2). auto.
  Qed.
End touch.

Section history.
  Context (s : setting) (Hlib : opened (g_lib s)) (Hord : ∀ x, g_ord s x ≡ₚ elements x) (Hq : sorts_newest_first (g_reward_order s)).
  Let g := lib_graph (g_lib s).

  Record inv (now : Z) (p : practice) : Prop := {
    v_trials : good (p_trials p);
    v_deltas : good (p_deltas p);
    v_rewards : good (rs_table (p_rewards p));
    v_coh : coh (world_of s now p) (p_caches p) }.

  Lemma world_known now p l es e : get_lesson_exercises (w_graph (world_of s now p)) l = Some es → e ∈ es → known (world_of s now p) e.
  Proof using Hlib. intros H He. by apply (listed_known (g_lib s) Hlib l es e). Qed.

  Lemma run_keeps {A} now (m : prog A) p : keeps (world_of s now p) m → inv now p → inv now (snd (run m p)).
  Proof using.
    intros Hm [H1 H2 H3 H4]. unfold run. specialize (Hm (p_caches p) H4). destruct (m (p_caches p)) as [r c]. by split.
  Qed.

  (** The computation reads only its own entries and the rewards of its lesson and course. *)
  Lemma compute_same now p p' e l d : get_exercise_lesson g e = Some l → get_lesson_course g l = Some d →
    (∀ n, get_entries (g_order s) (p_trials p') e n = get_entries (g_order s) (p_trials p) e n) →
    (∀ n, get_entries (g_order s) (p_deltas p') e n = get_entries (g_order s) (p_deltas p) e n) →
    (∀ u n, u = l ∨ u = d → get_entries (g_reward_order s) (rs_table (p_rewards p')) u n = get_entries (g_reward_order s) (rs_table (p_rewards p)) u n) →
    compute_exercise s now p' e = compute_exercise s now p e.
  Proof using.
    intros Hl Hd H1 H2 H3. unfold compute_exercise. fold g. rewrite H1, H2, Hl. cbn [default]. cbv zeta. cbn [id]. rewrite Hd. cbn [id].
    rewrite (H3 d), (H3 l) by auto. done.
  Qed.

  Lemma record_good {A} (bind : A → option A) fault t e : good t → good (fst (record_entries bind fault t [e])).
  Proof using.
    intros Hg. unfold record_entries. destruct fault; [done|]. cbn [insert_entries].
    destruct (insert_entry bind t e) as [t'|] eqn:E; [|done]. by eapply insert_entry_good.
  Qed.

  (** Two states with the same trials, deltas, rewards and blacklist have the same world. *)
  Lemma inv_score fuel now f e sc ts p p' ok : f_score f = false → inv now p → score_call s fuel now f e sc ts p = Some (p', ok) → inv now p'.
  Proof using Hlib Hord Hq.
    intros Hf Hp. unfold score_call.
    assert (Hp1 : inv now (snd (run (or_default None (unit_score (world_of s now p) fuel e)) p))).
    { apply run_keeps; [|done]. apply keeps_default, keeps_unit; [exact Hord|apply world_known]. }
    assert (Ew1 : world_of s now (snd (run (or_default None (unit_score (world_of s now p) fuel e)) p)) = world_of s now p).
    { unfold run. by destruct (or_default _ _ _) as [r c]. }
    destruct (run (or_default None (unit_score (world_of s now p) fuel e)) p) as [[existing| | |] p1]; [|done..]. cbn [snd] in Hp1, Ew1.
    rewrite <- Ew1. clear Ew1 Hp p.
    assert (Hp2 : inv now (snd (run (or_default 0 (exercise_num_trials (world_of s now p1) e)) p1))).
    { apply run_keeps; [|done]. apply keeps_default, keeps_num. }
    destruct (run (or_default 0 (exercise_num_trials (world_of s now p1) e)) p1) as [[n| | |] p]; [|done..]. cbn [snd] in Hp2. clear Hp1 p1.
    set (delta := Entry e _ ts).
    assert (Hdel : ∃ deltas okd, (if Nat.ltb 0 n then record_entries bind_f32 (f_delta f) (p_deltas p) [delta] else (p_deltas p, true)) = (deltas, okd) ∧
      good deltas ∧ (∀ u m, u ≠ e → get_entries (g_order s) deltas u m = get_entries (g_order s) (p_deltas p) u m) ∧ (okd = false → deltas = p_deltas p)).
    { destruct (Nat.ltb 0 n).
      - pose proof (record_good bind_f32 (f_delta f) _ delta (v_deltas _ _ Hp2)) as Hg.
        pose proof (λ u m, record_one_other bind_f32 (g_order s) (f_delta f) _ delta u m (v_deltas _ _ Hp2)) as Ho.
        assert (Hfl : snd (record_entries bind_f32 (f_delta f) (p_deltas p) [delta]) = false →
          fst (record_entries bind_f32 (f_delta f) (p_deltas p) [delta]) = p_deltas p).
        { unfold record_entries. destruct (f_delta f); [done|]. by destruct (insert_entries _ _ _). }
        destruct (record_entries bind_f32 (f_delta f) (p_deltas p) [delta]) as [d o]. exists d, o. done.
      - exists (p_deltas p), true. split; [done|]. split; [apply Hp2|]. done. }
    destruct Hdel as (deltas & okd & -> & Hgd & Hod & Hfd). destruct okd.
    2:{ intros [= <- <-]. done. }
    cbn [p_trials p_deltas p_rewards p_banned p_caches].
    pose proof (record_good bind_f32 (f_score f) _ (Entry e (float_score sc) ts) (v_trials _ _ Hp2)) as Hgt.
    pose proof (λ u m, record_one_other bind_f32 (g_order s) (f_score f) _ (Entry e (float_score sc) ts) u m (v_trials _ _ Hp2)) as Hot.
    assert (Hokt : snd (record_entries bind_f32 (f_score f) (p_trials p) [Entry e (float_score sc) ts]) = true).
    { unfold record_entries. rewrite Hf. cbn [insert_entries].
      destruct (insert_entry_spec bind_f32 (p_trials p) (Entry e (float_score sc) ts) (v_trials _ _ Hp2)) as (t' & k & -> & _). done. }
    destruct (record_entries bind_f32 (f_score f) (p_trials p) [Entry e (float_score sc) ts]) as [trials okt]. cbn [fst snd] in *. subst okt.
    set (p2 := Practice trials deltas (p_rewards p) (p_banned p) (invalidate g e (p_caches p))).
    assert (Hp3 : inv now p2).
    { split; [done|done|apply Hp2|]. cbn [p2 p_caches].
      apply (coh_touch (g_lib s) Hlib (world_of s now p) (world_of s now p2)); [done..| | |apply Hp2].
      - intros v _. done.
      - intros v Hv Ht. destruct (known_lesson (g_lib s) Hlib v Ht) as (l & d & Hl & Hd). cbn [world_of w_exercise].
        apply (compute_same now p p2 v l d Hl Hd); [|auto|done]. intros m. by apply Hot. }
    destruct (propagate_rewards (lib_graph (g_lib s)) (g_listed s) fuel e sc ts) as [rewards|]; [|done].
    set (rs := snd <$> map_to_list rewards).
    destruct (record_unit_rewards (g_reward_order s) (f_rewards f) (p_rewards p) rs) as [store us] eqn:Er.
    destruct (record_rewards_other _ _ _ _ _ _ Hq (v_rewards _ _ Hp2) Er) as [Hgr Hor]. destruct us as [us|].
    - intros [= <- <-]. split; [done|done|done|]. cbn [with_caches p_caches p_trials p_deltas p_rewards p_banned].
      apply (coh_rewards (g_lib s) Hlib (world_of s now p2)); [done..| |apply Hp3].
      intros v l d Hl Hd Hnl Hnd. cbn [world_of w_exercise]. apply (compute_same now p2 _ v l d Hl Hd); [done|done|].
      intros u m [-> | ->]; by apply Hor.
    - intros [= <- <-]. split; [done|done|done|]. cbn [p_caches].
      match goal with |- coh ?w' ?c => apply (coh_rewards (g_lib s) Hlib (world_of s now p2) w' eq_refl eq_refl eq_refl Hord [] c) end; [done| |apply Hp3].
      intros v l d Hl Hd _ _. cbn [world_of w_exercise]. apply (compute_same now p2 _ v l d Hl Hd); [done|done|].
      intros u m _. by apply Hor.
  Qed.

  Lemma inv_bans now p u b : inv now p → (∀ v, v ≠ u → v ∈ b ↔ v ∈ p_banned p) →
    inv now (Practice (p_trials p) (p_deltas p) (p_rewards p) b (invalidate g u (p_caches p))).
  Proof using Hlib Hord.
    intros [H1 H2 H3 H4] Hb. split; [done..|]. cbn [p_caches].
    apply (coh_touch (g_lib s) Hlib (world_of s now p)); [done..| |done|done].
    intros v Hv. unfold w_bans. cbn [world_of w_banned p_banned]. apply bool_decide_ext. by apply Hb.
  Qed.

  Lemma inv_step fuel now p c p' : keeps_caches c → inv now p → call_step s fuel now p c = Some p' → inv now p'.
  Proof using Hlib Hord Hq.
    intros Hc Hp. destruct c as [f e sc ts|fails u|fails u|pre|pre|u|u|e]; cbn [call_step keeps_caches] in *; try done.
    - destruct (score_call s fuel now f e sc ts p) as [[p1 ok]|] eqn:E; [|done]. intros [= <-]. by eapply inv_score.
    - intros [= <-]. apply inv_bans; [done|]. intros v Hv. destruct fails; set_solver.
    - intros [= <-]. apply inv_bans; [done|]. intros v Hv. destruct fails; set_solver.
    - intros [= <-]. apply run_keeps; [|done]. apply keeps_unit; [exact Hord|apply world_known].
    - intros [= <-]. apply run_keeps; [|done]. apply keeps_avg_trials; [exact Hord|apply world_known].
    - intros [= <-]. apply run_keeps; [|done]. apply keeps_entry.
  Qed.
  Lemma inv_new now : inv now new_practice.
  Proof using. split; [apply good_empty..|apply coh_none]. Qed.
  Lemma inv_calls fuel now cs : ∀ p p', Forall (λ x, x.1 = now ∧ keeps_caches x.2) cs → inv now p → calls s fuel p cs = Some p' → inv now p'.
  Proof using Hlib Hord Hq.
    induction cs as [|[t c] cs IH]; intros p p' Hall Hp H; [by injection H as <-|]. cbn [calls] in H.
    apply Forall_cons in Hall as [[Ht Hc] Hall]. cbn [fst snd] in *. subst t.
    destruct (call_step s fuel now p c) as [p1|] eqn:E; [|done]. by apply (IH p1), H; [|eapply inv_step].
  Qed.

  Lemma history_scores fuel now cs p : Forall (λ x, x.1 = now ∧ keeps_caches x.2) cs → calls s fuel new_practice cs = Some p →
    let w := world_of s now p in
    (∀ n u, not_superseded g u →
       fst (unit_score w n u (p_caches p)) = fst (unit_score w n u no_caches) ∧
       fst (avg_trials w n u (p_caches p)) = fst (avg_trials w n u no_caches)) ∧
    (∀ e, get_unit_type g e = Some Exercise → fst (exercise_entry w e (p_caches p)) = fst (exercise_entry w e no_caches)).
  Proof using Hlib Hord Hq.
    intros Hall H w. pose proof (inv_calls fuel now cs _ _ Hall (inv_new now) H) as [_ _ _ Hc].
    assert (E : ∀ A (m : prog A) r, right_ w m r → fst (m (p_caches p)) = fst (m no_caches)).
    { intros A m r Hr. destruct (Hr _ Hc) as (c1 & -> & _). destruct (Hr _ (coh_none w)) as (c2 & -> & _). done. }
    split.
    - intros n u Hu. split.
      + destruct n as [|n]; [done|]. eapply E, right_unit; [exact Hord|apply world_known|done].
      + unfold avg_trials. destruct (get_unit_type (w_graph w) u) as [[| |]|]; [done| | |done].
        * eapply E, right_lesson_trials; [exact Hord|apply world_known].
        * eapply E, right_course_trials; [exact Hord|apply world_known|done].
    - intros e He. by eapply E, right_entry.
  Qed.
End history.

