(** Scores stay in range in every history: the calls. *)
From stdpp Require Import gmap strings list.
From Coq Require Import ZArith Reals Lra Lia.
From Flocq Require Import IEEE754.BinarySingleNaN.
From Verif Require Import F32 F32Real F32More Graph GraphSpec Library SearchSpec Stores StoresSpec StoresProofs Options Scorer ScorerSpec ScorerProofs ScoreProofs
  RewardProofs RewardSample Propagate PropagateSpec PropagateMore UnitScorer Practice RangeSpec RangeProofs.
Local Open Scope nat_scope.

Lemma filter_forall {A} (Q : A → Prop) (P : uid * A → Prop) `{Hdec : !∀ x, Decision (P x)} (m : gmap uid A) :
  map_Forall (λ _ x, Q x) m → map_Forall (λ _ x, Q x) (filter P m).
Proof. intros H i x Hi. apply map_filter_lookup_Some in Hi as [Hi _]. by apply (H i). Qed.
Lemma rng_exercises es c : rng c → rng (forget_exercises es c).
Proof. intros (H1 & H2 & H3). split; [by apply filter_forall|done]. Qed.
Lemma rng_lessons es c : rng c → rng (forget_lessons es c).
Proof. intros (H1 & H2 & H3). split; [done|]. split; [by apply filter_forall|done]. Qed.
Lemma rng_courses es c : rng c → rng (forget_courses es c).
Proof. intros (H1 & H2 & H3). split; [done|]. split; [done|by apply filter_forall]. Qed.
Lemma rng_invalidate g u c : rng c → rng (invalidate g u c).
Proof.
  intros H. unfold invalidate. cbv zeta.
  assert (H' : rng (forget_courses {[u]} (forget_lessons {[u]} (forget_exercises {[u]} c)))) by (apply rng_courses, rng_lessons, rng_exercises, H).
  destruct (get_unit_type g u) as [[]|]; [| | |done].
  - destruct (get_exercise_lesson g u); [|done]. by apply rng_courses, rng_lessons.
  - by apply rng_exercises, rng_courses.
  - by apply rng_exercises, rng_lessons.
Qed.
Lemma rng_invalidates g us : ∀ c, rng c → rng (fold_left (λ c u, invalidate g u c) us c).
Proof. induction us as [|u us IH]; intros c H; [done|]. by apply IH, rng_invalidate. Qed.
Lemma rng_prefix pre c : rng c → rng (invalidate_prefix pre c).
Proof. intros (H1 & H2 & H3). split; [by apply filter_forall|]. split; by apply filter_forall. Qed.
Lemma rng_none : rng no_caches.
Proof. split; [|split]; apply map_Forall_empty. Qed.

Record ranges (p : practice) : Prop := {
  rn_trials : rows_ok (λ v, between f_1 v f_5) (p_trials p);
  rn_deltas : rows_ok (λ v, between (fneg f_5) v f_5) (p_deltas p);
  rn_rewards : rows_ok reward_val_ok (rs_table (p_rewards p));
  rn_caches : rng (p_caches p) }.

Section ranges.
  Context (s : setting) (Hs : setting_ok s).

  Lemma compute_ok now p e x : ranges p → compute_exercise s now p e = Val x → entry_ok x.
  Proof using Hs.
    intros [Ht Hd Hr _]. unfold compute_exercise. set (trials := default [] _). set (deltas := default [] _).
    pose proof (rows_get _ (g_order s) (p_trials p) e (g_num_trials s) (ok_order s Hs) Ht) as Gt.
    pose proof (rows_get _ (g_order s) (p_deltas p) e (g_num_trials s) (ok_order s Hs) Hd) as Gd.
    fold trials in Gt. fold deltas in Gd.
    assert (Hn : newest_first trials).
    { unfold trials. destruct (get_entries (g_order s) (p_trials p) e (g_num_trials s)) as [es|] eqn:E.
      - eapply store_history_ordered; [apply (ok_order s Hs)|exact E].
      - intros i j a b Hi. done. }
    assert (Hf : fits trials).
    { unfold fits. pose proof (rows_get_length (g_order s) (p_trials p) e (g_num_trials s)) as L. fold trials in L. pose proof (ok_trials s Hs). lia. }
    destruct (score_valid (g_powf s) (ok_powf s Hs) (exercise_type_of s e) trials deltas now Hn Hf Gt Gd) as (sc & -> & Hv & Hu).
    cbv zeta. set (reward := score_rewards _ _ _ _ _).
    assert (Hrew : between (fneg f_1) reward f_1).
    { unfold reward. apply (rewards_in_range (g_powf s) (g_valid_time s) now); [apply Hs| |].
      - apply (rows_get reward_val_ok); [apply (ok_reward_order s Hs)|done].
      - apply (rows_get reward_val_ok); [apply (ok_reward_order s Hs)|done]. }
    destruct (apply_reward reward trials now) as [b|]; [|done]. intros [= <-]. split; [|done]. cbn [ca_score].
    destruct b; [|done]. apply in_range_btw. apply in_range_btw in Hv as [Fv Hv].
    apply (between_f _ _ _ (-1) 1) in Hrew as [Fr Hr']; [|done|done|rewrite fneg_val, v_1; lra|apply v_1].
    destruct (fadd_btw (sc_value sc) reward (-1) 8) as [[Fa _] _]; [done|done|rp|rp|lra|].
    destruct (fclamp_btw (fadd (sc_value sc) reward) fzero f_5 Fa) as [F V]; [done|done|rewrite v_0, v_5; lra|].
    split; [done|]. rewrite v_0, v_5 in V. done.
  Qed.
  Lemma world_ok now p : ranges p → ∀ e x, w_exercise (world_of s now p) e = Val x → entry_ok x.
  Proof using Hs. intros H e x. by apply compute_ok. Qed.

  Lemma run_ok {A} (Q : A → Prop) (m : prog A) p : ok_prog Q m → ranges p → ranges (snd (run m p)) ∧ ∀ a, fst (run m p) = Val a → Q a.
  Proof using.
    intros Hm [H1 H2 H3 H4]. unfold run. destruct (Hm _ H4) as [H5 H6]. destruct (m (p_caches p)) as [r c]. cbn [fst snd] in *.
    split; [by split|done].
  Qed.
  Lemma run_part {A} (Q : A → Prop) (m : prog A) p : ok_prog Q m → ranges p → ranges (snd (run m p)).
  Proof using. intros Hm Hp. by destruct (run_ok Q m p Hm Hp). Qed.
  Lemma run_world {A} (m : prog A) now p : world_of s now (snd (run m p)) = world_of s now p.
  Proof using. unfold run. by destruct (m (p_caches p)). Qed.

  Lemma float_score_range sc : between f_1 (float_score sc) f_5.
  Proof using. destruct sc; split; vm_compute; reflexivity. Qed.

  Lemma rewards_plain fuel e sc ts r : propagate_rewards (lib_graph (g_lib s)) (g_listed s) fuel e sc ts = Some r →
    Forall (λ x, reward_val_ok (e_val x)) (snd <$> map_to_list r).
  Proof using Hs.
    destruct (opened_built _ (ok_lib s Hs)) as [ops ->]. intros H. apply Forall_forall. intros x Hx.
    apply elem_of_list_fmap in Hx as ([u y] & -> & Hy). apply elem_of_map_to_list in Hy. cbn [snd].
    destruct (result_ok ops (g_listed s) (ok_listed s Hs) sc e ts fuel r u y H Hy) as (_ & _ & _ & _ & Hv & Hw).
    destruct y as [u' [v w] ts']. cbn [e_val fst snd] in Hv, Hw |- *. split; cbn [fst snd].
    - apply (between_f _ _ _ (-1) 1); [done|done|rewrite fneg_val, v_1; lra|apply v_1|].
      assert (Hb : fle (fabs (documented_reward sc)) f_1 = true) by (destruct sc; vm_compute; reflexivity).
      assert (Fd : fin (fabs (documented_reward sc))) by (destruct sc; reflexivity).
      destruct Hv as [Hv1 Hv2]. destruct (fle_between _ _ _ (eq_refl : fin f_0_2) Fd Hv1 Hv2) as [Ff Hvv].
      apply (fle_true _ _ Fd (eq_refl : fin f_1)) in Hb. rewrite v_1 in Hb. rewrite (fabs_val v) in Hvv.
      split; [|unfold Rabs in Hvv; destruct (Rcase_abs (val v)); lra]. unfold fin, fabs in Ff. by rewrite is_finite_Babs in Ff.
    - apply (between_f _ _ _ 0 1); [done|done|apply v_0|apply v_1|].
      destruct Hw as [Hw1 Hw2]. destruct (fle_between _ _ _ (eq_refl : fin f_0_2) (eq_refl : fin f_1) Hw1 Hw2) as [Ff Hww].
      split; [done|]. pose proof v_0_2. rewrite v_1 in Hww. lra.
  Qed.

  Lemma ranges_score fuel now f e sc ts p p' ok : ranges p → score_call s fuel now f e sc ts p = Some (p', ok) → ranges p'.
  Proof using Hs.
    intros Hp. unfold score_call.
    destruct (run_ok opt_range (or_default None (unit_score (world_of s now p) fuel e)) p) as [Hp1 He].
    { apply ok_default; [by intros x|]. apply ok_unit; [by apply world_ok|apply Hs|apply Hs]. }
    { done. }
    pose proof (run_world (or_default None (unit_score (world_of s now p) fuel e)) now p) as Ew.
    destruct (run (or_default None (unit_score (world_of s now p) fuel e)) p) as [[existing| | |] p1]; [|done..]. cbn [fst snd] in *.
    specialize (He _ eq_refl). rewrite <- Ew. clear Ew Hp p.
    destruct (run_ok (λ _, True) (or_default 0 (exercise_num_trials (world_of s now p1) e)) p1) as [Hp2 _].
    { apply ok_default; [done|]. apply ok_num. by apply world_ok. }
    { done. }
    destruct (run (or_default 0 (exercise_num_trials (world_of s now p1) e)) p1) as [[n| | |] p]; [|done..]. cbn [fst snd] in *. clear Hp1 p1.
    set (delta := fsub (float_score sc) (default fzero existing)).
    assert (Hd : between (fneg f_5) delta f_5).
    { apply (between_f _ _ _ (-5) 5); [done|done|rewrite fneg_val, v_5; lra|apply v_5|].
      pose proof (float_score_range sc) as Hf. apply (between_f _ _ _ 1 5) in Hf as [Ff Hf]; [|done|done|apply v_1|apply v_5].
      assert (Hx : btw 0 5 (default fzero existing)).
      { destruct existing as [x|]; cbn; [by apply in_range_btw, He|]. split; [done|]. rewrite v_0. lra. }
      destruct Hx as [Fx Hx]. apply fsub_btw; [done|done|rp|rp|lra]. }
    assert (Hdel : ∃ deltas okd, (if Nat.ltb 0 n then record_entries bind_f32 (f_delta f) (p_deltas p) [Entry e delta ts] else (p_deltas p, true)) = (deltas, okd) ∧
      rows_ok (λ v, between (fneg f_5) v f_5) deltas ∧ (okd = false → deltas = p_deltas p)).
    { destruct (Nat.ltb 0 n).
      - pose proof (rows_record bind_f32 bind_f32_same (λ v, between (fneg f_5) v f_5) (f_delta f) (p_deltas p) [Entry e delta ts] (rn_deltas _ Hp2)) as Hr.
        assert (Hfl : snd (record_entries bind_f32 (f_delta f) (p_deltas p) [Entry e delta ts]) = false →
          fst (record_entries bind_f32 (f_delta f) (p_deltas p) [Entry e delta ts]) = p_deltas p).
        { unfold record_entries. destruct (f_delta f); [done|]. by destruct (insert_entries _ _ _). }
        destruct (record_entries bind_f32 (f_delta f) (p_deltas p) [Entry e delta ts]) as [d o]. exists d, o. split; [done|].
        split; [apply Hr; by constructor|done].
      - exists (p_deltas p), true. split; [done|]. split; [apply Hp2|done]. }
    destruct Hdel as (deltas & okd & -> & Hrd & Hfd). destruct okd.
    2:{ intros [= <- <-]. done. }
    cbn [p_trials p_deltas p_rewards p_banned p_caches].
    pose proof (rows_record bind_f32 bind_f32_same (λ v, between f_1 v f_5) (f_score f) (p_trials p) [Entry e (float_score sc) ts] (rn_trials _ Hp2)) as Hrt.
    destruct (record_entries bind_f32 (f_score f) (p_trials p) [Entry e (float_score sc) ts]) as [trials okt] eqn:Et. cbn [fst] in Hrt.
    assert (Hrt' : rows_ok (λ v, between f_1 v f_5) trials) by (apply Hrt; constructor; [apply float_score_range|constructor]).
    destruct okt.
    2:{ intros [= <- <-]. split; [apply Hp2|done|apply Hp2|apply Hp2]. }
    destruct (propagate_rewards (lib_graph (g_lib s)) (g_listed s) fuel e sc ts) as [rewards|] eqn:Ep; [|done].
    apply rewards_plain in Ep. set (rs := snd <$> map_to_list rewards) in *.
    pose proof (rewards_record_ok (g_reward_order s) (f_rewards f) (p_rewards p) rs (rn_rewards _ Hp2) Ep) as Hrr.
    destruct (record_unit_rewards (g_reward_order s) (f_rewards f) (p_rewards p) rs) as [store us]. cbn [fst] in Hrr.
    destruct us as [us|]; intros [= <- <-]; (split; [done|done|done|]); cbn [with_caches p_caches].
    - by apply rng_invalidates, rng_invalidate, Hp2.
    - by apply rng_invalidate, Hp2.
  Qed.

  Lemma ranges_step fuel now p c p' : ranges p → call_step s fuel now p c = Some p' → ranges p'.
  Proof using Hs.
    intros Hp. destruct c as [f e sc ts|fails u|fails u|pre|pre|u|u|e]; cbn [call_step].
    - destruct (score_call s fuel now f e sc ts p) as [[p1 ok]|] eqn:E; [|done]. intros [= <-]. by eapply ranges_score.
    - intros [= <-]. split; [apply Hp..|]. by apply rng_invalidate, Hp.
    - intros [= <-]. split; [apply Hp..|]. by apply rng_invalidate, Hp.
    - intros [= <-]. split; [apply Hp..|]. by apply rng_prefix, Hp.
    - intros [= <-]. split; [by apply rows_remove, Hp|apply Hp..].
    - intros [= <-]. apply (run_part opt_range); [|done]. apply ok_unit; [by apply world_ok|apply Hs|apply Hs].
    - intros [= <-]. apply (run_part (λ _, True)); [|done]. apply ok_avg; [by apply world_ok|apply Hs|apply Hs].
    - intros [= <-]. apply (run_part entry_ok); [|done]. apply ok_entry. by apply world_ok.
  Qed.
  Lemma ranges_new : ranges new_practice.
  Proof using. split; [apply rows_empty..|apply rng_none]. Qed.
  Lemma ranges_calls fuel cs : ∀ p p', ranges p → calls s fuel p cs = Some p' → ranges p'.
  Proof using Hs.
    induction cs as [|[now c] cs IH]; intros p p' Hp H; [by injection H as <-|]. cbn [calls] in H.
    destruct (call_step s fuel now p c) as [p1|] eqn:E; [|done]. apply (IH p1); [|done]. by eapply ranges_step.
  Qed.

  Lemma history_ranges fuel cs p : calls s fuel new_practice cs = Some p → ∀ now n u,
    (∀ x, fst (unit_score (world_of s now p) n u (p_caches p)) = Val (Some x) → in_range x) ∧
    (∀ x, fst (exercise_entry (world_of s now p) u (p_caches p)) = Val x → entry_ok x).
  Proof using Hs.
    intros H now n u. apply ranges_calls in H; [|apply ranges_new]. split.
    - intros x Hx. destruct (ok_unit (world_of s now p) (world_ok now p H) (ok_ord s Hs) (ok_modest s Hs) n u _ (rn_caches _ H)) as [_ Hr].
      by apply (Hr _ Hx).
    - intros x Hx. destruct (ok_entry (world_of s now p) (world_ok now p H) u _ (rn_caches _ H)) as [_ Hr]. by apply Hr.
  Qed.
  (** No exercise is an error, and every average is taken over all its scores. *)
  Lemma history_no_error p now e : compute_exercise s now p e ≠ Fail.
  Proof using Hs.
    unfold compute_exercise. destruct (score_exercise _ _ _ _ _) as [sc|] eqn:E.
    - cbv zeta. by destruct (apply_reward _ _ _).
    - exfalso. apply score_rejects in E. apply E.
      destruct (get_entries (g_order s) (p_trials p) e (g_num_trials s)) as [es|] eqn:Eg.
      + eapply store_history_ordered; [apply (ok_order s Hs)|exact Eg].
      + intros i j a b Hi. done.
  Qed.
End ranges.
