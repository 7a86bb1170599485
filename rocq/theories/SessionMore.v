(** Whole lifetimes: the stores, the ranges of the scores, and the relearn pile. *)
From stdpp Require Import gmap strings list.
From Coq Require Import ZArith Lia.
From Verif Require Import F32 Graph GraphSpec Library LibrarySpec LibFacts Filters Options OptionsSpec Batch BatchSpec Search SearchSpec SearchProofs WholeProofs SelectProofs SizeProofs FinishProofs
  Facade Sql Stores StoresSpec StoresProofs Scorer ScorerSpec Propagate PropagateSpec PropagateMore UnitScorer UnitProofs UnitPure Practice PracticeProofs PracticeMore RangeSpec RangeProofs RangeMore CallSpec CallProofs
  AskSpec AskProofs Session SessionSpec SessionProofs.

(** ** Tables that lose rows *)
Section tables.
  Context {A : Type}.
  Definition shrinks (f : nat → list (row A) → list (row A)) : Prop := ∀ k rows, f k rows `sublist_of` rows.
  Lemma trim_shrinks q n : shrinks (trim_unit q n).
  Proof using. intros k rows. apply sublist_filter. Qed.
  Lemma trim_id_shrinks q n : shrinks (trim_unit_by_id q n).
  Proof using. intros k rows. apply sublist_filter. Qed.
  Lemma delete_shrinks : shrinks delete_unit.
  Proof using. intros k rows. apply sublist_filter. Qed.
  Lemma fewer f stop ks (t : table A) : shrinks f → t_rows (for_uids stop f ks t) `sublist_of` t_rows t.
  Proof using.
    intros Hf. unfold for_uids. cbn [t_rows]. generalize (upto stop ks). clear ks. intros ks. generalize (t_rows t).
    induction ks as [|k ks IH]; intros rows; cbn [fold_left]; [done|]. trans (f k rows); [apply IH|apply Hf].
  Qed.
  Lemma sublist_member {B} (l l' : list B) x : l `sublist_of` l' → x ∈ l → x ∈ l'.
  Proof using. induction 1 as [|y l l' H IH|y l l' H IH]; rewrite ?elem_of_cons; tauto. Qed.
  Lemma sublist_Forall (P : row A → Prop) l l' : l `sublist_of` l' → Forall P l' → Forall P l.
  Proof using. rewrite !Forall_forall. intros H HP x Hx. apply HP. by eapply sublist_member. Qed.
  Lemma sublist_good (uids : list string) (l l' : list (row A)) : l `sublist_of` l' → good (Table uids l') → good (Table uids l).
  Proof using.
    intros H (H1 & H2 & H3). split; [done|]. cbn [t_rows t_uids] in *. split; [|by eapply sublist_Forall].
    unfold good_rows in *. clear H1 H3. induction H as [|x l l' H IH|x l l' H IH]; [done| |].
    - cbn [fmap list_fmap] in H2 |- *. apply NoDup_cons in H2 as [Hx H2]. constructor; [|by apply IH]. intros Hin. apply Hx.
      apply elem_of_list_fmap in Hin as (y & -> & Hy). apply elem_of_list_fmap_1. by eapply sublist_member.
    - cbn [fmap list_fmap] in H2. apply NoDup_cons in H2 as [_ H2]. by apply IH.
  Qed.
End tables.

(** ** What a score does to the trials *)
Lemma score_trials s fuel now f e sc ts p p' ok : score_call s fuel now f e sc ts p = Some (p', ok) →
  (p_trials p' = p_trials p ∨ insert_entry bind_f32 (p_trials p) (Entry e (float_score sc) ts) = Some (p_trials p')) ∧ p_banned p' = p_banned p.
Proof.
  unfold score_call.
  pose proof (run_stores (or_default None (unit_score (world_of s now p) fuel e)) p) as R1.
  destruct (run (or_default None (unit_score (world_of s now p) fuel e)) p) as [[existing| | |] p1]; [|done..]. cbn [snd] in R1.
  generalize (world_of s now p) as w. intros w.
  pose proof (run_stores (or_default 0 (exercise_num_trials w e)) p1) as R2.
  destruct (run (or_default 0 (exercise_num_trials w e)) p1) as [[n| | |] p2]; [|done..]. cbn [snd] in R2.
  destruct R1 as (T1 & D1 & B1 & W1), R2 as (T2 & D2 & B2 & W2).
  assert (Et : p_trials p2 = p_trials p) by congruence. assert (Eb : p_banned p2 = p_banned p) by congruence.
  destruct (if Nat.ltb 0 n then _ else _) as [deltas okd]. destruct okd; [|intros [= <- <-]; by auto].
  cbn [p_trials p_deltas p_rewards p_banned p_caches]. rewrite Et. unfold record_entries. destruct (f_score f); [intros [= <- <-]; by auto|].
  cbn [insert_entries]. destruct (insert_entry bind_f32 (p_trials p) (Entry e (float_score sc) ts)) as [t|] eqn:Ei; [|intros [= <- <-]; by auto].
  destruct (propagate_rewards _ _ _ _ _ _); [|done]. destruct (record_unit_rewards _ _ _ _) as [store us].
  destruct us; intros [= <- <-]; by auto.
Qed.
Lemma insert_rows (t t' : table f32) x : insert_entry bind_f32 t x = Some t' → ∃ r, t_rows t' = t_rows t ++ [r] ∧ r_ts r = e_ts x.
Proof. unfold insert_entry. destruct (uid_of _ _); [|done]. intros [= <-]. cbn. by eexists. Qed.

Section session.
  Context (s : setting) (Hs : setting_ok s).
  Let g := lib_graph (g_lib s).

  (** ** The invariant *)
  Lemma ranges_sub (p : practice) t d r : ranges p → t_rows t `sublist_of` t_rows (p_trials p) → t_rows d `sublist_of` t_rows (p_deltas p) →
    t_rows (rs_table r) `sublist_of` t_rows (rs_table (p_rewards p)) → ∀ b, ranges (Practice t d r b (p_caches p)).
  Proof using. intros [H1 H2 H3 H4] Ht Hd Hr b. split; [by eapply sublist_Forall|by eapply sublist_Forall|by eapply sublist_Forall|done]. Qed.
  Lemma with_caches_ranges f p : ranges p → (rng (p_caches p) → rng (f (p_caches p))) → ranges (with_caches f p).
  Proof using. intros [H1 H2 H3 H4] Hf. split; [done..|]. by apply Hf. Qed.
  Lemma reply_rng now p q c : ranges p → rng c → rng (snd (reply (world_of s now p) q c)).
  Proof using Hs.
    intros Hp Hc. pose proof (world_ok s Hs now p Hp) as Hw.
    pose proof (λ n, ok_unit (world_of s now p) Hw (ok_ord s Hs) (ok_modest s Hs) n) as Hu.
    destruct q as [n u|n u|n u|e]; cbn [reply].
    - destruct (Hu n u c Hc) as [H _]. by destruct (unit_score _ _ _ c).
    - destruct (ok_avg (world_of s now p) Hw (ok_ord s Hs) (ok_modest s Hs) n u c Hc) as [H _]. by destruct (avg_trials _ _ _ c).
    - destruct (ok_superseded (world_of s now p) Hw _ n u (Hu n) c Hc) as [H _]. by destruct (superseded _ _ _ _ c).
    - destruct (ok_entry (world_of s now p) Hw e c Hc) as [H _]. by destruct (exercise_entry _ _ c).
  Qed.
  Lemma questions_rng now p qs : ∀ c, ranges p → rng c → rng (after_questions (world_of s now p) qs c).
  Proof using Hs. induction qs as [|q qs IH]; intros c Hp Hc; [done|]. apply IH; [done|]. by apply reply_rng. Qed.

  Lemma call_trials fuel now p c p' : call_step s fuel now p c = Some p' → good (p_trials p) → good (p_trials p').
  Proof using.
    intros H Hg. destruct c as [f e sc ts|fails u|fails u|pre|pre|u|u|e]; cbn [call_step] in H.
    - destruct (score_call s fuel now f e sc ts p) as [[p1 ok]|] eqn:E; [|done]. injection H as <-.
      apply score_trials in E as [[-> | Ei] _]; [done|]. destruct (insert_entry_spec bind_f32 (p_trials p) (Entry e (float_score sc) ts) Hg) as (t & k & Ei' & Ht & _).
      cbn [fst]. congruence.
    - by injection H as <-.
    - by injection H as <-.
    - by injection H as <-.
    - injection H as <-. by apply remove_prefix_spec.
    - injection H as <-. by rewrite (proj1 (run_stores _ _)).
    - injection H as <-. by rewrite (proj1 (run_stores _ _)).
    - injection H as <-. by rewrite (proj1 (run_stores _ _)).
  Qed.
  Lemma maintain_ranges m p : proper_op (ZMaintain m) → ranges p → ranges (maintain g p m).
  Proof using.
    intros Hm Hp. destruct m; cbn [maintain];
      try (apply ranges_sub; [done|by (apply fewer, trim_shrinks) || by (apply fewer, delete_shrinks) || done
        |by (apply fewer, trim_shrinks) || by (apply fewer, delete_shrinks) || done
        |cbn [reward_step rs_table]; by (apply fewer, trim_id_shrinks) || by (apply fewer, delete_shrinks) || done]).
    - destruct Hp as [H1 H2 H3 H4]. split; [|done..]. cbn [p_trials]. by apply (rows_record bind_f32 bind_f32_same).
    - destruct Hp as [H1 H2 H3 H4]. split; [done| |done..]. cbn [p_deltas]. by apply (rows_record bind_f32 bind_f32_same).
    - destruct Hp as [H1 H2 H3 H4]. split; [done|done| |done]. cbn [p_rewards]. by apply rewards_record_ok.
    - apply with_caches_ranges; [done|]. apply rng_invalidate.
    - apply with_caches_ranges; [done|]. apply rng_prefix.
  Qed.
  Lemma maintain_good m p : good (p_trials p) → good (p_trials (maintain g p m)).
  Proof using.
    intros Hp. destruct m; try done; cbn [maintain p_trials]; [by apply record_spec|..]; (eapply sublist_good; [apply fewer|]).
    - apply trim_shrinks.
    - by destruct (p_trials p).
    - apply delete_shrinks.
    - by destruct (p_trials p).
  Qed.
  Lemma good_step fuel search now z op z' ev : good (p_trials (z_practice z)) → session_step s fuel search now z op = Some (z', ev) →
    good (p_trials (z_practice z')).
  Proof using.
    intros Hg. destruct op as [c|m|v|c|q|preferred]; cbn [session_step].
    - destruct (call_step s fuel now (z_practice z) c) as [p|] eqn:E; [|done].
      assert (Hp : good (p_trials p)) by by eapply call_trials.
      destruct c as [f e sc ts| | | | | | |]; try (by intros [= <- <-]).
      by destruct (stored_more (z_practice z) p); intros [= <- <-].
    - intros [= <- <-]. by apply maintain_good.
    - by intros [= <- <-].
    - by intros [= <- <-].
    - unfold batch_step. destruct (request_batch _ _ _ _ _ _ _ _ _ _ _ _) as [es| | |]; [| |done|done].
      + by intros [= <- <-].
      + by destruct (initial_candidates _ _ _ _ _ _); intros [= <- <-].
    - by intros [= <- <-].
  Qed.
  Lemma good_run preferred ops z evs : session_run s (new_session preferred) ops = Some (z, evs) → good (p_trials (z_practice z)).
  Proof using.
    intros H. apply (run_invariant s (λ z _, good (p_trials (z_practice z))) (λ _, True)
      (λ z evs t z' ev Hz _ E, good_step _ _ _ z _ z' ev Hz E) ops (new_session preferred) [] z evs); [|by apply Forall_true|done].
    apply good_empty.
  Qed.
  Lemma ranged_step fuel search now z op z' ev : ranges (z_practice z) → proper_op op → session_step s fuel search now z op = Some (z', ev) →
    ranges (z_practice z').
  Proof using Hs.
    intros Hr Hop. destruct op as [c|m|v|c|q|preferred]; cbn [session_step].
    - destruct (call_step s fuel now (z_practice z) c) as [p|] eqn:E; [|done].
      assert (Hp : ranges p) by by eapply ranges_step.
      destruct c as [f e sc ts| | | | | | |]; try (by intros [= <- <-]).
      by destruct (stored_more (z_practice z) p); intros [= <- <-].
    - intros [= <- <-]. by apply maintain_ranges.
    - by intros [= <- <-].
    - by intros [= <- <-].
    - assert (Hp : ranges (with_caches (after_questions (world_of s now (z_practice z)) (q_asked q)) (z_practice z))).
      { apply with_caches_ranges; [done|]. by apply questions_rng. }
      unfold batch_step. destruct (request_batch _ _ _ _ _ _ _ _ _ _ _ _) as [es| | |]; [| |done|done].
      + by intros [= <- <-].
      + by destruct (initial_candidates _ _ _ _ _ _); intros [= <- <-].
    - intros [= <- <-]. destruct Hr as [H1 H2 H3 H4]. split; [done|done|done|apply rng_none].
  Qed.
  Lemma ranged_run preferred ops z evs : session_run s (new_session preferred) ops = Some (z, evs) → Forall proper ops → ranges (z_practice z).
  Proof using Hs.
    intros H Hops. apply (run_invariant s (λ z _, ranges (z_practice z)) proper
      (λ z evs t z' ev Hz Ht E, ranged_step _ _ _ z _ z' ev Hz Ht E) ops (new_session preferred) [] z evs); [|done|done].
    apply ranges_new.
  Qed.

  (** A score that counts is one that was stored, and only that. *)
  Lemma graded_right preferred ops z evs : session_run s (new_session preferred) ops = Some (z, evs) →
    ∀ fuel search now f e sc ts z' ev, session_step s fuel search now z (ZCall (CScore f e sc ts)) = Some (z', ev) →
    let more t := ∀ u, stored (p_trials (z_practice z')) u = stored (p_trials (z_practice z)) u ++ only e t u in
    (ev = EGraded e sc ∧ more [(Some (float_score sc), ts)]) ∨ (ev = EOther ∧ more []).
  Proof using Hs.
    intros H fuel search now f e sc ts z' ev. apply good_run in H as Hg. cbn [session_step call_step].
    destruct (score_call s fuel now f e sc ts (z_practice z)) as [[p ok]|] eqn:E; [|done]. cbn [fmap option_fmap option_map fst].
    apply score_trials in E as [[Et | Ei] _].
    - assert (stored_more (z_practice z) p = false) as ->. { unfold stored_more. rewrite Et. apply Nat.ltb_irrefl. }
      intros [= <- <-]. right. split; [done|]. intros u. cbn [with_practice z_practice]. by rewrite Et, only_nil, app_nil_r.
    - destruct (insert_rows _ _ _ Ei) as (r & Hrow & _).
      assert (stored_more (z_practice z) p = true) as ->. { unfold stored_more. rewrite Hrow, app_length. cbn. apply Nat.ltb_lt. lia. }
      intros [= <- <-]. left. split; [done|]. intros u. cbn [z_practice].
      destruct (insert_entry_spec bind_f32 (p_trials (z_practice z)) (Entry e (float_score sc) ts) Hg) as (t & k & Ei' & _ & _ & _ & Hst).
      rewrite Ei in Ei'. injection Ei' as <-. rewrite Hst. f_equal. unfold only. cbn [e_unit e_val e_ts].
      assert (bind_f32 (float_score sc) = Some (float_score sc)) as -> by (destruct sc; reflexivity).
      by destruct (decide (e = u)) as [->|]; [rewrite !bool_decide_eq_true_2|rewrite !bool_decide_eq_false_2].
  Qed.

  (** ** The pile *)
  Lemma omap_split {A B} (f : A → option B) l : ∀ b x a, omap f l = b ++ x :: a →
    ∃ l1 y l2, l = l1 ++ y :: l2 ∧ f y = Some x ∧ omap f l1 = b ∧ omap f l2 = a.
  Proof using.
    induction l as [|y l IH]; intros b x a H; cbn in H; [by destruct b|]. destruct (f y) as [v|] eqn:Ef.
    - destruct b as [|v' b]; injection H as -> H.
      + exists [], y, l. done.
      + destruct (IH b x a H) as (l1 & y' & l2 & -> & H1 & <- & H3). exists (y :: l1), y', l2. split; [done|]. split; [done|]. split; [|done].
        cbn. by rewrite Ef.
    - destruct (IH b x a H) as (l1 & y' & l2 & -> & H1 & <- & H3). exists (y :: l1), y', l2. split; [done|]. split; [done|]. split; [|done].
      cbn. by rewrite Ef.
  Qed.
  Lemma inside_free banned e : get_unit_type g e = Some Exercise → inside s banned e = false ↔ free g banned e.
  Proof using Hs.
    intros He. destruct (known_lesson (g_lib s) (ok_lib s Hs) e He) as (l & c & Hl & Hc). unfold inside, free.
    change (lib_graph (g_lib s)) with g in Hl, Hc |- *. rewrite Hl. cbn [default from_option Datatypes.id]. rewrite Hc. cbn [default from_option Datatypes.id].
    rewrite !orb_false_iff, !bool_decide_eq_false. split.
    - intros (H1 & H2 & H3). split; [done|]. intros l' [= <-]. split; [done|]. intros c' Hc'. congruence.
    - intros (H1 & H2). destruct (H2 l eq_refl) as [H3 H4]. auto.
  Qed.
  Lemma pile_right preferred ops z evs : session_run s (new_session preferred) ops = Some (z, evs) →
    ∀ e, get_unit_type g e = Some Exercise → e ∈ z_pile z ↔ to_relearn g (since_opening evs) e.
  Proof using Hs.
    intros H e He. apply book_run in H as [_ _ ->]. rewrite pile_due. generalize (since_opening evs). intros l. clear evs.
    assert (HF : ∀ a, Forall (λ op, match op with PScore e' _ => e' ≠ e | PBatch banned => banned e = false end) (omap (pile_op_of s) a) ↔
      Forall (λ ev, match ev with EGraded e' _ => e' ≠ e | EBatch banned _ | EFailed banned => free g banned e | _ => True end) a).
    { induction a as [|ev a IH]; [by split; constructor|]. rewrite Forall_cons, <- IH. destruct ev; cbn [omap list_omap pile_op_of];
        rewrite ?Forall_cons, ?(inside_free _ e He); tauto. }
    split.
    - intros (b & a & sc & E & Hlow & Ha). apply omap_split in E as (l1 & y & l2 & -> & Hy & _ & <-).
      exists l1, l2, sc. split; [|by rewrite <- HF]. destruct y; try done. by injection Hy as -> ->.
    - intros (b & a & sc & -> & Hlow & Ha). exists (omap (pile_op_of s) b), (omap (pile_op_of s) a), sc.
      split; [by rewrite omap_app|]. by rewrite HF.
  Qed.
End session.
