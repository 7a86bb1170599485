(** The delta that is stored with a score. *)
From stdpp Require Import gmap strings list.
From Coq Require Import ZArith Lia Reals Lra.
From Flocq Require Import IEEE754.BinarySingleNaN.
From Verif Require Import F32 F32Real F32More Graph GraphSpec Library SearchSpec Stores StoresSpec StoresProofs Options Scorer ScorerSpec ScorerProofs ScoreProofs
  Propagate PropagateSpec UnitScorer Practice PracticeProofs PracticeMore RangeSpec RangeProofs RangeMore CallSpec CallProofs.
Local Open Scope list_scope.

Lemma score_delta s fuel now f e sc ts p p' : kept p → score_call s fuel now f e sc ts p = Some (p', true) →
  ∃ existing p1 n p2, run (or_default None (unit_score (world_of s now p) fuel e)) p = (Val existing, p1) ∧
    run (or_default 0 (exercise_num_trials (world_of s now p) e)) p1 = (Val n, p2) ∧
    ∀ u, stored (p_deltas p') u = stored (p_deltas p) u ++
      only e (if Nat.ltb 0 n then [(bind_f32 (fsub (float_score sc) (default fzero existing)), ts)] else []) u.
Proof.
  intros Hp. unfold score_call. generalize (world_of s now p) as w. intros w.
  pose proof (run_stores (or_default None (unit_score w fuel e)) p) as R1.
  destruct (run (or_default None (unit_score w fuel e)) p) as [[existing| | |] p1]; [|done..]. cbn [snd] in R1.
  pose proof (run_stores (or_default 0 (exercise_num_trials w e)) p1) as R2.
  destruct (run (or_default 0 (exercise_num_trials w e)) p1) as [[n| | |] p2] eqn:E2; [|done..]. cbn [snd] in R2.
  destruct R1 as (_ & D1 & _ & _), R2 as (_ & D2 & _ & _). assert (Ed : p_deltas p2 = p_deltas p) by congruence. clear D1 D2.
  intros H. exists existing, p1, n, p2. split; [done|]. split; [done|]. clear E2.
  revert H. generalize (fsub (float_score sc) (default fzero existing)) as delta. intros delta.
  assert (Hdel : ∃ deltas okd, (if Nat.ltb 0 n then record_entries bind_f32 (f_delta f) (p_deltas p2) [Entry e delta ts] else (p_deltas p2, true)) = (deltas, okd) ∧
    (okd = true → ∀ u, stored deltas u = stored (p_deltas p) u ++ only e (if Nat.ltb 0 n then [(bind_f32 delta, ts)] else []) u)).
  { rewrite Ed. destruct (Nat.ltb 0 n).
    - destruct (one_entry (f_delta f) (p_deltas p) e delta ts (proj2 Hp)) as (_ & H2 & H3).
      destruct (record_entries _ _ _ _) as [d o]. cbn [fst snd] in *. exists d, o. split; [done|]. intros ->. by destruct (f_delta f).
    - exists (p_deltas p), true. split; [done|]. intros _ u. by rewrite only_nil, app_nil_r. }
  destruct Hdel as (deltas & okd & -> & Hd). destruct okd; [|done]. specialize (Hd eq_refl).
  cbn [p_trials p_deltas p_rewards p_banned p_caches].
  destruct (record_entries bind_f32 (f_score f) (p_trials p2) [Entry e (float_score sc) ts]) as [trials [|]]; [|done].
  destruct (propagate_rewards _ _ _ _ _ _) as [rewards|]; [|done].
  destruct (record_unit_rewards _ _ _ _) as [store [us|]]; [|done]. intros [= <-]. exact Hd.
Qed.

(** The delta of an exercise: the new score less the one shown before, if there were trials. *)
Lemma delta_recorded_exactly s : setting_ok s → ∀ fuel cs p, calls s fuel new_practice cs = Some p → ∀ now f e sc ts p',
  get_unit_type (lib_graph (g_lib s)) e = Some Exercise → score_call s fuel now f e sc ts p = Some (p', true) →
  ∃ x, fst (exercise_entry (world_of s now p) e (p_caches p)) = Val x ∧
    adds p p' (only e [(Some (float_score sc), ts)])
      (only e (if Nat.eqb (ca_trials x) 0 then [] else [(Some (fsub (float_score sc) (ca_score x)), ts)])).
Proof.
  intros Hs fuel cs p Hcs now f e sc ts p' He Hcall. pose proof (kept_calls _ _ _ _ _ kept_new Hcs) as Hk.
  destruct (score_recorded _ _ _ _ Hcs _ _ _ _ _ _ Hcall) as (_ & d & [Ht _] & _).
  destruct (score_delta _ _ _ _ _ _ _ _ _ Hk Hcall) as (existing & p1 & n & p2 & E1 & E2 & Hd).
  destruct (history_ranges s Hs _ _ _ Hcs now 0 e) as [_ Hr]. pose proof (history_no_error s Hs p now e) as Hne.
  destruct fuel as [|fuel]; [by unfold run in E1|]. cbn [unit_score] in E1. cbn [world_of w_graph] in E1. rewrite He in E1.
  change (World (lib_graph (g_lib s)) (p_banned p) (compute_exercise s now p) (g_superseding s) (g_ord s)) with (world_of s now p) in E1.
  assert (Hent : ∃ x c, exercise_entry (world_of s now p) e (p_caches p) = (Val x, c) ∧ c_exercise c !! e = Some x ∧
    existing = Some (ca_score x) ∧ p_caches p1 = c).
  { unfold run, or_default, exercise_score, then_do in E1. unfold exercise_entry in *.
    destruct (c_exercise (p_caches p) !! e) as [x|] eqn:Ec.
    - injection E1 as <- <-. exists x, (p_caches p). done.
    - cbn [world_of w_exercise] in *. destruct (compute_exercise s now p e) as [x| | |]; [|done..].
      injection E1 as <- <-. eexists x, _. split; [done|]. split; [cbn; by rewrite lookup_insert|]. done. }
  destruct Hent as (x & c & Hx & Hcx & -> & Hc1). exists x. rewrite Hx. split; [done|]. rewrite Hx in Hr. specialize (Hr x eq_refl) as [Hr _].
  assert (En : n = ca_trials x).
  { unfold run, or_default, exercise_num_trials, then_do, exercise_entry in E2. rewrite Hc1, Hcx in E2. by injection E2 as <- _. }
  subst n. split; [exact Ht|]. intros u. rewrite (Hd u). cbn [default from_option Datatypes.id].
  assert (Eb : bind_f32 (fsub (float_score sc) (ca_score x)) = Some (fsub (float_score sc) (ca_score x))).
  { unfold bind_f32. assert (F : fin (fsub (float_score sc) (ca_score x))).
    { pose proof (float_score_range sc) as Hf. apply (between_f _ _ _ 1 5) in Hf as [Ff Hf]; [|done|done|apply v_1|apply v_5].
      apply in_range_btw in Hr as [Fx Hx']. destruct (fsub_btw (float_score sc) (ca_score x) (-5) 5) as [[? _] _]; [done|done|rp|rp|lra|done]. }
    unfold fis_nan. by destruct (fsub (float_score sc) (ca_score x)). }
  rewrite Eb. f_equal. by destruct (ca_trials x).
Qed.
