(** The effect of one score on the stores. *)
From stdpp Require Import gmap strings list.
From Coq Require Import ZArith Lia.
From Verif Require Import F32 Graph GraphSpec Library SearchSpec Stores StoresSpec StoresProofs Options Scorer Propagate UnitScorer UnitSample Practice
  PracticeProofs PracticeMore PracticeSample CallSpec.
Local Open Scope string_scope.
Local Open Scope list_scope.

Lemma run_stores {A} (m : prog A) p : p_trials (snd (run m p)) = p_trials p ∧ p_deltas (snd (run m p)) = p_deltas p ∧
  p_banned (snd (run m p)) = p_banned p ∧ p_rewards (snd (run m p)) = p_rewards p.
Proof. unfold run. by destruct (m (p_caches p)). Qed.
Lemma one_entry fault (t : table f32) e v ts : good t → good (fst (record_entries bind_f32 fault t [Entry e v ts])) ∧
  snd (record_entries bind_f32 fault t [Entry e v ts]) = negb fault ∧
  ∀ u, stored (fst (record_entries bind_f32 fault t [Entry e v ts])) u = stored t u ++ only e (if fault then [] else [(bind_f32 v, ts)]) u.
Proof.
  intros Hg. destruct (record_spec bind_f32 fault [Entry e v ts] t Hg) as (H1 & H2 & H3). split; [done|]. split; [done|].
  intros u. rewrite (H3 u). f_equal. unfold only. destruct fault; [by destruct (bool_decide _)|].
  destruct (bool_decide (u = e)) eqn:E.
  - apply bool_decide_eq_true in E as ->. by rewrite filter_cons_True.
  - apply bool_decide_eq_false in E. rewrite filter_cons_False; [done|]. cbn. congruence.
Qed.
Lemma only_nil e u : only e [] u = [].
Proof. unfold only. by destruct (bool_decide _). Qed.

Definition kept (p : practice) : Prop := good (p_trials p) ∧ good (p_deltas p).

(** A score adds one trial or fails, and adds at most one delta. *)
Lemma score_adds s fuel now f e sc ts p p' ok : kept p → score_call s fuel now f e sc ts p = Some (p', ok) →
  kept p' ∧ p_banned p' = p_banned p ∧
  ∃ t d, adds p p' (only e t) (only e d) ∧
    (t = [] ∨ t = [(Some (float_score sc), ts)]) ∧ (d = [] ∨ ∃ x, d = [(x, ts)]) ∧
    (ok = true → t = [(Some (float_score sc), ts)]) ∧ (f_delta f = true → d = []) ∧
    (f_score f = true → t = [] ∧ ok = false) ∧ (f_rewards f ≠ None → ok = false).
Proof.
  intros Hp. unfold score_call.
  pose proof (run_stores (or_default None (unit_score (world_of s now p) fuel e)) p) as R1.
  destruct (run (or_default None (unit_score (world_of s now p) fuel e)) p) as [[existing| | |] p1]; [|done..]. cbn [snd] in R1.
  generalize (world_of s now p) as w. intros w.
  pose proof (run_stores (or_default 0 (exercise_num_trials w e)) p1) as R2.
  destruct (run (or_default 0 (exercise_num_trials w e)) p1) as [[n| | |] p2]; [|done..]. cbn [snd] in R2.
  destruct R1 as (T1 & D1 & B1 & W1), R2 as (T2 & D2 & B2 & W2).
  assert (Et : p_trials p2 = p_trials p) by congruence. assert (Ed : p_deltas p2 = p_deltas p) by congruence.
  assert (Eb : p_banned p2 = p_banned p) by congruence. assert (Er : p_rewards p2 = p_rewards p) by congruence.
  clear T1 T2 D1 D2 B1 B2 W1 W2.
  generalize (fsub (float_score sc) (default fzero existing)) as delta. intros delta.
  assert (Hdel : ∃ deltas okd d, (if Nat.ltb 0 n then record_entries bind_f32 (f_delta f) (p_deltas p2) [Entry e delta ts] else (p_deltas p2, true)) = (deltas, okd) ∧
    good deltas ∧ (∀ u, stored deltas u = stored (p_deltas p) u ++ only e d u) ∧ (d = [] ∨ ∃ x, d = [(x, ts)]) ∧ (f_delta f = true → d = [])).
  { rewrite Ed. destruct (Nat.ltb 0 n).
    - destruct (one_entry (f_delta f) (p_deltas p) e delta ts (proj2 Hp)) as (H1 & H2 & H3).
      destruct (record_entries _ _ _ _) as [d o]. cbn [fst snd] in *. exists d, o, (if f_delta f then [] else [(bind_f32 delta, ts)]).
      split; [done|]. split; [done|]. split; [done|]. destruct (f_delta f); [by split; [left|]|]. split; [right; by eexists|done].
    - exists (p_deltas p), true, []. split; [done|]. split; [apply Hp|]. split; [intros u; by rewrite only_nil, app_nil_r|]. by split; [left|]. }
  destruct Hdel as (deltas & okd & d & -> & Gd & Sd & Od & Fd). destruct okd.
  2:{ intros [= <- <-]. split; [split; [rewrite Et|rewrite Ed]; apply Hp|]. split; [done|]. exists [], [].
      split; [split; intros u; rewrite ?Et, ?Ed, only_nil, app_nil_r; done|]. by repeat (split; [by (left || right) || done|]). }
  cbn [p_trials p_deltas p_rewards p_banned p_caches]. rewrite Et.
  destruct (one_entry (f_score f) (p_trials p) e (float_score sc) ts (proj1 Hp)) as (Gt & Ot & St).
  assert (Eb32 : bind_f32 (float_score sc) = Some (float_score sc)) by (destruct sc; reflexivity).
  destruct (record_entries bind_f32 (f_score f) (p_trials p) [Entry e (float_score sc) ts]) as [trials okt]. cbn [fst snd] in *. subst okt.
  destruct (f_score f) eqn:Ef; cbn [negb].
  { intros [= <- <-]. split; [split; [cbn [p_trials]; apply Hp|done]|]. split; [done|]. exists [], d. cbn [p_trials p_deltas].
    split; [split; intros u; [by rewrite only_nil, app_nil_r|apply Sd]|]. split; [by left|]. split; [done|]. done. }
  destruct (propagate_rewards _ _ _ _ _ _) as [rewards|]; [|done].
  destruct (record_unit_rewards _ _ _ _) as [store us] eqn:Eru.
  assert (Hk : ∀ store c, kept (Practice trials deltas store (p_banned p2) c) ∧ p_banned (Practice trials deltas store (p_banned p2) c) = p_banned p ∧
    adds p (Practice trials deltas store (p_banned p2) c) (only e [(Some (float_score sc), ts)]) (only e d)).
  { intros st c. split; [by split|]. split; [done|]. split; [|exact Sd]. intros u. cbn [p_trials]. rewrite (St u), Eb32. done. }
  destruct us as [us|]; intros [= <- <-].
  - destruct (Hk store (fold_left (λ c u, invalidate (lib_graph (g_lib s)) u c) us (invalidate (lib_graph (g_lib s)) e (p_caches p2)))) as (H1 & H2 & H3).
    split; [exact H1|]. split; [exact H2|]. eexists _, d. split; [exact H3|]. split; [by right|]. split; [done|]. split; [done|]. split; [done|]. split; [done|].
    intros Hr. unfold record_unit_rewards in Eru. destruct (f_rewards f); [|done]. by destruct (reward_loop _ _ _) as [[[? ?] ?]|].
  - destruct (Hk store (invalidate (lib_graph (g_lib s)) e (p_caches p2))) as (H1 & H2 & H3).
    split; [exact H1|]. split; [exact H2|]. eexists _, d. split; [exact H3|]. split; [by right|]. split; [done|]. split; [done|]. split; [done|]. done.
Qed.

Lemma kept_step s fuel now p c p' : kept p → call_step s fuel now p c = Some p' → kept p'.
Proof.
  intros Hp. assert (Hr : ∀ {A} (m : prog A), kept (snd (run m p))).
  { intros A m. destruct (run_stores m p) as (E1 & E2 & _). unfold kept. by rewrite E1, E2. }
  destruct c; cbn [call_step]; try (intros [= <-]; done || apply Hr).
  - destruct (score_call _ _ _ _ _ _ _ _) as [[p1 ok]|] eqn:E; [|done]. intros [= <-]. by apply score_adds in E as [? _].
  - intros [= <-]. split; [|apply Hp]. apply remove_prefix_spec, Hp.
Qed.
Lemma kept_calls s fuel cs : ∀ p p', kept p → calls s fuel p cs = Some p' → kept p'.
Proof.
  induction cs as [|[now c] cs IH]; intros p p' Hp H; [by injection H as <-|]. cbn [calls] in H.
  destruct (call_step s fuel now p c) as [p1|] eqn:E; [|done]. apply (IH p1); [|done]. by eapply kept_step.
Qed.
Lemma kept_new : kept new_practice.
Proof. split; apply good_empty. Qed.

Lemma score_recorded s fuel cs p : calls s fuel new_practice cs = Some p → ∀ now f e sc ts p', score_call s fuel now f e sc ts p = Some (p', true) →
  p_banned p' = p_banned p ∧ ∃ d, adds p p' (only e [(Some (float_score sc), ts)]) (only e d) ∧ (d = [] ∨ ∃ x, d = [(x, ts)]).
Proof.
  intros H now f e sc ts p' Hc. apply kept_calls in H; [|apply kept_new]. apply score_adds in Hc as (_ & Hb & t & d & Ha & _ & Hd & Ht & _); [|done].
  split; [done|]. exists d. by rewrite <- (Ht eq_refl).
Qed.
Lemma score_at_most s fuel cs p : calls s fuel new_practice cs = Some p → ∀ now f e sc ts p', score_call s fuel now f e sc ts p = Some (p', false) →
  p_banned p' = p_banned p ∧ ∃ t d, adds p p' (only e t) (only e d) ∧
    (t = [] ∨ t = [(Some (float_score sc), ts)]) ∧ (d = [] ∨ ∃ x, d = [(x, ts)]) ∧
    (f_delta f = true → d = []) ∧ (f_score f = true → t = []).
Proof.
  intros H now f e sc ts p' Hc. apply kept_calls in H; [|apply kept_new].
  apply score_adds in Hc as (_ & Hb & t & d & Ha & H1 & H2 & _ & H4 & H5 & _); [|done].
  split; [done|]. exists t, d. split; [done|]. split; [done|]. split; [done|]. split; [done|]. intros Hf. by apply H5.
Qed.
