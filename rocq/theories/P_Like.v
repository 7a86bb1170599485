(** C15, which units a removal by prefix reaches, exactly. Vocabulary: LikeSpec.v. *)
From stdpp Require Import list strings.
From Verif Require Import F32 Stores StoresSpec LikeSpec LikeProofs.
Local Open Scope string_scope.
Local Open Scope list_scope.

(** After any history: the units with an identifier that begins like the prefix lose all of their
    trials or deltas, all others none. *)
Theorem C15_scores_exact_partial : ∀ (ops : list (store_op f32)) p, Forall op_ok ops → ∀ u,
  let before := stored (store_run bind_f32 ops) u in
  let after := stored (store_run bind_f32 (ops ++ [SRemovePrefix None p])) u in
  (begins_like p u → after = []) ∧ (¬ begins_like p u → after = before).
Proof. exact (prefix_scores bind_f32). Qed.
Print Assumptions C15_scores_exact_partial.
(** The same for rewards *)
Theorem C15_rewards_exact_partial : ∀ ops p, Forall reward_op_ok ops → ∀ u,
  let before := stored (rs_table (reward_run ops)) u in
  let after := stored (rs_table (reward_step (reward_run ops) (RRemovePrefix None p))) u in
  (begins_like p u → after = []) ∧ (¬ begins_like p u → after = before).
Proof. exact prefix_rewards. Qed.
Print Assumptions C15_rewards_exact_partial.
(** and the blacklist. *)
Theorem C15_blacklist_exact_partial : ∀ ops p, let b := blacklist_run ops in
  let b' := fst (blacklist_step b (BRemovePrefix None p)) in
  ∀ u, u ∈ get_blacklist_entries b' ↔ u ∈ get_blacklist_entries b ∧ ¬ begins_like p u.
Proof. exact prefix_blacklist. Qed.
Print Assumptions C15_blacklist_exact_partial.
(** Identifiers that begin like a prefix with a wildcard, and one that does not. *)
Example C15_exact_nonvacuous : begins_like "theory_1" "Theory-1::x" ∧ ¬ begins_like "theory_1" "theory1::x" ∧ begins_like "%::x" "a::x::y".
Proof. exact like_samples. Qed.
