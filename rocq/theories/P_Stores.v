(** Properties of the stores: C13 to C19. Scores and deltas are [store_run bind_f32]. *)
From stdpp Require Import gmap strings list.
From Coq Require Import ZArith.
From Verif Require Import F32 Graph Sql Stores StoresSpec StoresProofs StoresMore StoresSample.
Local Open Scope string_scope.
Local Open Scope list_scope.

(** C13: a query returns the newest trials first, after any history with interruptions. The
    query can only fail if a NaN was recorded. *)
Theorem C13_newest_first : ∀ ops, Forall op_ok ops →
  ∃ held, holds_after bind_f32 ops held ∧ ∀ q u n, sorts_newest_first q →
    match get_entries q (store_run bind_f32 ops) u n with
    | Some l => Forall (λ x, e_unit x = u) l ∧ newest n (held u) (item_of <$> l)
    | None => ∃ x, x ∈ held u ∧ x.1 = None
    end.
Proof. exact (store_history bind_f32). Qed.
Print Assumptions C13_newest_first.
Theorem C13_reads_succeed : ∀ ops q u n, Forall op_ok ops → Forall (no_nulls bind_f32) ops →
  sorts_newest_first q → is_Some (get_entries q (store_run bind_f32 ops) u n).
Proof. exact (store_reads_succeed bind_f32). Qed.
Print Assumptions C13_reads_succeed.
Example C13_nonvacuous : Forall op_ok sample_scores ∧ Forall (no_nulls bind_f32) sample_scores.
Proof. exact sample_scores_ok. Qed.
Example C13_nonvacuous_read :
  match get_entries by_time (store_run bind_f32 sample_scores) "a" 2 with
  | Some l => bool_decide (e_ts <$> l = [9; 5]%Z) | None => false end = true.
Proof. vm_compute. reflexivity. Qed.

(** C14 is false for scores and deltas: entries with equal timestamps are all kept. *)
Theorem C14_trim_refuted : ∃ ops n u l, Forall op_ok (ops ++ [STrim by_time None n]) ∧
  get_entries by_time (store_run bind_f32 (ops ++ [STrim by_time None n])) u 10 = Some l ∧ n < length l.
Proof. exact trim_ties. Qed.
Print Assumptions C14_trim_refuted.
(** C14, partial: trimming keeps the newest [n] and those recorded at the same time as one of
    them; without equal timestamps it keeps exactly the newest [n]. *)
Theorem C14_trim_partial : ∀ ops q n, Forall op_ok ops → sorts_newest_first q → ∀ u,
  let before := stored (store_run bind_f32 ops) u in
  let after := stored (store_run bind_f32 (ops ++ [STrim q None n])) u in
  (∃ l ties, newest n before l ∧ after ≡ₚ l ++ ties ∧ ∀ x, x ∈ ties → ∃ y, y ∈ l ∧ y.2 = x.2) ∧
  (NoDup before.*2 → keeps_newest n before after).
Proof. exact (trim_call bind_f32). Qed.
Print Assumptions C14_trim_partial.
(** C14 for rewards: exactly the newest [n]. *)
Theorem C14_trim_rewards : ∀ ops q n, Forall reward_op_ok ops → sorts_newest_first q →
  ∀ u, keeps_newest n (stored (rs_table (reward_run ops)) u)
         (stored (rs_table (reward_step (reward_run ops) (RTrim q None n))) u).
Proof. exact trim_rewards_call. Qed.
Print Assumptions C14_trim_rewards.
Example C14_nonvacuous : sorts_newest_first (@by_time f32) ∧
  NoDup (stored (store_run bind_f32 sample_scores) "a").*2 ∧
  length (stored (store_run bind_f32 sample_scores) "a") = 2.
Proof.
  split; [apply by_time_ok|]. split; [|reflexivity]. apply (bool_decide_unpack _). vm_compute. reflexivity.
Qed.

(** C15 is false: [_] and [%] are wildcards, and case is ignored. *)
Theorem C15_wildcard_refuted : ∃ (ops : list (store_op f32)) p u, Forall op_ok ops ∧ (∀ s, u ≠ p +:+ s) ∧
  stored (store_run bind_f32 ops) u ≠ [] ∧
  stored (store_run bind_f32 (ops ++ [SRemovePrefix None p])) u = [].
Proof. exact prefix_wildcard. Qed.
Print Assumptions C15_wildcard_refuted.
Theorem C15_case_refuted : ∃ ops p u, plain p ∧ (∀ s, u ≠ p +:+ s) ∧
  u ∈ get_blacklist_entries (blacklist_run ops) ∧
  get_blacklist_entries (fst (blacklist_step (blacklist_run ops) (BRemovePrefix None p))) = [].
Proof. exact prefix_case. Qed.
Print Assumptions C15_case_refuted.
(** C15, partial: all units with the prefix lose their data; if the prefix has no wildcard, a
    unit that loses data has the prefix up to the case of ASCII letters. *)
Theorem C15_scores_partial : ∀ (ops : list (store_op f32)) p, Forall op_ok ops → ∀ u,
  let before := stored (store_run bind_f32 ops) u in
  let after := stored (store_run bind_f32 (ops ++ [SRemovePrefix None p])) u in
  (begins_with p u → after = []) ∧ (plain p → ¬ begins_with_nocase p u → after = before) ∧
  (after = before ∨ after = [] ∧ like_prefix p u = true).
Proof. exact (remove_prefix_call bind_f32). Qed.
Print Assumptions C15_scores_partial.
Theorem C15_rewards_partial : ∀ ops p, Forall reward_op_ok ops → ∀ u,
  let before := stored (rs_table (reward_run ops)) u in
  let after := stored (rs_table (reward_step (reward_run ops) (RRemovePrefix None p))) u in
  (begins_with p u → after = []) ∧ (plain p → ¬ begins_with_nocase p u → after = before).
Proof. exact remove_prefix_rewards. Qed.
Print Assumptions C15_rewards_partial.
Theorem C15_blacklist_partial : ∀ ops p, let b := blacklist_run ops in
  let b' := fst (blacklist_step b (BRemovePrefix None p)) in
  ∀ u, (begins_with p u → u ∉ get_blacklist_entries b') ∧
       (plain p → ¬ begins_with_nocase p u → u ∈ get_blacklist_entries b' ↔ u ∈ get_blacklist_entries b).
Proof. exact remove_prefix_blacklist. Qed.
Print Assumptions C15_blacklist_partial.
Example C15_nonvacuous : begins_with "a::" "a::b" ∧ plain "a::".
Proof. split; [by exists "b"|]. split; vm_compute; set_solver. Qed.

(** C16: the blacklist answers agree with its entries after any history, with failures. *)
Theorem C16_blacklist_coherent : ∀ ops, let b := blacklist_run ops in
  NoDup (get_blacklist_entries b) ∧
  (∀ u, snd (has_entry b u) = true ↔ u ∈ get_blacklist_entries b) ∧
  (∀ u, snd (has_entry (open_blacklist (get_blacklist_entries b)) u) = snd (has_entry b u)) ∧
  (∀ op, bl_effect op (get_blacklist_entries b) (get_blacklist_entries (fst (blacklist_step b op))) ∧
         (bl_faultless op = true → snd (blacklist_step b op) = true)).
Proof. exact blacklist_coherent. Qed.
Print Assumptions C16_blacklist_coherent.
Example C16_nonvacuous :
  get_blacklist_entries (blacklist_run [BAdd false "a"; BQuery "b"; BAdd true "c"; BAdd false "b"; BRemove false "a"]) = ["b"].
Proof. vm_compute. reflexivity. Qed.

(** C17: the review list is a set in order of insertion. *)
Theorem C17_review_list_is_set : ∀ ops, NoDup (review_run ops) ∧
  (∀ u, u ∈ review_run ops ↔ ∃ i, added_at ops u i) ∧
  (∀ i j u v a b, i < j → review_run ops !! i = Some u → review_run ops !! j = Some v →
     added_at ops u a → added_at ops v b → a < b).
Proof. exact review_list_set. Qed.
Print Assumptions C17_review_list_is_set.
Example C17_nonvacuous : review_run [VAdd "b"; VAdd "a"; VAdd "b"; VRemove "b"; VAdd "b"] = ["a"; "b"].
Proof. vm_compute. reflexivity. Qed.

(** C18: at most 20 rewards per unit, the newest written; the units reported are those written. *)
Theorem C18_at_most_twenty : ∀ ops q u n, Forall reward_op_ok ops → sorts_newest_first q →
  length (stored (rs_table (reward_run ops)) u) <= 20 ∧
  match get_entries q (rs_table (reward_run ops)) u n with
  | Some l => Forall (λ x, e_unit x = u) l ∧ newest n (stored (rs_table (reward_run ops)) u) (item_of <$> l)
  | None => ∃ x, x ∈ stored (rs_table (reward_run ops)) u ∧ x.1 = None
  end.
Proof. exact rewards_bounded. Qed.
Print Assumptions C18_at_most_twenty.
Theorem C18_reports_written : ∀ ops q rs, Forall reward_op_ok ops → sorts_newest_first q →
  let s := reward_run ops in
  ∃ s' ws, record_unit_rewards q None s rs = (s', Some (e_unit <$> ws)) ∧ ws `sublist_of` rs ∧
    ∀ u, keeps_newest 20 (stored (rs_table s) u ++ of_unit u ws) (stored (rs_table s') u).
Proof. exact record_rewards_call. Qed.
Print Assumptions C18_reports_written.
Theorem C18_failure_stores_nothing : ∀ ops q i rs, Forall reward_op_ok ops → sorts_newest_first q →
  let s := reward_run ops in
  ∃ s', record_unit_rewards q (Some i) s rs = (s', None) ∧ rs_table s' = rs_table s.
Proof. exact record_rewards_failed. Qed.
Print Assumptions C18_failure_stores_nothing.
Theorem C18_newest_of_all_written : ∀ ops, Forall only_records ops →
  ∃ ws, ws `sublist_of` mjoin (op_rewards <$> ops) ∧
    ∀ u, keeps_newest 20 (of_unit u ws) (stored (rs_table (reward_run ops)) u).
Proof. exact reward_history. Qed.
Print Assumptions C18_newest_of_all_written.
Example C18_nonvacuous : Forall reward_op_ok after_eviction ∧
  length (stored (rs_table (reward_run after_eviction)) "lesson") = 20.
Proof. split; [apply after_ok|]. vm_compute. reflexivity. Qed.

(** C19 is false after a prefix removal, after a failed call, and when rewards do not come in
    order of time. *)
Theorem C19_removal_refuted : ∃ ops r, Forall reward_op_ok ops ∧
  (∃ s, record_unit_rewards by_time None (reward_run ops) [r] = (s, Some [])) ∧
  ∀ x, x ∈ stored (rs_table (reward_run ops)) (e_unit r) → ¬ similar x (reward_item r).
Proof. exact reward_dropped_after_removal. Qed.
Print Assumptions C19_removal_refuted.
Theorem C19_failure_refuted : ∃ ops r, Forall reward_op_ok ops ∧
  Forall (λ op, match op with RRecord _ _ _ => True | _ => False end) ops ∧
  (∃ s, record_unit_rewards by_time None (reward_run ops) [r] = (s, Some [])) ∧
  ∀ x, x ∈ stored (rs_table (reward_run ops)) (e_unit r) → ¬ similar x (reward_item r).
Proof. exact reward_dropped_after_failure. Qed.
Print Assumptions C19_failure_refuted.
Theorem C19_disorder_refuted : ∃ ops r, Forall reward_op_ok ops ∧
  Forall only_records ops ∧ Forall never_fails ops ∧
  (∃ s, record_unit_rewards by_time None (reward_run ops) [r] = (s, Some [])) ∧
  ∀ x, x ∈ stored (rs_table (reward_run ops)) (e_unit r) → ¬ similar x (reward_item r).
Proof. exact reward_dropped_after_eviction. Qed.
Print Assumptions C19_disorder_refuted.
(** C19, partial: histories of successful recordings in order of time, with reopening. *)
Theorem C19_dropped_similar_partial : ∀ ops r, Forall only_records ops → Forall never_fails ops →
  in_order (mjoin (op_rewards <$> ops) ++ [r]) → ∀ q s', sorts_newest_first q →
  record_unit_rewards q None (reward_run ops) [r] = (s', Some []) →
  ∃ x, x ∈ stored (rs_table (reward_run ops)) (e_unit r) ∧ similar x (reward_item r).
Proof. exact skipped_similar. Qed.
Print Assumptions C19_dropped_similar_partial.
Example C19_nonvacuous : Forall only_records sample_records ∧ Forall never_fails sample_records ∧
  in_order (mjoin (op_rewards <$> sample_records) ++ [r0 20]).
Proof. exact sample_records_ok. Qed.
Example C19_nonvacuous_drop :
  match record_unit_rewards by_time None (reward_run sample_records) [r0 20] with
  | (_, Some []) => true | _ => false end = true.
Proof. vm_compute. reflexivity. Qed.
