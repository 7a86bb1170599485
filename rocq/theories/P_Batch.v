(** Properties of batches: C28, C29, C32, C33, C37, C52. The vocabulary is in BatchSpec.v; [finish_candidates]
    turns the candidates of a search into a batch. *)
From stdpp Require Import gmap strings list.
From Coq Require Import ZArith.
From Verif Require Import F32 Graph Library LibrarySpec GraphSpec GraphMore Options OptionsSpec Batch BatchSpec
  KnockProofs SelectProofs ShuffleProofs FinishProofs BatchSample BatchMore.
Local Open Scope string_scope.

(** C28 in full is false: options whose windows overlap are accepted, and then a batch repeats
    an exercise. *)
Theorem C28_overlap_refuted : ∃ o c m r e batch, verify_options o = true ∧ choices_ok r ∧ edges_ok e ∧
  finish_candidates m r e (OptionCopies o o o) f_1 ∅ [c] = Some batch ∧ ¬ NoDup (exercise_id <$> batch).
Proof. exact overlap_repeats. Qed.
Print Assumptions C28_overlap_refuted.
(** C28, partial: no repetition when the search found no exercise twice and no score lies in
    two windows. *)
Theorem C28_no_repeats_partial : ∀ ops e m r o rate pile cs batch,
  choices_ok r → edges_of (grun ops) e → NoDup (exercise_id <$> cs) →
  (∀ c, c ∈ cs → length (windows_of (oc_filter o) (exercise_score c)) ≤ 1) →
  finish_candidates m r e o rate pile cs = Some batch → NoDup (exercise_id <$> batch).
Proof. exact no_repeats. Qed.
Print Assumptions C28_no_repeats_partial.
(** C28 for the default windows and scores from 0 to 5. *)
Theorem C28_defaults_no_repeats : ∀ ops e m r b o rate pile cs batch,
  choices_ok r → edges_of (grun ops) e → NoDup (exercise_id <$> cs) →
  (∀ c, c ∈ cs → score_in_range (exercise_score c)) → oc_filter o = create_scheduler_options b →
  finish_candidates m r e o rate pile cs = Some batch → NoDup (exercise_id <$> batch).
Proof. exact defaults_no_repeats. Qed.
Print Assumptions C28_defaults_no_repeats.
(** Every exercise of a batch is a candidate or in the relearn pile. *)
Theorem C28_members : ∀ ops e m r o rate pile cs batch x,
  choices_ok r → edges_of (grun ops) e → NoDup (exercise_id <$> cs) →
  finish_candidates m r e o rate pile cs = Some batch → x ∈ exercise_id <$> batch →
  x ∈ exercise_id <$> cs ∨ x ∈ pile.
Proof. exact members. Qed.
Print Assumptions C28_members.
Example C28_nonvacuous : choices_ok first_choices ∧ edges_of (grun []) (graph_edges (grun [])) ∧
  NoDup (exercise_id <$> mixed_candidates) ∧
  (∀ c, c ∈ mixed_candidates → score_in_range (exercise_score c)) ∧
  batch_ids (finish_candidates no_libm first_choices (graph_edges (grun [])) (same_options (set_batch_size 10 default_options)) f_1
    {["a"; "z"]} mixed_candidates) = Some ["f"; "z"; "e"; "a"; "b"; "d"; "c"].
Proof. exact mixed_nonvacuous. Qed.

(** C29 in full is false: a batch can be larger than the batch size, and it can be empty
    although there are candidates. *)
Theorem C29_maximum_refuted : ∃ o cs m r e batch, verify_options o = true ∧ choices_ok r ∧ edges_ok e ∧
  NoDup (exercise_id <$> cs) ∧ (∀ c, c ∈ cs → score_in_range (exercise_score c)) ∧
  finish_candidates m r e (OptionCopies o o o) f_1 ∅ cs = Some batch ∧ batch_size o < length batch.
Proof. exact maximum_exceeded. Qed.
Print Assumptions C29_maximum_refuted.
Theorem C29_nonempty_refuted : ∃ ord courses lib e cs m r, order_ok ord ∧ Forall consistent courses ∧
  open_library ord courses = Some lib ∧ edges_of (lib_graph lib) e ∧ choices_ok r ∧ cs ≠ [] ∧
  NoDup (exercise_id <$> cs) ∧ (∀ c, c ∈ cs → score_in_range (exercise_score c)) ∧
  finish_candidates m r e (OptionCopies default_options default_options default_options) f_1 ∅ cs = Some [].
Proof. exact all_dropped. Qed.
Print Assumptions C29_nonempty_refuted.
(** C29, partial: with the default windows and any batch size up to a million, a batch has at
    most max(5, b) exercises and another b/10 from the relearn pile, whatever the success
    rate. *)
Theorem C29_default_size_partial : ∀ m r e b rate pile cs batch, choices_ok r → (Z.of_nat b <= 1000000)%Z →
  let o := create_scheduler_options (Some b) in
  finish_candidates m r e (OptionCopies o o o) rate pile cs = Some batch →
  length batch ≤ Nat.max 5 b + b / 10.
Proof. exact default_batch_size. Qed.
Print Assumptions C29_default_size_partial.
(** C29, partial: for any options, the sum of the shares of the windows, at least one each, and
    the share of the relearn pile is an upper bound. *)
Theorem C29_size_partial : ∀ m r e o rate pile cs batch n, choices_ok r →
  finish_candidates m r e o rate pile cs = Some batch →
  let b := batch_size (oc_filter o) in
  (∀ b', b' ≤ b → finite_shares b' (oc_filter o) rate) → relearn_count (oc_relearn o) = Some n →
  ∃ b', b' ≤ b ∧ length batch ≤ Nat.max b' (window_total b' (windows (adjusted_mastery_windows (oc_filter o) rate))) + n.
Proof. exact batch_size_bound. Qed.
Print Assumptions C29_size_partial.
(** C29, partial: a batch is not empty when the windows cover the scores and some candidate is
    not both mastered and covered ten times by the others. *)
Theorem C29_nonempty_partial : ∀ ops e m r o rate pile cs batch c, choices_ok r → edges_of (grun ops) e →
  NoDup (exercise_id <$> cs) →
  (∀ c, c ∈ cs → 1 ≤ length (windows_of (oc_filter o) (exercise_score c))) →
  c ∈ cs → fge (exercise_score c) f_4_5 = false ∨ ¬ covered_times e cs c 10 →
  finish_candidates m r e o rate pile cs = Some batch → batch ≠ [].
Proof. exact nonempty. Qed.
Print Assumptions C29_nonempty_partial.
Example C29_nonvacuous : scored "a" "L" "C" f_1 ∈ mixed_candidates ∧
  fge (exercise_score (scored "a" "L" "C" f_1)) f_4_5 = false ∧
  (∀ c, c ∈ mixed_candidates → 1 ≤ length (windows_of default_options (exercise_score c))).
Proof. exact nonempty_nonvacuous. Qed.

(** C32. *)
Theorem C32_shuffle : ∀ r o cs, choices_ok r →
  shuffle_candidates r o cs ≡ₚ cs ∧ well_grouped o (shuffle_candidates r o cs).
Proof. exact shuffle_right. Qed.
Print Assumptions C32_shuffle.
Example C32_example : exercise_id <$> shuffle_candidates first_choices default_options mixed_candidates =
  ["e"; "a"; "b"; "d"; "c"; "f"].
Proof. vm_compute. reflexivity. Qed.

(** C33: the pile holds what was last scored low and was not found blacklisted since. *)
Theorem C33_last_score : ∀ ops e, e ∈ pile_after ops ↔ due_for_relearning ops e.
Proof. exact pile_due. Qed.
Print Assumptions C33_last_score.
(** C33: what the pile contributes are distinct members of the pile that are not blacklisted,
    and no more than its share. *)
Theorem C33_contribution : ∀ r o banned pile, choices_ok r →
  let ids := exercise_id <$> select_exercises r o (clean_pile banned pile) in
  NoDup ids ∧ (∀ e, e ∈ ids → e ∈ pile ∧ banned e = false) ∧
  ∀ n, relearn_count o = Some n → length ids ≤ n.
Proof. exact contribution_right. Qed.
Print Assumptions C33_contribution.
Theorem C33_default_share : ∀ b, (Z.of_nat b <= 1000000)%Z →
  ∃ n, relearn_count (create_scheduler_options (Some b)) = Some n ∧ n ≤ b / 10.
Proof. exact SizeProofs.relearn_default. Qed.
Print Assumptions C33_default_share.
Example C33_example : pile_after [PScore "a" Two; PScore "b" One; PScore "a" Four; PScore "c" One;
  PBatch (λ e, bool_decide (e = "c")); PScore "d" Two] = {["b"; "d"]}.
Proof. exact pile_example. Qed.

(** C37. *)
Theorem C37_knocked_out : ∀ ops e ord batch, edges_of (grun ops) e →
  (∀ s, NoDup (ord s) ∧ ∀ u, u ∈ ord s ↔ u ∈ s) → NoDup (exercise_id <$> batch) →
  ∃ k, knock_out_reviews e ord batch = Some k ∧ knocked_as_stated e batch k.
Proof. exact knocked_right. Qed.
Print Assumptions C37_knocked_out.
Example C37_example : edges_of (grun cover_ops) (graph_edges (grun cover_ops)) ∧
  NoDup (exercise_id <$> cover_candidates) ∧
  knocked_ids (knock_out_reviews (graph_edges (grun cover_ops)) elements cover_candidates) =
    Some (exercise_id <$> drop 1 cover_candidates).
Proof. exact (conj (graph_edges_of _) cover_example). Qed.

(** C52: the weighted draw is only ever asked for with positive weights, so no batch panics. *)
Theorem C52_no_panic : ∀ m r e o rate pile cs, choices_ok r → edges_ok e →
  ∃ batch, finish_candidates m r e o rate pile cs = Some batch.
Proof. exact batch_total. Qed.
Print Assumptions C52_no_panic.
Theorem C52_positive_weights : ∀ m c, flt fzero (candidate_weight m c) = true.
Proof. exact weight_positive. Qed.
Print Assumptions C52_positive_weights.
Example C52_nonvacuous : choices_ok first_choices ∧ edges_ok no_edges.
Proof. exact (conj first_choices_ok no_edges_ok). Qed.
