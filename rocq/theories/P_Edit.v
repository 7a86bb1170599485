(** Properties of changes of the unit graph of an open library: C98. Vocabulary: EditSpec.v,
    SearchSpec.v. The changes are arbitrary calls, accepted or not, in any order. *)
From stdpp Require Import gmap strings list relations.
From Coq Require Import ZArith.
From Verif Require Import F32 Graph GraphSpec GraphProofs GraphMore Library LibrarySpec Filters Options Batch BatchSpec Search SearchSpec SearchSample SearchMore
  Edit EditSpec EditProofs EditSample.
Local Open Scope list_scope.
Local Open Scope string_scope.

(** C98 in full is false: after five accepted calls every request for a batch of all exercises runs
    for ever, whatever was practiced and whichever orders are drawn. *)
Theorem C98_endless_refuted : ∃ lib ops, opened lib ∧ all_accepted (lib_graph lib) ops = true ∧
  ∀ env os fuel checks time m r e oc rate pile, s_lib env = edit_library lib ops →
    get_exercise_batch env os fuel checks time m r e oc rate pile None = BatchNoFuel.
Proof. exact circle_endless. Qed.
Print Assumptions C98_endless_refuted.

(** An accepted call adds an exercise to a lesson; the check for circles passes; a request fails. *)
Theorem C98_fails_refuted : ∃ lib ops env, opened lib ∧ all_accepted (lib_graph lib) ops = true ∧
  check_cycles sample_order (edit_graph (lib_graph lib) ops) = true ∧ s_lib env = edit_library lib ops ∧
  answers_exercises env ∧ s_review env = [] ∧ a_batch env ∅ None = BatchError.
Proof. exact extra_fails. Qed.
Print Assumptions C98_fails_refuted.

(** Changes that add no units, and after which a request still gives what it should. *)
Example C98_example : ∃ lib, opened lib ∧ all_accepted (lib_graph lib) ordered = true ∧ Forall adds_no_unit ordered ∧
  check_cycles sample_order (edit_graph (lib_graph lib) ordered) = true ∧ answers_exercises (edited_env lib ordered) ∧
  batch_of_ids (a_batch (edited_env lib []) ∅ None) = Some ["A::1::x"; "B::1::x"] ∧
  batch_of_ids (a_batch (edited_env lib ordered) ∅ None) = Some ["A::1::x"].
Proof. exact ordered_works. Qed.
(** Courses that wait for each other: accepted, the check for circles does not pass, requests give an empty batch. *)
Example C98_loop_example : ∃ lib, opened lib ∧ all_accepted (lib_graph lib) loop = true ∧ Forall adds_no_unit loop ∧
  check_cycles sample_order (edit_graph (lib_graph lib) loop) = false ∧
  batch_of_ids (a_batch (edited_env lib []) ∅ None) = Some ["A::1::x"; "B::1::x"] ∧
  batch_of_ids (a_batch (edited_env lib loop) ∅ None) = Some [].
Proof. exact loop_works. Qed.

(** C98, partial: after any changes after which the check for circles passes, every request ends. *)
Theorem C98_checked_partial : ∀ env lib ops os o checks time m r e oc rate pile f,
  opened lib → s_lib env = edit_library lib ops → (∀ i, orders_ok (os i)) →
  order_ok o → check_cycles o (edit_graph (lib_graph lib) ops) = true →
  ∃ fuel b, b ≠ BatchNoFuel ∧ ∀ fuel', fuel ≤ fuel' → get_exercise_batch env os fuel' checks time m r e oc rate pile f = b.
Proof. intros. by eapply checked_returns. Qed.
Print Assumptions C98_checked_partial.

(** C98, partial: after any changes that add no units, with circles or without, every request ends, *)
Theorem C98_no_units_partial : ∀ env lib ops os checks time m r e oc rate pile f,
  opened lib → s_lib env = edit_library lib ops → (∀ i, orders_ok (os i)) → Forall adds_no_unit ops →
  ∃ fuel b, b ≠ BatchNoFuel ∧ ∀ fuel', fuel ≤ fuel' → get_exercise_batch env os fuel' checks time m r e oc rate pile f = b.
Proof. intros. by eapply no_unit_returns. Qed.
Print Assumptions C98_no_units_partial.
(** and it gives a batch when the stores answer and the review list and the relearn pile name units of the library. *)
Theorem C98_gives_partial : ∀ env lib ops os fuel checks time m r e oc rate pile f uf,
  opened lib → s_lib env = edit_library lib ops → (∀ i, orders_ok (os i)) → Forall adds_no_unit ops →
  choices_ok r → uses env checks time f uf → answers_exercises env → edges_ok e →
  (uf = Some FReviewList → review_known env) →
  (∀ x, x ∈ pile → get_unit_type (s_graph env) x = Some Exercise) →
  get_exercise_batch env os fuel checks time m r e oc rate pile f = BatchNoFuel ∨
  ∃ es, get_exercise_batch env os fuel checks time m r e oc rate pile f = BatchOf es.
Proof. intros. by eapply edited_gives. Qed.
Print Assumptions C98_gives_partial.
