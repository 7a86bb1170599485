(** Properties of metadata filters and study sessions: C10, C11, C12. *)
From stdpp Require Import gmap strings list.
From Coq Require Import ZArith.
From Verif Require Import F32 Graph Library Filters FiltersSpec FiltersProofs.
Local Open Scope string_scope.

(** C10: a filter that accepts a course accepts all its lessons. *)
Theorem C10_course_pass_means_lessons_pass : ∀ f cm lm,
  apply_to_course f cm = true → apply_to_lesson f cm lm = true.
Proof. exact course_passes_lessons. Qed.
Print Assumptions C10_course_pass_means_lessons_pass.
Example C10_nonvacuous : apply_to_course sample_filter sample_meta = true.
Proof. vm_compute. reflexivity. Qed.

(** C11: a filter evaluates the formula it spells. *)
Theorem C11_filter_is_formula : ∀ f cm lm,
  apply_to_lesson f cm lm = true ↔ satisfied (formula_of f) cm lm.
Proof. exact apply_to_lesson_formula. Qed.
Print Assumptions C11_filter_is_formula.

(** C12 in full is false: a start 30 seconds in the future can already skip a first part of
    zero minutes, and 32-bit minutes overflow. *)
Theorem C12_future_start_refuted : ∃ s time, durations_ok s ∧ (total (sd_parts s) < two32)%Z ∧
  (time < sd_start s)%Z ∧ ∀ checks, get_part checks s time ≠ head (sd_parts s).
Proof. exact short_wait_skips. Qed.
Print Assumptions C12_future_start_refuted.
Theorem C12_overflow_refuted : ∃ s time p, durations_ok s ∧
  match sd_parts s with [] => True | p :: _ => (0 < part_duration p)%Z end ∧
  get_part true s time = None ∧ get_part false s time = Some p ∧ ¬ right_part s time p.
Proof. exact long_session_wraps. Qed.
Print Assumptions C12_overflow_refuted.

(** C12, partial: the right part is selected, with or without overflow checks, when the
    durations add up to less than 2^32 minutes, the session started less than 2^32 minutes ago
    and, if the start lies in the future, the first part is not empty. *)
Theorem C12_session_part_partial : ∀ checks s time, session_ok s time →
  ∃ p, get_part checks s time = Some p ∧ right_part s time p.
Proof. exact get_part_right. Qed.
Print Assumptions C12_session_part_partial.
Example C12_nonvacuous : session_ok sample_session (minutes 11) ∧
  get_part true sample_session (minutes 11) = Some (PSaved "f" 20).
Proof. split; [|done]. split; [repeat constructor; done|]. repeat split; done. Qed.
