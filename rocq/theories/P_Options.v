(** Properties of mastery scores and scheduler options: C25, C26. *)
From stdpp Require Import base list.
From Coq Require Import Reals.
From Verif Require Import F32 F32Real Options OptionsSpec OptionsProofs.

(** C25 in full is false: options with a gap between two windows and options with overlapping
    windows are accepted. *)
Theorem C25_gap_refuted : ∃ o s, verify_options o = true ∧ score_in_range s ∧ windows_of o s = [].
Proof. exact gap_in_windows. Qed.
Print Assumptions C25_gap_refuted.
Theorem C25_overlap_refuted : ∃ o s, verify_options o = true ∧ score_in_range s ∧
  1 < length (windows_of o s).
Proof. exact overlap_in_windows. Qed.
Print Assumptions C25_overlap_refuted.

(** C25, partial: when the boundaries also agree exactly and are in order, every score from 0
    to 5 lies in exactly one window. *)
Theorem C25_one_window_partial : ∀ o s,
  verify_options o = true → exact_windows o → score_in_range s → length (windows_of o s) = 1.
Proof. exact exactly_one_window. Qed.
Print Assumptions C25_one_window_partial.
Example C25_nonvacuous : verify_options default_options = true ∧ exact_windows default_options ∧
  score_in_range f_4.
Proof. exact (conj default_verified (conj default_exact (conj eq_refl eq_refl))). Qed.

(** C25 for the defaults, with any batch size the user prefers: all is well but for a batch
    size of 0, which verification would reject. *)
Theorem C25_defaults_verified : ∀ b,
  verify_options (create_scheduler_options b) = negb (bool_decide (b = Some 0)).
Proof. exact created_options. Qed.
Print Assumptions C25_defaults_verified.
Theorem C25_defaults_one_window : ∀ b s, score_in_range s →
  length (windows_of (create_scheduler_options b) s) = 1.
Proof. exact created_one_window. Qed.
Print Assumptions C25_defaults_one_window.

(** C26: the conversion accepts exactly the floats within 2^-23 of a score, and gives that
    score. *)
Theorem C26_conversion : ∀ x s,
  score_of_float x = Some s ↔ fin x ∧ (Rabs (val x - score_value s) < tolerance)%R.
Proof. exact score_of_float_iff. Qed.
Print Assumptions C26_conversion.
Theorem C26_roundtrip : ∀ s, score_of_float (float_score s) = Some s.
Proof. exact score_roundtrip. Qed.
Print Assumptions C26_roundtrip.
Theorem C26_float_value : ∀ s, fin (float_score s) ∧ val (float_score s) = score_value s.
Proof. exact (λ s, conj (float_score_fin s) (float_score_val s)). Qed.
Print Assumptions C26_float_value.
