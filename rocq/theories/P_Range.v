(** Properties of the scores and stores over whole histories: C60 and C61.
    The vocabulary is in RangeSpec.v and CallSpec.v. *)
From stdpp Require Import gmap strings list.
From Coq Require Import ZArith.
From Verif Require Import F32 Graph GraphSpec Library SearchSpec Stores StoresSpec Options Scorer ScorerSpec UnitScorer PracticeSpec PowerSample PracticeSample
  RangeSpec RangeMore CallSpec CallProofs CallSample CallDelta.

(** C60: after any history of calls, on any day, with cached scores or without, whatever fails,
    the score of every unit is between 0 and 5, and so is that of every exercise, whose urgency
    is between 0 and 1. *)
Theorem C60_in_range : ∀ s, setting_ok s → ∀ fuel cs p, calls s fuel new_practice cs = Some p → ∀ now n u,
  (∀ x, fst (unit_score (world_of s now p) n u (p_caches p)) = Val (Some x) → in_range x) ∧
  (∀ x, fst (exercise_entry (world_of s now p) u (p_caches p)) = Val x → entry_ok x).
Proof. exact history_ranges. Qed.
Print Assumptions C60_in_range.
(** No exercise has an error for a score, so no average leaves one out for that reason. *)
Theorem C60_no_error : ∀ s, setting_ok s → ∀ p now e, compute_exercise s now p e ≠ Fail.
Proof. exact history_no_error. Qed.
Print Assumptions C60_no_error.
Example C60_nonvacuous : ∃ lib cs p, setting_ok (setting_of real_power lib) ∧ calls (setting_of real_power lib) 1 new_practice cs = Some p ∧
  (∃ x, fst (unit_score (world_of (setting_of real_power lib) 0 p) 1 "exercise"%string (p_caches p)) = Val (Some x)) ∧
  (∃ y, fst (exercise_entry (world_of (setting_of real_power lib) 0 p) "exercise"%string (p_caches p)) = Val y ∧ ca_trials y = 1).
Proof. exact some_range. Qed.

(** C61: a score that succeeds adds exactly one trial, of the exercise scored, with the score and
    the time given, and at most one delta of that exercise; it removes nothing. *)
Theorem C61_recorded : ∀ s fuel cs p, calls s fuel new_practice cs = Some p → ∀ now f e sc ts p',
  score_call s fuel now f e sc ts p = Some (p', true) →
  p_banned p' = p_banned p ∧ ∃ d, adds p p' (only e [(Some (float_score sc), ts)]) (only e d) ∧ (d = [] ∨ ∃ x, d = [(x, ts)]).
Proof. exact score_recorded. Qed.
Print Assumptions C61_recorded.
(** The delta is the difference between the score given and the score before, and there is one
    unless this is the first trial. *)
Theorem C61_delta : ∀ s, setting_ok s → ∀ fuel cs p, calls s fuel new_practice cs = Some p → ∀ now f e sc ts p',
  get_unit_type (lib_graph (g_lib s)) e = Some Exercise → score_call s fuel now f e sc ts p = Some (p', true) →
  ∃ x, fst (exercise_entry (world_of s now p) e (p_caches p)) = Val x ∧
    adds p p' (only e [(Some (float_score sc), ts)])
      (only e (if Nat.eqb (ca_trials x) 0 then [] else [(Some (fsub (float_score sc) (ca_score x)), ts)])).
Proof. exact delta_recorded_exactly. Qed.
Print Assumptions C61_delta.
(** C61, partial: one that fails adds no more than that. *)
Theorem C61_failed_partial : ∀ s fuel cs p, calls s fuel new_practice cs = Some p → ∀ now f e sc ts p',
  score_call s fuel now f e sc ts p = Some (p', false) →
  p_banned p' = p_banned p ∧ ∃ t d, adds p p' (only e t) (only e d) ∧
    (t = [] ∨ t = [(Some (float_score sc), ts)]) ∧ (d = [] ∨ ∃ x, d = [(x, ts)]) ∧
    (f_delta f = true → d = []) ∧ (f_score f = true → t = []).
Proof. exact score_at_most. Qed.
Print Assumptions C61_failed_partial.
(** C61, false: if the score cannot be written, its delta is kept; if the rewards cannot be
    written, the trial is kept although the call fails, and a second attempt adds it again. *)
Theorem C61_delta_refuted : ∀ powf, ∃ lib cs p now e sc ts p', opened lib ∧ calls (setting_of powf lib) 1 new_practice cs = Some p ∧
  score_call (setting_of powf lib) 1 now (Faults false true None) e sc ts p = Some (p', false) ∧
  length (stored (p_deltas p') e) = S (length (stored (p_deltas p) e)) ∧ stored (p_trials p') e = stored (p_trials p) e.
Proof. exact some_failed_delta. Qed.
Print Assumptions C61_delta_refuted.
Theorem C61_trial_refuted : ∀ powf, ∃ lib e sc ts p', opened lib ∧
  score_call (setting_of powf lib) 1 ts (Faults false false (Some 0)) e sc ts new_practice = Some (p', false) ∧
  stored (p_trials p') e = [(Some (float_score sc), ts)].
Proof. exact some_failed_rewards. Qed.
Print Assumptions C61_trial_refuted.
Example C61_nonvacuous : ∃ lib p p', opened lib ∧ calls (setting_of real_power lib) 1 new_practice [] = Some p ∧
  score_call (setting_of real_power lib) 1 0 no_faults "exercise"%string Five 0 p = Some (p', true).
Proof. exact some_recorded. Qed.
