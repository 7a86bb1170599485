(** C99: the trend of an exercise is the slope of its grades.

    [score_exercise] scores an exercise; [sc_velocity] is the trend in its answer. [least_squares]
    is the slope of the line of best fit over the real numbers (SlopeSpec.v). *)
From stdpp Require Import list.
From Coq Require Import ZArith Reals.
From Verif Require Import F32 F32Real Stores Scorer ScorerSpec SlopeSpec SlopeProofs SlopeSample.
Local Open Scope R_scope.

(** Up to a hundred trials over a minute or more: the trend is the slope of the grades per day up to
    rounding. For twenty trials the factor is 0.008. *)
Theorem C99_slope_partial : ∀ powf ty trials deltas now s, score_exercise powf ty trials deltas now = Some s →
  Forall graded trials → Forall plain_time trials → (2 <= length trials <= 100)%nat → 60 / 86400 <= span trials →
  ∃ v, sc_velocity s = Some v ∧ fin v ∧
    Rabs (val v - least_squares (grade_points trials)) <= (Rabs (least_squares (grade_points trials)) + / span trials) * INR (length trials) ^ 2 / 50000.
Proof. exact slope_close. Qed.
Print Assumptions C99_slope_partial.

(** The trend points the way the grades go, if the line rises or falls by a little over the trials. *)
Theorem C99_direction : ∀ powf ty trials deltas now s, score_exercise powf ty trials deltas now = Some s →
  Forall graded trials → Forall plain_time trials → (2 <= length trials <= 100)%nat → 60 / 86400 <= span trials →
  ∃ v, sc_velocity s = Some v ∧
    (INR (length trials) ^ 2 / 25000 <= least_squares (grade_points trials) * span trials → flt fzero v = true) ∧
    (INR (length trials) ^ 2 / 25000 <= - least_squares (grade_points trials) * span trials → flt v fzero = true).
Proof. exact slope_direction. Qed.
Print Assumptions C99_direction.

(** There is no trend before the second trial, *)
Theorem C99_few : ∀ powf ty trials deltas now s, (length trials < 2)%nat →
  score_exercise powf ty trials deltas now = Some s → sc_velocity s = None.
Proof. exact few_trials. Qed.
Print Assumptions C99_few.
(** and it is zero when all trials have the same time. *)
Theorem C99_same_moment : ∀ powf ty trials deltas now s o, (2 <= length trials <= 1000)%nat → Forall (λ t, e_ts t = o) trials →
  score_exercise powf ty trials deltas now = Some s → sc_velocity s = Some fzero.
Proof. exact same_moment. Qed.
Print Assumptions C99_same_moment.

(** Without allowance for rounding it is false: an exercise graded 5 every time has a falling trend. *)
Theorem C99_equal_grades_refuted : ∃ trials, Forall (λ t : trial, e_val t = f_5) trials ∧ ∀ powf ty deltas now s,
  score_exercise powf ty trials deltas now = Some s → ∃ v, sc_velocity s = Some v ∧ flt v fzero = true.
Proof. exact five_falls. Qed.
Print Assumptions C99_equal_grades_refuted.
(** Within half a minute it is false: a rise from 1 to 5 in 20 seconds counts as no change. *)
Theorem C99_quick_refuted : ∃ trials, Forall graded trials ∧ least_squares (grade_points trials) = 17280 ∧ ∀ powf ty deltas now s,
  score_exercise powf ty trials deltas now = Some s → ∃ v, sc_velocity s = Some v ∧ feq v fzero = true.
Proof. exact quick_unnoticed. Qed.
Print Assumptions C99_quick_refuted.

(** Three trials on three days meet the hypotheses of the first two; the lists of the other two
    are scored as well. *)
Example C99_nonvacuous : ∀ powf ty now, Forall graded three_days ∧ Forall plain_time three_days ∧ (2 <= length three_days <= 100)%nat ∧
  60 / 86400 <= span three_days ∧ INR (length three_days) ^ 2 / 25000 <= least_squares (grade_points three_days) * span three_days ∧
  ∃ s, score_exercise powf ty three_days [] now = Some s.
Proof. exact three_days_ok. Qed.
Example C99_scored : ∀ powf ty now, (∃ s, score_exercise powf ty always_five [] now = Some s) ∧ ∃ s, score_exercise powf ty quick [] now = Some s.
Proof. exact falls_scored. Qed.
