(** C90: the score of an exercise is what the documented formulas give, up to rounding.

    The formulas, over the real numbers, are in ExactSpec.v. Each theorem compares one step of
    the program with its formula. Those about averages are for up to 1000 trials; the default
    options pass at most 20. *)
From stdpp Require Import list.
From Coq Require Import ZArith Reals.
From Verif Require Import F32 F32Real Stores Scorer ScorerSpec PowerSample MemoryWitness ExactSpec AverageExact ScoreExact StepExact.

(** The days between two times. *)
Theorem C90_days : ∀ a b, (Z.abs a <= 4611686018427387903)%Z → (Z.abs b <= 4611686018427387903)%Z → (b <= a)%Z →
  fin (days_between a b) ∧ (Rabs (val (days_between a b) - IZR (a - b) / 86400) <= IZR (a - b) / 86400 / 1000000)%R.
Proof. exact days_close. Qed.
Print Assumptions C90_days.
(** The chance of recall. *)
Theorem C90_curve : ∀ powf ty now ts s, power_ok powf → rounded_power powf → between f_0_5 s f_730 →
  (Rabs (val (retrievability powf ty (days_between now ts) s) - exact_recall ty (val (days_between now ts)) (val s)) <= 3 / 10000)%R.
Proof. exact curve_close. Qed.
Print Assumptions C90_curve.
(** The difficulty that the failures suggest. *)
Theorem C90_estimate : ∀ t l, length (t :: l) <= 1000 →
  (Rabs (val (estimate_difficulty (t :: l)) - exact_estimate (failures_in (t :: l)) (length (t :: l))) <= / 100000)%R.
Proof. exact estimate_close. Qed.
Print Assumptions C90_estimate.
(** The first trial leaves a stability of one day. *)
Theorem C90_first : ∀ powf ty base t, replay powf ty base [t] = Memory f_1 base (Some (e_ts t)).
Proof. exact first_trial. Qed.
Print Assumptions C90_first.
(** Every further trial changes the stability and the difficulty as documented. *)
Theorem C90_step : ∀ powf ty base t t0 l, power_ok powf → between f_1 base f_10 → Forall graded (t :: t0 :: l) →
  let before := replay powf ty base (t0 :: l) in let after := replay powf ty base (t :: t0 :: l) in
  let days := days_between (e_ts t) (e_ts t0) in
  (Rabs (val (m_stability after) - exact_stability (val (m_stability before)) (val (m_difficulty before)) (val (e_val t))
    (val (retrievability powf ty days (m_stability before))) (val days)) <= val (m_stability before) / 100000)%R ∧
  (Rabs (val (m_difficulty after) - exact_difficulty (val (m_difficulty before)) (val (e_val t))) <= / 100000)%R.
Proof. exact step_close. Qed.
Print Assumptions C90_step.
(** The average of the grades: 80 percent weighted by time and 20 percent by position. *)
Theorem C90_average : ∀ powf l now, power_ok powf → rounded_power powf → Forall graded l → length l <= 1000 → near_times l now →
  (Rabs (val (compute_weighted_avg powf l) - exact_average l) <= INR (length l) / 90000 + 13 / 10000)%R.
Proof. exact graded_average. Qed.
Print Assumptions C90_average.
(** The documentation says 60 and 40 percent. *)
Theorem C90_blend_refuted : ∀ powf, power_ok powf → rounded_power powf →
  (3 / 10 < Rabs (val (compute_weighted_avg powf long_ago) - (6 / 10 * time_average long_ago + 4 / 10 * position_average long_ago)))%R.
Proof. exact other_blend. Qed.
Print Assumptions C90_blend_refuted.
(** The score and the urgency, from the chance of recall, the average, the deltas and the days. *)
Theorem C90_score : ∀ powf, power_ok powf → rounded_power powf → ∀ ty t0 l deltas now s,
  newest_first (t0 :: l) → Forall graded (t0 :: l) → Forall small_delta deltas →
  length (t0 :: l) <= 1000 → length deltas <= 1000 → near_times (t0 :: l) now → near_times deltas now →
  score_exercise powf ty (t0 :: l) deltas now = Some s →
  let recall := val (retrievability powf ty (days_between now (e_ts t0)) (compute_stability powf ty (t0 :: l) (estimate_difficulty (t0 :: l)))) in
  let delta := (if decide (2 <= length deltas)%nat then val (compute_weighted_avg powf deltas) else 0)%R in
  (Rabs (val (sc_value s) - exact_score recall (val (compute_weighted_avg powf (t0 :: l))) delta (val (days_between now (e_ts t0))) (length (t0 :: l))) <= / 100000)%R ∧
  (Rabs (val (sc_urgency s) - (1 - recall)) <= / 1000000)%R.
Proof. exact score_close. Qed.
Print Assumptions C90_score.

Example C90_nonvacuous : (power_ok real_power ∧ rounded_power real_power) ∧
  Forall graded long_ago ∧ newest_first long_ago ∧ near_times long_ago 40000000.
Proof. exact (conj (conj real_power_ok real_power_rounded) long_ago_ok). Qed.
