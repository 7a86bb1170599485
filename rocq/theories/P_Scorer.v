(** Properties of the scores of exercises, of rewards and of averages: C20-C24, C57, C58.
    The vocabulary is in ScorerSpec.v. *)
From stdpp Require Import list strings.
From Coq Require Import ZArith Reals Lia.
From Verif Require Import F32 F32Real Stores StoresSpec Scorer ScorerSpec ScoreProofs PowerSample ScoreSample
  AverageProofs RewardProofs RewardSample.

(** C20: a score in [0, 5] and an urgency in [0, 1], for every history in order, at every time. *)
Theorem C20_valid : ∀ powf ty trials deltas now, power_ok powf → newest_first trials → fits trials →
  Forall graded trials → Forall small_delta deltas →
  ∃ s, score_exercise powf ty trials deltas now = Some s ∧
    between fzero (sc_value s) f_5 ∧ between fzero (sc_urgency s) f_1.
Proof. exact (λ powf ty trials deltas now Hp, score_valid powf Hp ty trials deltas now). Qed.
Print Assumptions C20_valid.
Example C20_nonvacuous : power_ok real_power ∧ power_falls real_power ∧ rounded_power real_power ∧
  newest_first two_trials ∧ fits two_trials ∧ Forall graded two_trials.
Proof.
  exact (conj real_power_ok (conj real_power_falls (conj real_power_rounded
    (conj two_trials_order (conj (eq_refl : fits two_trials) two_trials_graded))))).
Qed.

(** C21: only histories out of order are rejected, *)
Theorem C21_rejects : ∀ powf ty trials deltas now,
  score_exercise powf ty trials deltas now = None ↔ ¬ newest_first trials.
Proof. exact score_rejects. Qed.
Print Assumptions C21_rejects.
(** and what the score store returns never is. *)
Theorem C21_store : ∀ powf ty (q : order f32) t u n es deltas now, sorts_newest_first q →
  get_entries q t u n = Some es → score_exercise powf ty es deltas now ≠ None.
Proof. exact store_scored. Qed.
Print Assumptions C21_store.
Example C21_nonvacuous : ¬ newest_first unordered ∧ newest_first two_trials.
Proof. exact (conj unordered_rejected two_trials_order). Qed.

(** C22: the stability and the difficulty stay in their ranges. Every state of the replay is
    the final state of the replay of a shorter history. *)
Theorem C22_ranges : ∀ powf ty base trials, power_ok powf → between f_1 base f_10 → Forall graded trials →
  memory_ok (replay powf ty base trials).
Proof. exact (λ powf ty base trials Hp, replay_in_range powf Hp ty base trials). Qed.
Print Assumptions C22_ranges.
Theorem C22_base : ∀ trials, fits trials → between f_1 (estimate_difficulty trials) f_10.
Proof. exact difficulty_in_range. Qed.
Print Assumptions C22_base.

(** C23: no rewards, no effect. *)
Theorem C23_none : ∀ powf valid_time now, score_rewards powf valid_time now [] [] = fzero.
Proof. exact (λ _ _ _, eq_refl). Qed.
Print Assumptions C23_none.
(** The reward is in [-1, 1], and has the sign of the rewards it comes from. *)
Theorem C23_bounded : ∀ powf valid_time now course lesson, power_ok powf →
  Forall plain_reward course → Forall plain_reward lesson →
  between (fneg f_1) (score_rewards powf valid_time now course lesson) f_1 ∧
  (Forall (λ r : entry reward, fle fzero (e_val r).1 = true) (course ++ lesson) →
    fle fzero (score_rewards powf valid_time now course lesson) = true) ∧
  (Forall (λ r : entry reward, fle (e_val r).1 fzero = true) (course ++ lesson) →
    fle (score_rewards powf valid_time now course lesson) fzero = true).
Proof. exact rewards_in_range. Qed.
Print Assumptions C23_bounded.
Example C23_rewards_nonvacuous : Forall plain_reward [good_reward; weak_reward] ∧
  Forall (λ r : entry reward, fle fzero (e_val r).1 = true) [good_reward; weak_reward].
Proof. exact sample_rewards. Qed.
(** A reward is withheld from an exercise with fewer than three trials, *)
Theorem C23_few : ∀ reward trials now, length trials < 3 → apply_reward reward trials now = Some false.
Proof. exact apply_few. Qed.
Print Assumptions C23_few.
(** and otherwise exactly when the last trial is less than a week old and the last three grades
    average less than 3 (a positive reward) or more than 3.5 (a negative reward). *)
Theorem C23_applied : ∀ reward t1 t2 t3 l now n1 n2 n3, grade n1 t1 → grade n2 t2 → grade n3 t3 →
  (i64_min <= now - e_ts t1 <= i64_max)%Z →
  apply_reward reward (t1 :: t2 :: t3 :: l) now =
    Some (negb ((now - e_ts t1 <? 604800)%Z &&
      (fgt reward fzero && (n1 + n2 + n3 <? 9)%Z || flt reward fzero && (21 <? 2 * (n1 + n2 + n3))%Z))).
Proof. exact apply_spec. Qed.
Print Assumptions C23_applied.
Example C23_nonvacuous : apply_reward f_0_8 bad_trials 1000 = Some false ∧ apply_reward f_0_8 bad_trials 700000 = Some true ∧
  apply_reward (fneg f_0_5) bad_trials 1000 = Some true.
Proof. exact bad_withheld. Qed.
(** The code does subtract timestamps without care: a trial stored with the smallest timestamp
    makes the subtraction overflow. *)
Theorem C23_overflow_refuted : ∃ reward trials now, (0 <= now)%Z ∧
  Forall (λ t : entry f32, (i64_min <= e_ts t <= i64_max)%Z) trials ∧ apply_reward reward trials now = None.
Proof. exact overflow_exists. Qed.
Print Assumptions C23_overflow_refuted.

(** C24 to the letter is false: rounding takes an average above its only value. *)
Theorem C24_exact_refuted : ∃ v w, fgt w fzero = true ∧ fgt v fzero = true ∧ fgt (weighted_average [v] [w]) v = true.
Proof. exact average_too_large. Qed.
Print Assumptions C24_exact_refuted.
(** C24, partial: up to a thousand values are within a thousandth of their bounds, and the
    average of the grades of an exercise within a five hundredth; values and weights must not
    be tiny. *)
Theorem C24_bounded_partial : ∀ lo hi vs ws, plain_bounds lo hi → length vs = length ws → 0 < length vs <= 1000 →
  Forall plain_weight ws → Forall (λ v, between lo v hi) vs →
  roughly_between lo (weighted_average vs ws) hi (/ 1000).
Proof. exact average_between. Qed.
Print Assumptions C24_bounded_partial.
Theorem C24_grades_partial : ∀ powf lo hi es, power_ok powf → plain_bounds lo hi → 0 < length es <= 1000 →
  Forall (λ e : entry f32, between lo (e_val e) hi) es →
  roughly_between lo (compute_weighted_avg powf es) hi (/ 500).
Proof. exact (λ powf lo hi es Hp, scored_average powf Hp lo hi es). Qed.
Print Assumptions C24_grades_partial.
Example C24_nonvacuous : plain_bounds f_1 f_5 ∧ Forall plain_weight mixed_weights ∧ Forall (λ v, between f_1 v f_5) mixed_values.
Proof. exact mixed_ok. Qed.
(** No values, and no weight, average to 0. *)
Theorem C24_none : ∀ ws, weighted_average [] [] = fzero ∧
  (Forall (λ w : f32, fin w ∧ val w = 0%R) ws → ∀ vs, weighted_average vs ws = fzero).
Proof. exact average_none. Qed.
Print Assumptions C24_none.

(** C57 is false: with nothing practised in between, a score is higher on day 50 than on day 49. *)
Theorem C57_fades_refuted : ∀ powf, power_ok powf → rounded_power powf →
  ∃ ty trials now now' s s', newest_first trials ∧ fits trials ∧ Forall graded trials ∧ (now < now')%Z ∧
  score_exercise powf ty trials [] now = Some s ∧ score_exercise powf ty trials [] now' = Some s' ∧
  flt (sc_value s) (sc_value s') = true.
Proof. exact waiting_raises. Qed.
Print Assumptions C57_fades_refuted.
(** C57, partial: it does not rise before day 50, nor after it, if no delta is negative. *)
Theorem C57_fades_partial : ∀ powf ty trials deltas now now' s s', power_ok powf → power_falls powf →
  newest_first trials → fits trials → Forall graded trials →
  Forall small_delta deltas → Forall (λ d : entry f32, fle fzero (e_val d) = true) deltas →
  (now <= now')%Z → recent trials now' ∨ old trials now →
  score_exercise powf ty trials deltas now = Some s → score_exercise powf ty trials deltas now' = Some s' →
  fle (sc_value s') (sc_value s) = true.
Proof. exact (λ powf ty trials deltas now now' s s' Hp Hf, score_fades powf Hp Hf ty trials deltas now now' s s'). Qed.
Print Assumptions C57_fades_partial.
Example C57_nonvacuous : recent two_trials day_49 ∧ old two_trials day_50.
Proof. exact days_49_50. Qed.

(** C58: the longer an exercise waits, the more urgent it is. *)
Theorem C58_urgency : ∀ powf ty trials deltas now now' s s', power_ok powf → power_falls powf →
  newest_first trials → fits trials → Forall graded trials → Forall small_delta deltas → (now <= now')%Z →
  score_exercise powf ty trials deltas now = Some s → score_exercise powf ty trials deltas now' = Some s' →
  fle (sc_urgency s) (sc_urgency s') = true.
Proof. exact (λ powf ty trials deltas now now' s s' Hp Hf, urgency_grows powf Hp Hf ty trials deltas now now' s s'). Qed.
Print Assumptions C58_urgency.
