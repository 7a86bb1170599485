(** C91: the reward of an exercise is what the documented formulas give, up to rounding, and
    comes from its lesson and its course. The formulas are in RewardExactSpec.v. *)
From stdpp Require Import gmap list strings.
From Coq Require Import ZArith Reals.
From Verif Require Import F32 F32Real Graph Library SearchSpec Stores StoresSpec Scorer ScorerSpec PowerSample RewardSample UnitScorer Practice PracticeSample ThreadsSpec ExactSpec RewardExactSpec RewardExact RewardShown.

(** The reward from those of the course and of the lesson. *)
Theorem C91_reward : ∀ powf, power_ok powf → rounded_power powf → ∀ valid_time now course lesson,
  (Z.abs now <= 4611686018427387903)%Z → length course <= 1000 → length lesson <= 1000 →
  Forall (near_reward valid_time now) course → Forall (near_reward valid_time now) lesson →
  (Rabs (val (score_rewards powf valid_time now course lesson) - exact_reward now course lesson)
    <= INR (length course + length lesson) / 100000 + 77 / 100000)%R.
Proof. exact reward_close. Qed.
Print Assumptions C91_reward.
(** The score that is shown: that of the trials, and the reward if it applies (see C23). *)
Theorem C91_shown : ∀ s now p e l c trials deltas course lesson,
  power_ok (g_powf s) → rounded_power (g_powf s) → sorts_newest_first (g_order s) →
  c_exercise (p_caches p) !! e = None →
  get_exercise_lesson (lib_graph (g_lib s)) e = Some l → get_lesson_course (lib_graph (g_lib s)) l = Some c →
  get_entries (g_order s) (p_trials p) e (g_num_trials s) = Some trials → get_entries (g_order s) (p_deltas p) e (g_num_trials s) = Some deltas →
  get_entries (g_reward_order s) (rs_table (p_rewards p)) c (g_num_rewards s) = Some course →
  get_entries (g_reward_order s) (rs_table (p_rewards p)) l (g_num_rewards s) = Some lesson →
  fits trials → Forall graded trials → Forall small_delta deltas → near_times trials now →
  length course <= 1000 → length lesson <= 1000 →
  Forall (near_reward (g_valid_time s) now) course → Forall (near_reward (g_valid_time s) now) lesson →
  ∃ x sc b, shown s now p e = Val x ∧ score_exercise (g_powf s) (exercise_type_of s e) trials deltas now = Some sc ∧
    apply_reward (score_rewards (g_powf s) (g_valid_time s) now course lesson) trials now = Some b ∧
    (Rabs (val (ca_score x) - (if b then within 0 (val (sc_value sc) + exact_reward now course lesson) 5 else val (sc_value sc)))
      <= INR (length course + length lesson) / 100000 + 78 / 100000)%R.
Proof. exact shown_close. Qed.
Print Assumptions C91_shown.

Example C91_nonvacuous : (power_ok real_power ∧ rounded_power real_power) ∧ ∃ lib, opened lib ∧ let s := setting_of real_power lib in
  sorts_newest_first (g_order s) ∧
  c_exercise (p_caches p_3) !! "exercise"%string = None ∧ get_exercise_lesson (lib_graph lib) "exercise"%string = Some "lesson"%string ∧
  get_lesson_course (lib_graph lib) "lesson"%string = Some "course"%string ∧
  get_entries (g_order s) (p_trials p_3) "exercise"%string (g_num_trials s) = Some three_trials ∧ get_entries (g_order s) (p_deltas p_3) "exercise"%string (g_num_trials s) = Some [] ∧
  get_entries (g_reward_order s) (rs_table (p_rewards p_3)) "course"%string (g_num_rewards s) = Some [Entry "course"%string (f_0_4, f_1) 0%Z] ∧
  get_entries (g_reward_order s) (rs_table (p_rewards p_3)) "lesson"%string (g_num_rewards s) = Some [weak_reward; good_reward] ∧
  fits three_trials ∧ Forall graded three_trials ∧ near_times three_trials two_weeks ∧
  Forall (near_reward (g_valid_time s) two_weeks) [Entry "course"%string (f_0_4, f_1) 0%Z; weak_reward; good_reward].
Proof. exact (conj (conj real_power_ok real_power_rounded) shown_sample). Qed.
