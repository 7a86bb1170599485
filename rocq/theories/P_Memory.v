(** C88: what a trial does to the memory of an exercise follows the documented rules.

    [compute_stability] is the number of days after which the chance to recall the exercise
    has fallen to 0.9. [retrievability] is that chance after some days. *)
From stdpp Require Import list.
From Coq Require Import ZArith Reals.
From Verif Require Import F32 F32Real Stores Scorer ScorerSpec PowerSample CurveProofs MemoryProofs MemoryMore MemoryWitness.

(** The meaning of the stability: after that many days the chance of recall is 0.9, for both
    kinds of exercises. *)
Theorem C88_ninety : ∀ powf, power_ok powf → rounded_power powf → ∀ ty s, between f_0_5 s f_730 →
  (Rabs (val (retrievability powf ty s s) - 9 / 10) <= / 100000)%R.
Proof. exact ninety_between. Qed.
Print Assumptions C88_ninety.

(** A trial graded 3 or better never shortens the memory, one graded 3 or worse never lengthens it. *)
Theorem C88_good : ∀ powf, power_ok powf → ∀ ty base t l, between f_1 base f_10 → Forall graded l → between f_3 (e_val t) f_5 →
  fle (compute_stability powf ty l base) (compute_stability powf ty (t :: l) base) = true.
Proof. exact good_trial. Qed.
Print Assumptions C88_good.
Theorem C88_poor : ∀ powf, power_ok powf → ∀ ty base t l, between f_1 base f_10 → Forall graded l → between f_1 (e_val t) f_3 →
  fle (compute_stability powf ty (t :: l) base) (compute_stability powf ty l base) = true.
Proof. exact poor_trial. Qed.
Print Assumptions C88_poor.
(** A better grade gives a memory that is no shorter and a difficulty that is no higher. *)
Theorem C88_better : ∀ powf, power_ok powf → ∀ ty base t t' l, between f_1 base f_10 → Forall graded l → graded t → graded t' →
  e_ts t = e_ts t' → fle (e_val t) (e_val t') = true →
  fle (compute_stability powf ty (t :: l) base) (compute_stability powf ty (t' :: l) base) = true ∧
  fle (m_difficulty (replay powf ty base (t' :: l))) (m_difficulty (replay powf ty base (t :: l))) = true.
Proof. exact better_trial. Qed.
Print Assumptions C88_better.
(** The spacing effect: the later a good trial, the longer the memory after it. *)
Theorem C88_later : ∀ powf, power_ok powf → power_falls powf → ∀ ty base t t' l, between f_1 base f_10 → Forall graded l →
  between f_3 (e_val t) f_5 → e_val t' = e_val t → (e_ts t <= e_ts t')%Z →
  fle (compute_stability powf ty (t :: l) base) (compute_stability powf ty (t' :: l) base) = true.
Proof. exact later_trial. Qed.
Print Assumptions C88_later.

(** One more good trial never makes the exercise more urgent, when asked as long after the last
    trial. Proved for exercises that were never failed. *)
Theorem C88_calms_partial : ∀ powf, power_ok powf → power_falls powf → ∀ ty t t0 l deltas now now' s s',
  newest_first (t :: t0 :: l) → fits (t :: t0 :: l) → Forall (λ t : trial, between f_3 (e_val t) f_5) (t :: t0 :: l) →
  (now - e_ts t0 = now' - e_ts t)%Z →
  score_exercise powf ty (t0 :: l) deltas now = Some s → score_exercise powf ty (t :: t0 :: l) deltas now' = Some s' →
  fle (sc_urgency s') (sc_urgency s) = true.
Proof. exact practice_calms. Qed.
Print Assumptions C88_calms_partial.
(** The full statement is false: after two failures the best grade makes the exercise more
    urgent. It lowers the rate of failures, and a failure counts for more if the exercise is easy. *)
Theorem C88_calms_refuted : ∀ powf, power_ok powf → rounded_power powf → ∃ s s',
  score_exercise powf Declarative failures [] 1728000 = Some s ∧
  score_exercise powf Declarative (recovered :: failures) [] 1728001 = Some s' ∧
  flt (sc_urgency s) (sc_urgency s') = true.
Proof. exact trial_alarms. Qed.
Print Assumptions C88_calms_refuted.
(** The documentation says that good grades reduce the difficulty and that it reverts to the
    estimate from the rate of failures. It reverts to 5: an exercise that always got the best
    grade becomes harder. *)
Theorem C88_difficulty_refuted : ∀ powf, Forall (λ t : trial, e_val t = f_5) fives ∧ newest_first fives ∧
  flt (estimate_difficulty fives) (m_difficulty (replay powf Declarative (estimate_difficulty fives) fives)) = true.
Proof. exact easy_gets_harder. Qed.
Print Assumptions C88_difficulty_refuted.

(** An exercise without trials has score 0 and is as urgent as possible. *)
Theorem C88_new : ∀ powf ty deltas now, score_exercise powf ty [] deltas now = Some (EScore fzero f_1 None).
Proof. exact (λ _ _ _ _, eq_refl). Qed.
Print Assumptions C88_new.
(** A single delta changes nothing. *)
Theorem C88_single_delta : ∀ powf ty trials d now, score_exercise powf ty trials [d] now = score_exercise powf ty trials [] now.
Proof. exact single_delta. Qed.
Print Assumptions C88_single_delta.

Example C88_nonvacuous : (power_ok real_power ∧ power_falls real_power ∧ rounded_power real_power) ∧
  newest_first (graded_on 9 f_4 :: fives) ∧ fits (graded_on 9 f_4 :: fives) ∧
  Forall (λ t : trial, between f_3 (e_val t) f_5) (graded_on 9 f_4 :: fives).
Proof. exact (conj (conj real_power_ok (conj real_power_falls real_power_rounded)) calms_sample). Qed.
