(** C89: a better grade never lowers the score of an exercise. *)
From stdpp Require Import list.
From Coq Require Import ZArith.
From Verif Require Import F32 Stores Scorer ScorerSpec PowerSample BetterSpec BetterProofs MemoryWitness.

(** The statement is false. In twelve days of practice, a 3 instead of a 2 on the third day
    lowers the score seven weeks later. *)
Theorem C89_refuted : ∀ powf, power_ok powf → rounded_power powf → ∃ s s',
  score_exercise powf Declarative (days_of_practice f_2) [] day_60 = Some s ∧
  score_exercise powf Declarative (days_of_practice f_3) [] day_60 = Some s' ∧
  flt (sc_value s') (sc_value s) = true.
Proof. exact better_grade_hurts. Qed.
Print Assumptions C89_refuted.

(** At the time of the last trial better grades never give a lower score, whichever they are. *)
Theorem C89_now_partial : ∀ powf, power_ok powf → ∀ ty l l' deltas now s s',
  better l l' → fits l → Forall graded l → Forall graded l' → newest_first l → Forall small_delta deltas →
  (∀ t, head l = Some t → (now <= e_ts t)%Z) →
  score_exercise powf ty l deltas now = Some s → score_exercise powf ty l' deltas now = Some s' →
  fle (sc_value s) (sc_value s') = true.
Proof. exact better_now. Qed.
Print Assumptions C89_now_partial.
(** A better grade in the last trial never gives a lower score, nor a higher urgency, at any time
    later, if both or none of the two grades is a failure. *)
Theorem C89_newest_partial : ∀ powf, power_ok powf → power_falls powf → ∀ ty t t' l deltas now s s',
  e_ts t = e_ts t' → fle (e_val t) (e_val t') = true → failed t = failed t' →
  fits (t :: l) → Forall graded (t :: t' :: l) → newest_first (t :: l) → Forall small_delta deltas →
  Forall (λ d : trial, fle fzero (e_val d) = true) deltas →
  score_exercise powf ty (t :: l) deltas now = Some s → score_exercise powf ty (t' :: l) deltas now = Some s' →
  fle (sc_value s) (sc_value s') = true ∧ fle (sc_urgency s') (sc_urgency s) = true.
Proof. exact better_newest. Qed.
Print Assumptions C89_newest_partial.

Example C89_nonvacuous : better (days_of_practice f_2) (days_of_practice f_3) ∧
  (Forall graded (days_of_practice f_2) ∧ newest_first (days_of_practice f_2) ∧ fits (days_of_practice f_2)) ∧
  failed (graded_on 1 f_3) = failed (graded_on 1 f_5).
Proof. exact (conj better_practice (conj (practice_ok f_2 (conj eq_refl eq_refl)) eq_refl)). Qed.
