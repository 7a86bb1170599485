(** C87: how likely an exercise is to be chosen follows the documented measures.

    [candidate_weight] is the weight with which an exercise is drawn. [libm_ok] is what is
    assumed of the functions [ln_1p], [exp] and [sqrt]. *)
From stdpp Require Import list.
From Coq Require Import ZArith.
From Verif Require Import F32 Stores Scorer ScorerSpec Batch WeightSpec WeightProofs WeightSample.

(** An exercise that is at least as good by every measure never gets a smaller weight. *)
Theorem C87_as_good : ∀ m, libm_ok m → ∀ c c', plain_candidate c → plain_candidate c' → as_good c c' →
  fle (candidate_weight m c) (candidate_weight m c') = true.
Proof. exact weight_rises. Qed.
Print Assumptions C87_as_good.

(** The cost is limited to [0.05, 100], so a weight is at least a tenth of the urgency and at
    most five times the urgency or 0.05. Proved for exercises whose grades do not fall by more
    than one a day. *)
Theorem C87_range_partial : ∀ m, libm_ok m → ∀ c, plain_candidate c → falls_slowly c →
  fle (fdiv (urgency c) f_10) (candidate_weight m c) = true ∧
  fle (candidate_weight m c) (fmax (fdiv (urgency c) f_0_2) f_0_05) = true.
Proof. exact weight_range. Qed.
Print Assumptions C87_range_partial.

(** The full statement is false: a grade of 5 and a grade of 1 an hour later. The cost is NaN
    and the most urgent exercise gets less than a tenth of its urgency. *)
Theorem C87_range_refuted : ∃ trials c, Forall graded trials ∧ newest_first trials ∧ plain_candidate c ∧
  velocity c = Scorer.velocity trials ∧
  ∀ m, libm_ok m → flt (candidate_weight m c) (fdiv (urgency c) f_10) = true.
Proof. exact fell_lost. Qed.
Print Assumptions C87_range_refuted.

(** When grades fall by more than one a day nothing else counts: not the urgency, not the depth. *)
Theorem C87_lost : ∀ m, libm_ok m → ∀ c v, velocity c = Some v → flt v (fneg f_1) = true → candidate_weight m c = f_0_05.
Proof. exact weight_lost. Qed.
Print Assumptions C87_lost.

(** The correctly rounded functions and two different exercises meet the hypotheses. *)
Example C87_nonvacuous : ∃ m c c', libm_ok m ∧ plain_candidate c ∧ plain_candidate c' ∧ falls_slowly c ∧ as_good c c' ∧ c ≠ c' ∧ stagnant c = false.
Proof. exact weight_nonvacuous. Qed.
