(** The documented formulas of the memory of an exercise, over the real numbers. *)
From stdpp Require Import list.
From Coq Require Import ZArith Reals.
From Verif Require Import F32 F32Real Stores Scorer.
Local Open Scope R_scope.

Definition within (lo x hi : R) : R := Rmin (Rmax x lo) hi.
(** The exponent of the forgetting curve: 0.4 for facts and 0.2 for skills. *)
Definition fading (ty : exercise_type) : R := match ty with Declarative => 4 / 10 | Procedural => 2 / 10 end.
(** R = (1 + factor * days / stability)^decay, with the factor for which R is 0.9 at
    [days = stability]. *)
Definition exact_recall (ty : exercise_type) (days stability : R) : R :=
  Rpower (1 + (Rpower (9 / 10) (- / fading ty) - 1) * days / stability) (- fading ty).
(** S' = S * (1 + 2.5 * P * E * spacing gain * damping), in [0.5, 730]. *)
Definition exact_stability (stability difficulty grade recall days : R) : R :=
  let P := (grade - 1) / 4 - 1 / 2 in
  let E := (11 - difficulty) / 5 in
  let gain := if Rlt_dec 3 grade then 1 + 65 / 100 * (1 - recall) else 1 in
  within (/ 2) (stability * (1 + 5 / 2 * P * E * gain * Rmin days 1)) 730.
(** The new difficulty: 16 percent of 5 and 84 percent of the old one, changed by the grade. *)
Definition exact_difficulty (difficulty grade : R) : R :=
  within 1 (16 / 100 * 5 + 84 / 100 * within 1 (difficulty + (3 - grade) / 4 * (105 / 100)) 10) 10.

(** ** The average of the grades *)
Definition total (l : list R) : R := foldr Rplus 0 l.
(** The mean of values (second) with weights (first). *)
Definition mean (l : list (R * R)) : R := total ((λ p, p.1 * p.2) <$> l) / total (fst <$> l).
(** 0.95 to the power of the age, and at least 0.1. *)
Definition weight_after (age : R) : R := Rmax (Rpower (95 / 100) age) (/ 10).
Definition weeks (newer older : Z) : R := Rmax (IZR (newer - older) / 604800) 0.
(** The age counts in weeks before the newest trial, *)
Definition time_average (l : list trial) : R :=
  match l with
  | [] => 0
  | t0 :: _ => mean ((λ t, (weight_after (weeks (e_ts t0) (e_ts t)), val (e_val t))) <$> l)
  end.
(** or in trials since. *)
Definition position_average (l : list trial) : R := mean (imap (λ i t, (weight_after (INR i), val (e_val t))) l).
Definition exact_average (l : list trial) : R := 8 / 10 * time_average l + 2 / 10 * position_average l.

(** ** The score *)
(** The chance of recall counts as 0.75 at least for an exercise whose average is 4 or more, if
    it was last tried 50 days ago or more, and twice or more often. *)
Definition exact_score (recall average delta days : R) (n : nat) : R :=
  let recall := if Rle_dec 4 average then if Rle_dec 50 days then if decide (2 <= n)%nat then Rmax recall (3 / 4) else recall else recall else recall in
  within 0 (recall * average + delta * recall / 4) 5.
(** No difference of two of these times overflows. *)
Definition near_times (l : list trial) (now : Z) : Prop :=
  (Z.abs now <= 4611686018427387903)%Z ∧ Forall (λ t : trial, (Z.abs (e_ts t) <= 4611686018427387903)%Z) l.
(** ** The difficulty before the first trial *)
Definition failures_in (l : list trial) : nat := length (List.filter (λ t, flt (e_val t) f_3) l).
Definition exact_estimate (failed n : nat) : R := 1 + 9 * (INR failed / INR n).
