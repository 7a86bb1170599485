(** What the theorems about the weights of candidates are stated with. *)
From stdpp Require Import list.
From Coq Require Import ZArith Reals.
From Flocq Require Import IEEE754.BinarySingleNaN.
From Verif Require Import F32 F32Real Stores Scorer ScorerSpec Batch.

(** What is used of the math library: [ln_1p] rises and is moderate above -1, minus infinity
    at -1 and undefined below; [exp] rises and is not negative, also at infinity; [sqrt] rises, takes [0.05, 100] into [0.2, 10];
    NaN gives NaN. *)
Record libm_ok (m : libm) : Prop := {
  ln_range : ∀ x, fin x → flt (fneg f_1) x = true → fin (m_ln_1p m x) ∧ (-20 <= val (m_ln_1p m x) <= 100)%R;
  ln_rises : ∀ x y, fin x → fin y → flt (fneg f_1) x = true → fle x y = true → fle (m_ln_1p m x) (m_ln_1p m y) = true;
  ln_undefined : ∀ x, flt x (fneg f_1) = true → fis_nan (m_ln_1p m x) = true;
  ln_pole : ∀ x, feq x (fneg f_1) = true → m_ln_1p m x = B754_infinity true;
  exp_rises : ∀ x y, fin x → fin y → fle x y = true → fle (m_exp m x) (m_exp m y) = true;
  exp_positive : ∀ x, fin x → fle fzero (m_exp m x) = true;
  exp_pole : m_exp m (B754_infinity false) = B754_infinity false;
  exp_undefined : ∀ x, fis_nan x = true → fis_nan (m_exp m x) = true;
  sqrt_range : ∀ x, between f_0_05 x f_100 → between f_0_2 (m_sqrt m x) f_10;
  sqrt_rises : ∀ x y, between f_0_05 x f_100 → between f_0_05 y f_100 → fle x y = true → fle (m_sqrt m x) (m_sqrt m y) = true;
  sqrt_undefined : ∀ x, fis_nan x = true → fis_nan (m_sqrt m x) = true
}.

(** A count or a sum of weights: a number that is not negative. *)
Definition amount (x : f32) : Prop := fin x ∧ fle fzero x = true.
(** A candidate as the search makes it. *)
Record plain_candidate (c : candidate) : Prop := {
  pc_depth : amount (depth c);
  pc_encompasses : amount (encompasses_weight c);
  pc_encompassed : amount (encompassed_weight c);
  pc_frequency : (Z.of_nat (frequency c) < 18446744073709551616)%Z;
  pc_urgency : between fzero (urgency c) f_1;
  pc_velocity : ∀ v, velocity c = Some v → fin v
}.

(** The grades do not fall by more than one a day. *)
Definition falls_slowly (c : candidate) : Prop := ∀ v, velocity c = Some v → fle (fneg f_1) v = true.

(** The grades hardly change: less than 0.2 a day. *)
Definition stagnant (c : candidate) : bool :=
  match velocity c with Some v => flt (fabs v) f_0_2 | None => false end.
Definition known_well (c : candidate) : bool := fge (exercise_score c) f_4.

(** The second of two candidates is at least as good for practice as the first by every
    documented measure: it is deeper, it covers more and is covered by less, it was scheduled
    less often, it is a dead end if the first is, it is learned as fast or faster, and if
    both are stagnant then it is not the one that is known well. *)
Record as_good (c c' : candidate) : Prop := {
  ag_urgency : fle (urgency c) (urgency c') = true;
  ag_depth : fle (depth c) (depth c') = true;
  ag_encompasses : fle (encompasses_weight c) (encompasses_weight c') = true;
  ag_encompassed : fle (encompassed_weight c') (encompassed_weight c) = true;
  ag_frequency : frequency c' ≤ frequency c;
  ag_dead_end : dead_end c = true → dead_end c' = true;
  ag_velocity : match velocity c, velocity c' with
                | None, None => True
                | Some v, Some v' => fle v v' = true
                | _, _ => False
                end;
  ag_stagnant : stagnant c = stagnant c';
  ag_known : stagnant c = true → known_well c' = true → known_well c = true
}.
