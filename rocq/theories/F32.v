(** Single-precision floats (Rust [f32]) as Flocq's [binary_float 24 128]:
    IEEE-754 binary32, round to nearest even, one NaN (payloads are not
    modelled), signed zeros and infinities.

    Only definitions here; the lemmas are in F32Facts.v. *)
From Coq Require Import ZArith Bool List.
From Coq.Floats Require Import SpecFloat.
From Flocq Require Import Core.Core IEEE754.BinarySingleNaN.
Import ListNotations.

Global Instance prec_gt_0_24 : Prec_gt_0 24 := eq_refl.
Global Instance prec_lt_emax_24 : Prec_lt_emax 24 128 := eq_refl.

(** Rust type [f32]. *)
Definition f32 : Set := binary_float 24 128.

Definition fnan : f32 := B754_nan.
Definition fzero : f32 := B754_zero false.

(** Finite literal [m * 2^e]; the mantissa has to be canonical. The proof that
    it is goes in the last argument as [eq_refl]. *)
Definition lit (s : bool) (m : positive) (e : Z)
  (H : SpecFloat.bounded 24 128 m e = true) : f32 := B754_finite s m e H.

(** Arithmetic operators [+ - * /] of [f32]. *)
Definition fadd : f32 -> f32 -> f32 := Bplus mode_NE.
Definition fsub : f32 -> f32 -> f32 := Bminus mode_NE.
Definition fmul : f32 -> f32 -> f32 := Bmult mode_NE.
Definition fdiv : f32 -> f32 -> f32 := Bdiv mode_NE.
Definition fneg : f32 -> f32 := Bopp.
Definition fabs : f32 -> f32 := Babs.

(** Comparison operators: every comparison with NaN is false. *)
Definition flt (x y : f32) : bool := Bltb x y.
Definition fle (x y : f32) : bool := Bleb x y.
Definition fgt (x y : f32) : bool := Bltb y x.
Definition fge (x y : f32) : bool := Bleb y x.
Definition feq (x y : f32) : bool := Beqb x y.

(** [f32::is_nan]. *)
Definition fis_nan (x : f32) : bool := is_nan x.

(** [f32::max] and [f32::min]: a NaN argument is ignored. *)
Definition fmax (x y : f32) : f32 :=
  if fis_nan x then y else if fis_nan y then x else if flt x y then y else x.
Definition fmin (x y : f32) : f32 :=
  if fis_nan x then y else if fis_nan y then x else if flt y x then y else x.

(** [f32::clamp]: [if self < min { min }], then [if self > max { max }].
    NaN stays NaN. The panic for [min > max] is not modelled: every use in the
    code has constant bounds in order. *)
Definition fclamp (x lo hi : f32) : f32 :=
  let x := if flt x lo then lo else x in
  if fgt x hi then hi else x.

(** Integer casts [n as f32] (round to nearest even). *)
Definition f_of_Z (z : Z) : f32 := binary_normalize 24 128 _ _ mode_NE z 0 false.
Definition f_of_nat (n : nat) : f32 := f_of_Z (Z.of_nat n).

(** [x.floor() as usize] / [x as usize]: truncation, negative values and NaN
    give 0. Saturation at 2^64 is not modelled; +infinity gives [None]. *)
Definition f_trunc (x : f32) : Z := Btrunc x.
Definition f_to_usize (x : f32) : option nat :=
  match x with
  | B754_infinity false => None
  | B754_infinity true => Some 0
  | _ => Some (Z.to_nat (Btrunc x))
  end.

(** [iter().sum::<f32>()]: left fold. The Rust library starts at -0.0 (which
    only matters for the sign of an all-minus-zero or empty sum) *)
Definition fsum (l : list f32) : f32 := fold_left fadd l (B754_zero true).

(** Literals used by the code. Each is checked against a correctly rounded
    quotient in F32Facts.v. *)
Definition f_0_05 : f32 := lit false 13421773 (-28) eq_refl.
Definition f_0_1 : f32 := lit false 13421773 (-27) eq_refl.
Definition f_0_2 : f32 := lit false 13421773 (-26) eq_refl.
Definition f_0_25 : f32 := lit false 8388608 (-25) eq_refl.
Definition f_0_3 : f32 := lit false 10066330 (-25) eq_refl.
Definition f_0_4 : f32 := lit false 13421773 (-25) eq_refl.
Definition f_0_5 : f32 := lit false 8388608 (-24) eq_refl.
Definition f_0_75 : f32 := lit false 12582912 (-24) eq_refl.
Definition f_0_8 : f32 := lit false 13421773 (-24) eq_refl.
Definition f_0_9 : f32 := lit false 15099494 (-24) eq_refl.
Definition f_1 : f32 := lit false 8388608 (-23) eq_refl.
Definition f_2 : f32 := lit false 8388608 (-22) eq_refl.
Definition f_2_5 : f32 := lit false 10485760 (-22) eq_refl.
Definition f_3 : f32 := lit false 12582912 (-22) eq_refl.
Definition f_3_75 : f32 := lit false 15728640 (-22) eq_refl.
Definition f_4 : f32 := lit false 8388608 (-21) eq_refl.
Definition f_4_5 : f32 := lit false 9437184 (-21) eq_refl.
Definition f_5 : f32 := lit false 10485760 (-21) eq_refl.
Definition f_0_16 : f32 := lit false 10737418 (-26) eq_refl.
Definition f_0_65 : f32 := lit false 10905190 (-24) eq_refl.
Definition f_0_7 : f32 := lit false 11744051 (-24) eq_refl.
Definition f_0_95 : f32 := lit false 15938355 (-24) eq_refl.
Definition f_1_05 : f32 := lit false 8808038 (-23) eq_refl.
Definition f_3_5 : f32 := lit false 14680064 (-22) eq_refl.
Definition f_7 : f32 := lit false 14680064 (-21) eq_refl.
Definition f_9 : f32 := lit false 9437184 (-20) eq_refl.
Definition f_10 : f32 := lit false 10485760 (-20) eq_refl.
Definition f_11 : f32 := lit false 11534336 (-20) eq_refl.
Definition f_14 : f32 := lit false 14680064 (-20) eq_refl.
Definition f_50 : f32 := lit false 13107200 (-18) eq_refl.
Definition f_730 : f32 := lit false 11960320 (-14) eq_refl.
Definition f_86400 : f32 := lit false 11059200 (-7) eq_refl.
(** [f32::EPSILON] = 2^-23. *)
Definition f_epsilon : f32 := lit false 8388608 (-46) eq_refl.
