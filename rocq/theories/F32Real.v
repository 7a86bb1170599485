(** Floats as real numbers: comparisons, and the four operations when the result is known to
    lie between two floats (then nothing overflows). *)
From Coq Require Import ZArith Bool List Lia Reals Lra.
From Coq.Floats Require Import SpecFloat.
From Flocq Require Import Core.Core IEEE754.BinarySingleNaN Sterbenz.
From Verif Require Import F32.
Local Open Scope R_scope.

Definition fin (x : f32) : Prop := is_finite x = true.
Definition val (x : f32) : R := B2R x.
Notation rnd := (round radix2 (SpecFloat.fexp 24 128) (round_mode mode_NE)).

Global Instance valid_exp_f32 : Valid_exp (SpecFloat.fexp 24 128) := fexp_correct 24 128 eq_refl.
Global Instance monotone_exp_f32 : Monotone_exp (SpecFloat.fexp 24 128) := fexp_monotone 24 128.

Lemma val_format (x : f32) : generic_format radix2 (SpecFloat.fexp 24 128) (val x).
Proof. apply generic_format_B2R. Qed.
Lemma val_bound (x : f32) : Rabs (val x) < bpow radix2 128.
Proof. apply abs_B2R_lt_emax. Qed.

(** ** Comparisons *)
Lemma flt_val x y : fin x -> fin y -> flt x y = Rlt_bool (val x) (val y).
Proof. intros. now apply Bltb_correct. Qed.
Lemma fle_val x y : fin x -> fin y -> fle x y = Rle_bool (val x) (val y).
Proof. intros. now apply Bleb_correct. Qed.
Lemma feq_val x y : fin x -> fin y -> feq x y = Req_bool (val x) (val y).
Proof. intros. now apply Beqb_correct. Qed.
Lemma flt_true x y : fin x -> fin y -> (flt x y = true <-> val x < val y).
Proof.
  intros Hx Hy. rewrite flt_val by easy. split; [|apply Rlt_bool_true].
  intros H. destruct (Rlt_bool_spec (val x) (val y)); easy.
Qed.
Lemma fle_true x y : fin x -> fin y -> (fle x y = true <-> val x <= val y).
Proof.
  intros Hx Hy. rewrite fle_val by easy. split; [|apply Rle_bool_true].
  intros H. destruct (Rle_bool_spec (val x) (val y)); easy.
Qed.
Lemma feq_true x y : fin x -> fin y -> (feq x y = true <-> val x = val y).
Proof.
  intros Hx Hy. rewrite feq_val by easy. split; [|apply Req_bool_true].
  intros H. destruct (Req_bool_spec (val x) (val y)); easy.
Qed.
Lemma flt_false x y : fin x -> fin y -> (flt x y = false <-> val y <= val x).
Proof.
  intros Hx Hy. rewrite flt_val by easy. split; [|apply Rlt_bool_false].
  intros H. destruct (Rlt_bool_spec (val x) (val y)); easy.
Qed.
Lemma fle_false x y : fin x -> fin y -> (fle x y = false <-> val y < val x).
Proof.
  intros Hx Hy. rewrite fle_val by easy. split; [|apply Rle_bool_false].
  intros H. destruct (Rle_bool_spec (val x) (val y)); easy.
Qed.
(** A float between two finite ones is finite. *)
Lemma fle_fin x lo hi : fin lo -> fin hi -> fle lo x = true -> fle x hi = true -> fin x.
Proof.
  intros Hl Hh H1 H2. destruct x as [s|[]| |s m e H]; try reflexivity;
    destruct lo as [?|[]| |[]]; destruct hi as [?|[]| |[]]; simpl in *; easy.
Qed.
Lemma fle_between x lo hi : fin lo -> fin hi -> fle lo x = true -> fle x hi = true ->
  fin x /\ val lo <= val x <= val hi.
Proof.
  intros Hl Hh H1 H2. assert (Hx : fin x) by now apply (fle_fin x lo hi). split; [easy|].
  split; now apply fle_true.
Qed.
Lemma fin_not_nan x : fin x -> fis_nan x = false.
Proof. now destruct x. Qed.

(** ** Rounding *)
Lemma rnd_between (l h : f32) r : val l <= r <= val h -> val l <= rnd r <= val h.
Proof.
  intros [H1 H2]. split.
  - apply round_ge_generic; try easy; try apply valid_rnd_N; [apply valid_exp_f32|apply val_format].
  - apply round_le_generic; try easy; try apply valid_rnd_N; [apply valid_exp_f32|apply val_format].
Qed.
Lemma rnd_in_range (l h : f32) r : val l <= r <= val h -> Rlt_bool (Rabs (rnd r)) (bpow radix2 128) = true.
Proof.
  intros H. apply Rlt_bool_true. apply rnd_between in H as [H1 H2].
  pose proof (val_bound l) as Hl. pose proof (val_bound h) as Hh.
  apply Rabs_def2 in Hl, Hh. apply Rabs_def1; lra.
Qed.
Lemma rnd_le r s : r <= s -> rnd r <= rnd s.
Proof. apply round_le; [apply valid_exp_f32|apply valid_rnd_N]. Qed.
Lemma rnd_val x : rnd (val x) = val x.
Proof. apply round_generic; [apply valid_rnd_N|apply val_format]. Qed.

(** ** Operations *)
Lemma fadd_between x y l h : fin x -> fin y -> val l <= val x + val y <= val h ->
  fin (fadd x y) /\ val (fadd x y) = rnd (val x + val y) /\ val l <= val (fadd x y) <= val h.
Proof.
  intros Hx Hy H. pose proof (Bplus_correct 24 128 eq_refl eq_refl mode_NE x y Hx Hy) as E.
  rewrite (rnd_in_range l h) in E by exact H. destruct E as (E & Ef & _).
  change (val (fadd x y) = rnd (val x + val y)) in E.
  split; [exact Ef|]. split; [exact E|]. rewrite E. now apply rnd_between.
Qed.
Lemma fsub_between x y l h : fin x -> fin y -> val l <= val x - val y <= val h ->
  fin (fsub x y) /\ val (fsub x y) = rnd (val x - val y) /\ val l <= val (fsub x y) <= val h.
Proof.
  intros Hx Hy H. pose proof (Bminus_correct 24 128 eq_refl eq_refl mode_NE x y Hx Hy) as E.
  rewrite (rnd_in_range l h) in E by exact H. destruct E as (E & Ef & _).
  change (val (fsub x y) = rnd (val x - val y)) in E.
  split; [exact Ef|]. split; [exact E|]. rewrite E. now apply rnd_between.
Qed.
Lemma fmul_between x y l h : fin x -> fin y -> val l <= val x * val y <= val h ->
  fin (fmul x y) /\ val (fmul x y) = rnd (val x * val y) /\ val l <= val (fmul x y) <= val h.
Proof.
  intros Hx Hy H. pose proof (Bmult_correct 24 128 eq_refl eq_refl mode_NE x y) as E.
  rewrite (rnd_in_range l h) in E by exact H. destruct E as (E & Ef & _).
  rewrite Hx, Hy in Ef.
  change (val (fmul x y) = rnd (val x * val y)) in E.
  split; [exact Ef|]. split; [exact E|]. rewrite E. now apply rnd_between.
Qed.
Lemma fdiv_between x y l h : fin x -> fin y -> val y <> 0 -> val l <= val x / val y <= val h ->
  fin (fdiv x y) /\ val (fdiv x y) = rnd (val x / val y) /\ val l <= val (fdiv x y) <= val h.
Proof.
  intros Hx Hy Hy0 H. pose proof (Bdiv_correct 24 128 eq_refl eq_refl mode_NE x y Hy0) as E.
  rewrite (rnd_in_range l h) in E by exact H. destruct E as (E & Ef & _).
  rewrite Hx in Ef.
  change (val (fdiv x y) = rnd (val x / val y)) in E.
  split; [exact Ef|]. split; [exact E|]. rewrite E. now apply rnd_between.
Qed.
Lemma fabs_val x : val (fabs x) = Rabs (val x).
Proof. apply B2R_Babs. Qed.
Lemma fabs_fin x : fin x -> fin (fabs x).
Proof. unfold fin, fabs. now rewrite is_finite_Babs. Qed.
Lemma fneg_val x : val (fneg x) = - val x.
Proof. apply B2R_Bopp. Qed.
Lemma fneg_fin x : fin x -> fin (fneg x).
Proof. unfold fin, fneg. now rewrite is_finite_Bopp. Qed.

(** The value of a literal. *)
Lemma lit_val s m e H : val (lit s m e H) = (if s then - IZR (Zpos m) else IZR (Zpos m)) * bpow radix2 e.
Proof. unfold val, lit. simpl. unfold F2R. simpl. now destruct s. Qed.

(** Integers up to 2^24 are exact. *)
Lemma f_of_Z_val z : (Z.abs z <= 16777216)%Z -> fin (f_of_Z z) /\ val (f_of_Z z) = IZR z.
Proof.
  intros Hz. unfold f_of_Z.
  pose proof (binary_normalize_correct 24 128 eq_refl eq_refl mode_NE z 0 false) as H.
  assert (Hr : rnd (F2R (Float radix2 z 0)) = IZR z).
  { rewrite round_generic.
    - unfold F2R. simpl. lra.
    - apply valid_rnd_N.
    - apply generic_format_FLT. destruct (Z.eq_dec (Z.abs z) 16777216) as [He|Hne].
      + exists (Float radix2 (Z.sgn z * 8388608) 1); simpl.
        * unfold F2R. simpl. rewrite Rmult_1_r, <- mult_IZR. f_equal. lia.
        * change (Z.abs (Z.sgn z * 8388608) < 16777216)%Z. lia.
        * unfold SpecFloat.emin. lia.
      + exists (Float radix2 z 0); [easy| |].
        * change (Z.abs z < 16777216)%Z. lia.
        * change (SpecFloat.emin 24 128 <= 0)%Z. unfold SpecFloat.emin. lia. }
  cbv zeta in H. rewrite Hr in H. rewrite Rlt_bool_true in H.
  - destruct H as (H1 & H2 & _). easy.
  - apply Rle_lt_trans with (IZR 16777216); [rewrite <- abs_IZR; now apply IZR_le|].
    replace (IZR 16777216) with (bpow radix2 24) by (simpl; lra).
    apply bpow_lt. lia.
Qed.
Lemma f_of_nat_val n : (Z.of_nat n <= 16777216)%Z -> fin (f_of_nat n) /\ val (f_of_nat n) = INR n.
Proof. intros H. unfold f_of_nat. rewrite INR_IZR_INZ. apply f_of_Z_val. lia. Qed.

(** Every short enough mantissa with an exponent in range is a float. *)
Lemma float_exists m e : (Z.abs m < 16777216)%Z -> (-149 <= e <= 104)%Z ->
  exists h : f32, fin h /\ val h = IZR m * bpow radix2 e.
Proof.
  intros Hm He. exists (binary_normalize 24 128 eq_refl eq_refl mode_NE m e false).
  pose proof (binary_normalize_correct 24 128 eq_refl eq_refl mode_NE m e false) as H.
  cbv zeta in H.
  assert (Hr : rnd (F2R (Float radix2 m e)) = IZR m * bpow radix2 e).
  { rewrite round_generic; [easy|apply valid_rnd_N|]. apply generic_format_FLT.
    exists (Float radix2 m e); [easy| |].
    - change (Z.abs m < 16777216)%Z. lia.
    - change (SpecFloat.emin 24 128 <= e)%Z. unfold SpecFloat.emin. lia. }
  rewrite Hr in H. rewrite Rlt_bool_true in H; [destruct H as (H1 & H2 & _); easy|].
  rewrite Rabs_mult, (Rabs_pos_eq (bpow radix2 e)) by apply bpow_ge_0.
  replace (bpow radix2 128) with (bpow radix2 24 * bpow radix2 104) by (rewrite <- bpow_plus; easy).
  apply Rlt_le_trans with (bpow radix2 24 * bpow radix2 e).
  - apply Rmult_lt_compat_r; [apply bpow_gt_0|]. rewrite <- abs_IZR.
    replace (bpow radix2 24) with (IZR 16777216) by (simpl; lra). now apply IZR_lt.
  - apply Rmult_le_compat_l; [apply bpow_ge_0|]. apply bpow_le. lia.
Qed.

(** The integer casts of non-negative floats. *)
Lemma f_to_usize_val x : fin x -> 0 <= val x -> f_to_usize x = Some (Z.to_nat (Zfloor (val x))).
Proof.
  intros Hx Hv.
  assert (E : f_to_usize x = Some (Z.to_nat (Btrunc x))) by (destruct x as [[]|[]| |[] ? ? ?]; easy).
  rewrite E. do 2 f_equal. apply eq_IZR. rewrite (Btrunc_correct 24 128 eq_refl).
  rewrite round_FIX_IZR. now rewrite Ztrunc_floor.
Qed.
Lemma f_to_usize_below x n k : fin x -> 0 <= val x -> val x < INR (S n) -> f_to_usize x = Some k -> (k <= n)%nat.
Proof.
  intros Hx Hv Hlt. rewrite f_to_usize_val by easy. intros [= <-].
  assert (Zfloor (val x) < Z.of_nat (S n))%Z; [|lia].
  apply lt_IZR. rewrite <- INR_IZR_INZ. apply Rle_lt_trans with (val x); [apply Zfloor_lb|easy].
Qed.

(** [max] of a finite and a positive number. *)
Lemma fmax_val x y : fin x -> fin y -> fin (fmax x y) /\ val (fmax x y) = Rmax (val x) (val y).
Proof.
  intros Hx Hy. unfold fmax. rewrite !fin_not_nan by easy. destruct (flt x y) eqn:E.
  - apply flt_true in E; [|easy..]. split; [easy|]. rewrite Rmax_right; lra.
  - apply flt_false in E; [|easy..]. split; [easy|]. rewrite Rmax_left; lra.
Qed.
