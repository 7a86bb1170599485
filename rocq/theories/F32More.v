(** More about floats as real numbers: intervals with representable ends, clamping, casts of
    large integers, and sums that absorb small terms. *)
From Coq Require Import ZArith Bool List Lia Reals Lra.
From Coq.Floats Require Import SpecFloat.
From Flocq Require Import Core.Core IEEE754.BinarySingleNaN Relative.
From Verif Require Import F32 F32Real.
Local Open Scope R_scope.

(** [x] is finite and lies in [[a, b]]. *)
Definition btw (a b : R) (x : f32) : Prop := fin x /\ a <= val x <= b.
(** [r] is the value of a float. *)
Definition repr (r : R) : Prop := exists f : f32, fin f /\ val f = r.

Lemma repr_val x : fin x -> repr (val x).
Proof. now exists x. Qed.
Lemma repr_Z n : (Z.abs n <= 16777216)%Z -> repr (IZR n).
Proof. intros H. destruct (f_of_Z_val n H) as [Hf Hv]. now exists (f_of_Z n). Qed.
Lemma repr_bpow e : (-149 <= e <= 104)%Z -> repr (bpow radix2 e).
Proof. intros H. destruct (float_exists 1 e) as (h & Hf & Hv); [lia|lia|]. exists h. split; [easy|]. lra. Qed.
Lemma repr_opp r : repr r -> repr (- r).
Proof. intros (f & Hf & <-). exists (fneg f). split; [now apply fneg_fin|apply fneg_val]. Qed.

Lemma btw_weaken a b c d x : btw a b x -> c <= a -> b <= d -> btw c d x.
Proof. intros [H1 H2]; split; [easy|lra]. Qed.
Lemma btw_fin a b x : btw a b x -> fin x.
Proof. now intros []. Qed.

Lemma fadd_btw x y a b : fin x -> fin y -> repr a -> repr b -> a <= val x + val y <= b ->
  btw a b (fadd x y) /\ val (fadd x y) = rnd (val x + val y).
Proof.
  intros Hx Hy (fa & Fa & <-) (fb & Fb & <-) H.
  destruct (fadd_between x y fa fb Hx Hy H) as (H1 & H2 & H3). now repeat split.
Qed.
Lemma fsub_btw x y a b : fin x -> fin y -> repr a -> repr b -> a <= val x - val y <= b ->
  btw a b (fsub x y) /\ val (fsub x y) = rnd (val x - val y).
Proof.
  intros Hx Hy (fa & Fa & <-) (fb & Fb & <-) H.
  destruct (fsub_between x y fa fb Hx Hy H) as (H1 & H2 & H3). now repeat split.
Qed.
Lemma fmul_btw x y a b : fin x -> fin y -> repr a -> repr b -> a <= val x * val y <= b ->
  btw a b (fmul x y) /\ val (fmul x y) = rnd (val x * val y).
Proof.
  intros Hx Hy (fa & Fa & <-) (fb & Fb & <-) H.
  destruct (fmul_between x y fa fb Hx Hy H) as (H1 & H2 & H3). now repeat split.
Qed.
Lemma fdiv_btw x y a b : fin x -> fin y -> val y <> 0 -> repr a -> repr b -> a <= val x / val y <= b ->
  btw a b (fdiv x y) /\ val (fdiv x y) = rnd (val x / val y).
Proof.
  intros Hx Hy Hn (fa & Fa & <-) (fb & Fb & <-) H.
  destruct (fdiv_between x y fa fb Hx Hy Hn H) as (H1 & H2 & H3). now repeat split.
Qed.

Lemma rnd_repr r : repr r -> rnd r = r.
Proof. intros (f & _ & <-). apply rnd_val. Qed.
Lemma rnd_ge r a : repr a -> a <= r -> a <= rnd r.
Proof. intros H1 H2. rewrite <- (rnd_repr a H1). now apply rnd_le. Qed.
Lemma rnd_le_repr r a : repr a -> r <= a -> rnd r <= a.
Proof. intros H1 H2. rewrite <- (rnd_repr a H1). now apply rnd_le. Qed.

(** [max], [min], [clamp]. *)
Lemma fmin_val x y : fin x -> fin y -> fin (fmin x y) /\ val (fmin x y) = Rmin (val x) (val y).
Proof.
  intros Hx Hy. unfold fmin. rewrite !fin_not_nan by easy. destruct (flt y x) eqn:E.
  - apply flt_true in E; [|easy..]. split; [easy|]. rewrite Rmin_right; lra.
  - apply flt_false in E; [|easy..]. split; [easy|]. rewrite Rmin_left; lra.
Qed.
Lemma fclamp_val x lo hi : fin x -> fin lo -> fin hi -> val lo <= val hi ->
  fin (fclamp x lo hi) /\ val (fclamp x lo hi) = Rmin (Rmax (val x) (val lo)) (val hi).
Proof.
  intros Hx Hl Hh H. unfold fclamp. cbv zeta.
  change (fgt (if flt x lo then lo else x) hi) with (flt hi (if flt x lo then lo else x)).
  destruct (flt x lo) eqn:E.
  - apply flt_true in E; [|easy..]. rewrite Rmax_right by lra.
    destruct (flt hi lo) eqn:E2; [apply flt_true in E2; [lra|easy..]|].
    rewrite Rmin_left by lra. now split.
  - apply flt_false in E; [|easy..]. rewrite Rmax_left by lra.
    destruct (flt hi x) eqn:E2.
    + apply flt_true in E2; [|easy..]. rewrite Rmin_right by lra. now split.
    + apply flt_false in E2; [|easy..]. rewrite Rmin_left by lra. easy.
Qed.
Lemma fclamp_btw x lo hi : fin x -> fin lo -> fin hi -> val lo <= val hi -> btw (val lo) (val hi) (fclamp x lo hi).
Proof.
  intros Hx Hl Hh H. destruct (fclamp_val x lo hi Hx Hl Hh H) as [Hf Hv]. split; [easy|]. rewrite Hv.
  unfold Rmin, Rmax. destruct (Rle_dec (val x) (val lo)), (Rle_dec _ (val hi)); lra.
Qed.

(** Comparisons give intervals and back. *)
Lemma fle_btw x lo hi : fin lo -> fin hi ->
  (fle lo x = true /\ fle x hi = true) <-> btw (val lo) (val hi) x.
Proof.
  intros Hl Hh. split.
  - intros [H1 H2]. now apply fle_between.
  - intros (Hx & H1 & H2). split; now apply fle_true.
Qed.

(** Casts of integers of any size below 2^127. *)
Lemma f_of_Z_rnd z : (Z.abs z <= 2 ^ 127)%Z -> fin (f_of_Z z) /\ val (f_of_Z z) = rnd (IZR z).
Proof.
  intros Hz. unfold f_of_Z.
  pose proof (binary_normalize_correct 24 128 eq_refl eq_refl mode_NE z 0 false) as H.
  cbv zeta in H.
  assert (E : F2R (Float radix2 z 0) = IZR z) by (unfold F2R; simpl; lra).
  rewrite E in H.
  rewrite Rlt_bool_true in H; [destruct H as (H1 & H2 & _); easy|].
  apply Rle_lt_trans with (bpow radix2 127); [|apply bpow_lt; lia].
  apply abs_round_le_generic; [apply valid_exp_f32|apply valid_rnd_N| |].
  - apply generic_format_bpow. unfold SpecFloat.fexp, SpecFloat.emin. lia.
  - rewrite <- abs_IZR. rewrite <- IZR_Zpower by lia. now apply IZR_le.
Qed.
Lemma f_of_Z_le z z' : (Z.abs z <= 2 ^ 127)%Z -> (Z.abs z' <= 2 ^ 127)%Z -> (z <= z')%Z ->
  val (f_of_Z z) <= val (f_of_Z z').
Proof.
  intros H1 H2 H. destruct (f_of_Z_rnd z H1) as [_ ->], (f_of_Z_rnd z' H2) as [_ ->].
  apply rnd_le. now apply IZR_le.
Qed.
Lemma f_of_Z_btw z n : (0 <= n <= 104)%Z -> (0 <= z <= 2 ^ n)%Z -> btw 0 (bpow radix2 n) (f_of_Z z).
Proof.
  intros Hn Hz. assert (2 ^ n <= 2 ^ 127)%Z by (apply Z.pow_le_mono_r; lia).
  destruct (f_of_Z_rnd z) as [Hf Hv]; [lia|]. split; [easy|]. rewrite Hv. split.
  - apply rnd_ge; [apply (repr_Z 0); lia|apply IZR_le; lia].
  - apply rnd_le_repr; [apply repr_bpow; lia|]. rewrite <- IZR_Zpower by lia. apply IZR_le. simpl. lia.
Qed.

(** A sum that is at most [2^e] stays so when something below half a unit in the last place
    of [2^e] is added. *)
Lemma absorb e r : (-125 <= e <= 104)%Z -> r < bpow radix2 e + bpow radix2 (e - 24) -> rnd r <= bpow radix2 e.
Proof.
  intros He Hr.
  apply round_N_le_midp; [apply valid_exp_f32| |].
  - apply generic_format_bpow. unfold SpecFloat.fexp, SpecFloat.emin. lia.
  - rewrite succ_eq_pos by apply bpow_ge_0. rewrite ulp_bpow.
    unfold SpecFloat.fexp, SpecFloat.emin. rewrite Z.max_l by lia.
    replace (e + 1 - 24)%Z with (e - 24 + 1)%Z by lia. rewrite (bpow_plus radix2 (e - 24) 1).
    change (bpow radix2 1) with 2. lra.
Qed.
Lemma absorb_neg e r : (-125 <= e <= 104)%Z -> - (bpow radix2 e + bpow radix2 (e - 24)) < r -> - bpow radix2 e <= rnd r.
Proof.
  intros He Hr. assert (H : rnd (- r) <= bpow radix2 e) by (apply absorb; [easy|lra]).
  assert (E : rnd (- r) = - rnd r).
  { unfold round_mode. change (round_mode mode_NE) with ZnearestE. apply round_NE_opp. }
  rewrite E in H. lra.
Qed.
