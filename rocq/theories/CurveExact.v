(** Proof that the chance of recall is the documented power law, up to rounding. *)
From stdpp Require Import list strings.
From Coq Require Import ZArith Reals Lra Lia.
From Flocq Require Import Core.Core IEEE754.BinarySingleNaN.
From Verif Require Import F32 F32Real F32More Stores Scorer ScorerSpec ScorerProofs ScoreProofs PowerSample AverageProofs CurveProofs MemoryProofs ExactSpec MemoryExact.
Local Open Scope R_scope.

Lemma exp_near h : Rabs h <= / 100 → Rabs (exp h - 1) <= 2 * Rabs h.
Proof.
  intros H. pose proof (exp_ineq1_le h) as L. pose proof (exp_ineq1_le (- h)) as U. rewrite exp_Ropp in U.
  assert (P : 0 < exp h) by apply exp_pos. assert (I : exp h * / exp h = 1) by (apply Rinv_r; lra).
  destruct (Rle_lt_dec 0 h) as [N|N].
  - rewrite (Rabs_pos_eq h) in * by done. apply Rabs_le. split; [lra|].
    assert (V : exp h * (1 + - h) <= exp h * / exp h) by (apply Rmult_le_compat_l; lra). rewrite I in V. nra.
  - rewrite (Rabs_left h) in * by done. apply Rabs_le. split; [lra|].
    assert (V : exp h * (1 + - h) <= exp h * / exp h) by (apply Rmult_le_compat_l; lra). rewrite I in V. nra.
Qed.
Lemma ln_near e : Rabs e <= / 2 → Rabs (ln (1 + e)) <= 2 * Rabs e.
Proof.
  intros H. apply Rabs_le_inv in H as H'. pose proof (exp_ineq1_le (ln (1 + e))) as L. rewrite exp_ln in L by lra.
  pose proof (exp_ineq1_le (- ln (1 + e))) as U. rewrite exp_Ropp, exp_ln in U by lra.
  assert (I : (1 + e) * / (1 + e) = 1) by (apply Rinv_r; lra).
  assert (V : (1 + e) * (1 + - ln (1 + e)) <= (1 + e) * / (1 + e)) by (apply Rmult_le_compat_l; lra). rewrite I in V.
  destruct (Rle_lt_dec 0 e) as [N|N].
  - rewrite (Rabs_pos_eq e) in * by done. apply Rabs_le. split; [|lra]. nra.
  - rewrite (Rabs_left e) in * by done. apply Rabs_le. split; [|lra]. nra.
Qed.
Lemma ln_big x : 1 <= x <= bpow radix2 70 → 0 <= ln x <= 70.
Proof.
  intros H. split; [apply ln_pos; lra|]. eapply Rle_trans; [apply ln_mono; [lra|apply H]|].
  replace (bpow radix2 70) with (2 ^ 70) by (rewrite (bp 70 (2 ^ 70)) by lia; rewrite pow_IZR; f_equal).
  rewrite ln_pow by lra. pose proof (exp_ineq1_le (ln 2)) as L. rewrite exp_ln in L by lra.
  replace (INR 70) with 70 by (rewrite INR_IZR_INZ; f_equal). nra.
Qed.
(** Powers of numbers that are close to each other, with exponents that are. *)
Lemma power_near y X a a' : 1 <= y → 1 <= X <= bpow radix2 70 → 0 <= a <= 1 → 0 <= a' - a <= / 10000000 → Rabs (y - X) <= X * (3 / 100000) →
  Rabs (Rpower y (- a') - Rpower X (- a)) <= 2 / 10000.
Proof.
  intros Hy HX Ha Hd Hc. set (e := (y - X) / X).
  assert (Ey : y = X * (1 + e)) by (unfold e; field; lra).
  assert (He : Rabs e <= 3 / 100000).
  { unfold e, Rdiv. rewrite Rabs_mult, Rabs_inv, (Rabs_pos_eq X) by lra.
    apply Rmult_le_reg_r with X; [lra|]. rewrite Rmult_assoc, Rinv_l by lra. lra. }
  apply Rabs_le_inv in He as He'. pose proof (ln_near e ltac:(lra)) as HL. pose proof (ln_big X HX) as HB.
  assert (El : ln y = ln X + ln (1 + e)) by (rewrite Ey; apply ln_mult; lra).
  unfold Rpower. rewrite El. set (L := ln X) in *. set (l := ln (1 + e)) in *.
  assert (Bl : Rabs l <= 6 / 100000) by lra. apply Rabs_le_inv in Bl.
  set (h := - (a' - a) * L - a' * l).
  replace (- a' * (L + l)) with (- a * L + h) by (unfold h; ring). rewrite exp_plus.
  assert (Hh : Rabs h <= 8 / 100000).
  { unfold h. assert (0 <= (a' - a) * L <= / 10000000 * 70) by (split; [nra|apply Rmult_le_compat; lra]).
    assert (- (7 / 100000) <= a' * l <= 7 / 100000) by (split; nra). apply Rabs_le. lra. }
  pose proof (exp_near h ltac:(lra)) as HE. apply Rabs_le_inv in HE.
  assert (E1 : 0 < exp (- a * L) <= 1).
  { split; [apply exp_pos|]. rewrite <-exp_0. apply exp_le. nra. }
  apply Rabs_le. split; nra.
Qed.

Lemma fading_inverse ty : / fading ty = inverse_decay ty.
Proof. destruct ty; unfold fading, inverse_decay; lra. Qed.
Lemma root_near ty : Rabs (root ty - Rpower (9 / 10) (- / fading ty)) <= 11 / 10000000.
Proof.
  rewrite fading_inverse. unfold root, Rpower. set (i := inverse_decay ty). assert (Hi : 0 <= i <= 5) by (unfold i; destruct ty; unfold inverse_decay; lra).
  pose proof target_val as V. set (e := val f_0_9 / (9 / 10) - 1).
  assert (Ev : val f_0_9 = 9 / 10 * (1 + e)) by (unfold e; lra).
  assert (He : Rabs e <= 27 / 1000000000) by (unfold e; rewrite <-V; apply Rabs_le; lra). apply Rabs_le_inv in He as He'.
  pose proof (ln_near e ltac:(lra)) as HL. rewrite Ev, ln_mult by lra. set (l := ln (1 + e)) in *. set (L := ln (9 / 10)) in *.
  replace (- i * L) with (- i * (L + l) + i * l) by ring. rewrite exp_plus.
  assert (Bl : Rabs l <= 54 / 1000000000) by lra. apply Rabs_le_inv in Bl.
  assert (Hh : Rabs (i * l) <= 27 / 100000000) by (apply Rabs_le; split; nra).
  pose proof (exp_near (i * l) ltac:(lra)) as HE. apply Rabs_le_inv in HE.
  pose proof (root_bounds ty) as B. unfold root, Rpower in B. fold i in B. rewrite Ev, ln_mult in B by lra. fold l L in B.
  set (A := exp (- i * (L + l))) in *. clearbody A. apply Rabs_le. split; nra.
Qed.

Section curve.
  Context (powf : f32 → f32 → f32) (Hp : power_ok powf) (Hr : rounded_power powf).

  Lemma recall_close ty days s : btw 0 (bpow radix2 63) days → btw (/ 2) 730 s →
    Rabs (val (retrievability powf ty days s) - exact_recall ty (val days) (val s)) <= 3 / 10000.
  Proof using Hp Hr.
    intros Hd Hs. destruct (retrievability_val powf Hp Hr ty days s Hd Hs) as (y & Hy & Ey & ->).
    destruct (factor_val powf Hp Hr ty) as (_ & Ec & Bc). pose proof (root_bounds ty) as HA. pose proof (root_ninth ty) as HB.
    pose proof (root_near ty) as HN. unfold exact_recall. set (A := root ty) in *. set (A0 := Rpower (9 / 10) (- / fading ty)) in *.
    clearbody A A0. set (c := val (curve_factor powf ty)) in *.
    pose proof (close A 2 ltac:(ab)) as E1. apply Rabs_le_inv in E1.
    pose proof (close (rnd A - 1) 1 ltac:(ab)) as E2. rewrite <-Ec in E2. apply Rabs_le_inv in E2, HN.
    assert (C1 : (A0 - 1) * (1 - 2 / 100000) <= c <= (A0 - 1) * (1 + 2 / 100000)) by lra.
    assert (A1 : 9 / 100 <= A0 - 1 <= 2) by lra. set (k := A0 - 1) in *. clearbody k c. clear E1 E2 Ec Bc HN HA HB.
    destruct Hd as [Fd Hd], Hs as [Fs Hs]. set (d := val days) in *. clearbody d. set (v := val s) in *. clearbody v.
    assert (I : 0 < / v <= 2) by (split; [apply Rinv_0_lt_compat; lra|replace 2 with (/ / 2) by lra; apply Rinv_le_contravar; lra]).
    assert (B63 : bpow radix2 63 = 9223372036854775808) by (rewrite (bp 63 (2 ^ 63)) by lia; simpl Z.pow; lra).
    assert (B70 : bpow radix2 70 = 1180591620717411303424) by (rewrite (bp 70 (2 ^ 70)) by lia; simpl Z.pow; lra).
    rewrite B63 in Hd.
    set (X := 1 + k * d / v).
    assert (K0 : 0 <= k * d / v <= 2 * 9223372036854775808 * 2).
    { unfold Rdiv. split; [repeat apply Rmult_le_pos; lra|]. apply Rmult_le_compat; [nra|lra| |lra]. apply Rmult_le_compat; lra. }
    assert (HX : 1 <= X <= bpow radix2 70) by (unfold X; rewrite B70; lra).
    assert (Q1 : Rabs (y - X) <= X * (3 / 100000)).
    { assert (Dc : k * d * (1 - 2 / 100000) <= c * d <= k * d * (1 + 2 / 100000)) by (split; nra).
      assert (D0 : 0 <= k * d) by nra. set (kd := k * d) in *. clearbody kd.
      pose proof (close (c * d) (c * d) ltac:(rewrite Rabs_pos_eq; lra)) as E3. apply Rabs_le_inv in E3. set (p := rnd (c * d)) in *. 
      assert (P0 : 0 <= p) by (apply rnd_pos; lra). clearbody p.
      assert (Q2 : kd / v * (1 - 22 / 1000000) - / 10000000000 <= p / v <= kd / v * (1 + 22 / 1000000) + / 10000000000).
      { unfold Rdiv. split.
        - apply Rle_trans with ((kd * (1 - 22 / 1000000) - / 100000000000) * / v); [nra|]. apply Rmult_le_compat_r; lra.
        - apply Rle_trans with ((kd * (1 + 22 / 1000000) + / 100000000000) * / v); [apply Rmult_le_compat_r; lra|nra]. }
      assert (Q0 : 0 <= p / v) by (unfold Rdiv; nra).
      set (q := p / v) in *. clearbody q. set (w := kd / v) in *. clearbody w.
      pose proof (close q q ltac:(rewrite Rabs_pos_eq; lra)) as E4. apply Rabs_le_inv in E4.
      assert (R0 : 0 <= rnd q) by (by apply rnd_pos). set (r := rnd q) in *. clearbody r.
      pose proof (close (1 + r) (1 + r) ltac:(rewrite Rabs_pos_eq; lra)) as E5. rewrite <-Ey in E5. apply Rabs_le_inv in E5.
      unfold X. apply Rabs_le. split; lra. }
    destruct (decay_val ty) as [_ Hi]. rewrite <-fading_inverse, Rinv_inv in Hi.
    assert (Hf : 2 / 10 <= fading ty <= 4 / 10) by (destruct ty; unfold fading; lra).
    set (a' := - val (curve_decay ty)) in *. replace (val (curve_decay ty)) with (- a') by (unfold a'; lra). clearbody a'.
    pose proof (power_near y X (fading ty) a' Hy HX ltac:(lra) ltac:(lra) Q1) as HP. apply Rabs_le_inv in HP.
    assert (PB : 0 <= Rpower y (- a') <= 1) by (pose proof (Rpower_negative y (- a') ltac:(lra) ltac:(lra)); lra).
    pose proof (close (Rpower y (- a')) 1 ltac:(apply Rabs_le; lra)) as E6. apply Rabs_le_inv in E6. apply Rabs_le. lra.
  Qed.
End curve.
