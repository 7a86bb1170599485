(** The forgetting curve with a correctly rounded power. *)
From stdpp Require Import list strings.
From Coq Require Import ZArith Reals Lra Lia.
From Flocq Require Import Core.Core IEEE754.BinarySingleNaN.
From Verif Require Import F32 F32Real F32More Stores Scorer ScorerSpec ScorerProofs ScoreProofs PowerSample AverageProofs.
Local Open Scope R_scope.

(** ** Powers with a fraction as exponent *)
Lemma Rpower_INR x n : 0 < x → Rpower x (INR n) = x ^ n.
Proof. intros H. by apply Rpower_pow. Qed.
Lemma Rpower_above x y b k n : 1 <= x → 0 <= y <= INR k / INR n → 0 < INR n → 0 < b → x ^ k <= b ^ n → Rpower x y <= b.
Proof.
  intros Hx Hy Hn Hb H. rewrite <-(Rpower_1 b) by done. replace 1 with (INR n / INR n) by (field; lra).
  apply Rle_trans with (Rpower x (INR k / INR n)).
  { unfold Rpower. apply exp_le. pose proof (ln_pos x Hx). nra. }
  unfold Rdiv. rewrite <- !Rpower_mult. rewrite !Rpower_INR by lra.
  assert (0 < x ^ k) by (apply pow_lt; lra). unfold Rpower. apply exp_le. apply Rmult_le_compat_l; [left; by apply Rinv_0_lt_compat|].
  by apply ln_mono.
Qed.
Lemma Rpower_below x y b k n : 1 <= x → INR k / INR n <= y → 0 < INR n → 0 < b → b ^ n <= x ^ k → b <= Rpower x y.
Proof.
  intros Hx Hy Hn Hb H. rewrite <-(Rpower_1 b) by done. replace 1 with (INR n / INR n) by (field; lra).
  apply Rle_trans with (Rpower x (INR k / INR n)).
  2:{ unfold Rpower. apply exp_le. pose proof (ln_pos x Hx). nra. }
  unfold Rdiv. rewrite <- !Rpower_mult. rewrite !Rpower_INR by lra.
  assert (0 < b ^ n) by (by apply pow_lt). unfold Rpower. apply exp_le. apply Rmult_le_compat_l; [left; by apply Rinv_0_lt_compat|].
  by apply ln_mono.
Qed.

(** ** The exponents *)
Definition inverse_decay (ty : exercise_type) : R := match ty with Declarative => 5 / 2 | Procedural => 5 end.
Lemma exponent_val ty : fin (fdiv (fneg f_1) (fmax (fabs (curve_decay ty)) f_epsilon)) ∧
  val (fdiv (fneg f_1) (fmax (fabs (curve_decay ty)) f_epsilon)) = - inverse_decay ty.
Proof.
  destruct ty; unfold inverse_decay.
  - assert (E : feq (fdiv (fneg f_1) (fmax (fabs (curve_decay Declarative)) f_epsilon)) (fneg f_2_5) = true) by (vm_compute; reflexivity).
    split; [vm_compute; reflexivity|]. apply feq_true in E; [|vm_compute; reflexivity|done]. rewrite E, fneg_val, v_2_5. lra.
  - assert (E : feq (fdiv (fneg f_1) (fmax (fabs (curve_decay Procedural)) f_epsilon)) (fneg f_5) = true) by (vm_compute; reflexivity).
    split; [vm_compute; reflexivity|]. apply feq_true in E; [|vm_compute; reflexivity|done]. rewrite E, fneg_val, v_5. lra.
Qed.
Lemma decay_val ty : fin (curve_decay ty) ∧ / inverse_decay ty <= - val (curve_decay ty) <= / inverse_decay ty + / 100000000.
Proof.
  destruct ty; unfold inverse_decay, curve_decay; (split; [done|]); rewrite fneg_val.
  - unfold f_0_4. rewrite lit_val. simpl. lra.
  - unfold f_0_2. rewrite lit_val. simpl. lra.
Qed.
Lemma target_val : 15099494 / 16777216 = val f_0_9.
Proof. unfold f_0_9. rewrite lit_val. simpl. lra. Qed.

Section curve.
  Context (powf : f32 → f32 → f32) (Hp : power_ok powf) (Hr : rounded_power powf).

  (** The power in the curve factor. *)
  Definition root (ty : exercise_type) : R := Rpower (val f_0_9) (- inverse_decay ty).
  Lemma root_bounds ty : 1 <= root ty <= 2.
  Proof using.
    unfold root. rewrite Rpower_Ropp, <-Rpower_Ropp. assert (E : Rpower (val f_0_9) (- inverse_decay ty) = Rpower (/ val f_0_9) (inverse_decay ty)).
    { unfold Rpower. rewrite ln_Rinv by (rewrite <-target_val; lra). f_equal. lra. }
    rewrite E. assert (B : 1 <= / val f_0_9 <= 112 / 100).
    { rewrite <-target_val. split; [rewrite <-Rinv_1; apply Rinv_le_contravar; lra|].
      replace (112 / 100) with (/ (100 / 112)) by lra. apply Rinv_le_contravar; lra. }
    split.
    - rewrite <-(Rpower_O 1) by lra. unfold Rpower. apply exp_le. rewrite Rmult_0_l. pose proof (ln_pos _ (proj1 B)).
      destruct ty; unfold inverse_decay; nra.
    - apply (Rpower_above _ _ _ 5 1); [lra| |simpl; lra|lra|].
      + destruct ty; unfold inverse_decay; simpl; lra.
      + apply Rle_trans with ((112 / 100) ^ 5); [apply pow_incr; lra|simpl; lra].
  Qed.
  Lemma factor_val ty : fin (curve_factor powf ty) ∧ val (curve_factor powf ty) = rnd (rnd (root ty) - 1) ∧ 0 <= rnd (root ty) - 1 <= 1.
  Proof using Hp Hr.
    destruct (exponent_val ty) as [Fy Vy]. pose proof (root_bounds ty) as HR. unfold root in HR.
    destruct (Hr f_0_9 _ eq_refl Fy) as [F V]; [rewrite <-target_val; lra|rewrite Vy; lra|]. rewrite Vy in V. fold (root ty) in *.
    assert (B : 1 <= rnd (root ty) <= 2) by (split; [apply rnd_ge; [rp|lra]|apply rnd_le_repr; [rp|lra]]).
    unfold curve_factor. cbv zeta.
    destruct (fsub_btw (powf f_0_9 (fdiv (fneg f_1) (fmax (fabs (curve_decay ty)) f_epsilon))) f_1 0 1) as [[F1 H1] E1];
      [done|done|rp|rp|rewrite V, v_1; lra|].
    split; [done|]. rewrite E1, V, v_1. split; [done|lra].
  Qed.

  Lemma retrievability_val ty days s : btw 0 (bpow radix2 63) days → btw (/ 2) 730 s →
    ∃ x, 1 <= x ∧ x = rnd (1 + rnd (rnd (val (curve_factor powf ty) * val days) / val s)) ∧
    val (retrievability powf ty days s) = rnd (Rpower x (val (curve_decay ty))).
  Proof using Hp Hr.
    intros Hd Hs. destruct (curve_base powf Hp ty days s Hd Hs) as [[F1 B1] E1]. unfold retrievability.
    set (x := fadd f_1 (fdiv (fmul (curve_factor powf ty) days) s)) in *. exists (val x).
    split; [lra|]. split; [done|]. destruct (decay_val ty) as [Fy Hy].
    assert (Hi : 0 < / inverse_decay ty) by (destruct ty; unfold inverse_decay; apply Rinv_0_lt_compat; lra).
    pose proof (Rpower_negative (val x) (val (curve_decay ty)) ltac:(lra) ltac:(lra)) as P0.
    destruct (Hr x (curve_decay ty) F1 Fy) as [F V]; [lra|lra|].
    assert (B : 0 <= rnd (Rpower (val x) (val (curve_decay ty))) <= 1) by (split; [apply rnd_ge; [rp|lra]|apply rnd_le_repr; [rp|lra]]).
    destruct (fclamp_val (powf x (curve_decay ty)) fzero f_1) as [_ ->]; [done|done|done|rewrite v_0, v_1; lra|].
    rewrite v_0, v_1, V. rewrite Rmax_left by lra. rewrite Rmin_left by lra. done.
  Qed.

  (** After [stability] days. *)
  Definition eta : R := / 1000000.
  Lemma rel r : / 1099511627776 <= r → Rabs (rnd r - r) <= / 16777216 * r.
  Proof using. intros H. pose proof tiny. destruct (relative r) as [A B]; [lra|]. unfold u in *. apply Rabs_le. lra. Qed.
  Lemma root_ninth ty : 11 / 10 <= root ty.
  Proof using.
    unfold root. assert (E : Rpower (val f_0_9) (- inverse_decay ty) = Rpower (/ val f_0_9) (inverse_decay ty)).
    { unfold Rpower. rewrite ln_Rinv by (rewrite <-target_val; lra). f_equal. lra. }
    rewrite E. assert (B : 111 / 100 <= / val f_0_9).
    { rewrite <-target_val. replace (111 / 100) with (/ (100 / 111)) by lra. apply Rinv_le_contravar; lra. }
    apply (Rpower_below _ _ _ 1 1); [lra| |simpl; lra|lra|rewrite !pow_1; lra].
    destruct ty; unfold inverse_decay; simpl; lra.
  Qed.
  Lemma base_at_stability ty s : btw (/ 2) 730 s →
    let x := rnd (1 + rnd (rnd (val (curve_factor powf ty) * val s) / val s)) in
    root ty * (1 - eta) <= x <= root ty * (1 + eta).
  Proof using Hp Hr.
    intros [Fs Hs] x. destruct (factor_val ty) as (_ & Ec & _). pose proof (root_bounds ty) as HA. pose proof (root_ninth ty) as HB.
    set (A := root ty) in *. clearbody A. set (c := val (curve_factor powf ty)) in *.
    pose proof (rel A ltac:(lra)) as E1. apply Rabs_le_inv in E1.
    pose proof (rel (rnd A - 1) ltac:(lra)) as E2. rewrite <-Ec in E2. apply Rabs_le_inv in E2.
    assert (C1 : A - 1 - 3 / 10000000 <= c <= A - 1 + 3 / 10000000) by lra.
    pose proof (rel (c * val s) ltac:(nra)) as E3. apply Rabs_le_inv in E3.
    assert (D : (1 - / 16777216) * c <= rnd (c * val s) / val s <= (1 + / 16777216) * c).
    { split.
      - apply Rmult_le_reg_r with (val s); [lra|]. replace (rnd (c * val s) / val s * val s) with (rnd (c * val s)) by (field; lra). lra.
      - apply Rmult_le_reg_r with (val s); [lra|]. replace (rnd (c * val s) / val s * val s) with (rnd (c * val s)) by (field; lra). lra. }
    set (q := rnd (c * val s) / val s) in *.
    pose proof (rel q ltac:(lra)) as E4. apply Rabs_le_inv in E4.
    pose proof (rel (1 + rnd q) ltac:(lra)) as E5. apply Rabs_le_inv in E5. unfold x, eta. fold q. lra.
  Qed.
  Lemma ninety ty s : btw (/ 2) 730 s → Rabs (val (retrievability powf ty s s) - 9 / 10) <= / 100000.
  Proof using Hp Hr.
    intros Hs. assert (Hd : btw 0 (bpow radix2 63) s).
    { destruct Hs as [Fs Hs]. split; [done|]. rewrite (bp 63 (2 ^ 63)) by lia. simpl Z.pow. lra. }
    destruct (retrievability_val ty s s Hd Hs) as (x & Hx & Ex & ->). pose proof (base_at_stability ty s Hs) as B. cbv zeta in B. rewrite <-Ex in B.
    clear Ex. destruct (decay_val ty) as [_ Hy]. set (d := - val (curve_decay ty)) in *.
    replace (val (curve_decay ty)) with (- d) by (unfold d; lra). clearbody d.
    pose proof (root_bounds ty) as HA. set (A := root ty) in *.
    (* the logarithm of the target *)
    set (L := ln (val f_0_9)). assert (HL : -1 <= L <= 0).
    { unfold L. split; [|rewrite <-ln_1; apply ln_mono; rewrite <-target_val; lra].
      rewrite <-(ln_exp (-1)). apply ln_mono; [apply exp_pos|]. rewrite <-target_val.
      pose proof (exp_ineq1_le 1) as E. replace (-1) with (Ropp 1) by lra. rewrite exp_Ropp. apply Rle_trans with (/ 2); [|lra].
      apply Rinv_le_contravar; lra. }
    assert (Hi : inverse_decay ty * / inverse_decay ty = 1 ∧ 0 < / inverse_decay ty <= 1 ∧ 0 < inverse_decay ty <= 5).
    { destruct ty; unfold inverse_decay; lra. }
    destruct Hi as (Hi1 & Hi2 & Hi3).
    assert (LA : ln A = - inverse_decay ty * L) by (unfold A, root, Rpower; by rewrite ln_exp).
    (* the logarithm of x *)
    assert (LX : ln A - 2 * eta <= ln x <= ln A + eta).
    { unfold eta in *. split.
      - replace (ln A - 2 * / 1000000) with (ln A + ln (exp (- (2 * / 1000000)))) by (rewrite ln_exp; lra).
        rewrite <-ln_mult by (try apply exp_pos; lra). apply ln_mono; [apply Rmult_lt_0_compat; [lra|apply exp_pos]|].
        apply Rle_trans with (A * (1 - / 1000000)); [|lra]. apply Rmult_le_compat_l; [lra|].
        rewrite exp_Ropp. pose proof (exp_ineq1_le (2 * / 1000000)) as E. apply Rle_trans with (/ (1 + 2 * / 1000000)); [apply Rinv_le_contravar; lra|lra].
      - replace (ln A + / 1000000) with (ln A + ln (exp (/ 1000000))) by (rewrite ln_exp; lra).
        rewrite <-ln_mult by (try apply exp_pos; lra). apply ln_mono; [lra|].
        apply Rle_trans with (A * (1 + / 1000000)); [lra|]. apply Rmult_le_compat_l; [lra|]. apply exp_ineq1_le. }
    (* the exponent *)
    set (z := - d * ln x). assert (Z : L - 2 / 1000000 <= z <= L + 4 / 1000000).
    { unfold z, eta in *. set (i := inverse_decay ty) in *. set (j := / i) in *. clearbody i j.
      set (X := ln x) in *. clearbody X. rewrite LA in LX.
      assert (Dj : 0 <= d - j <= / 100000000) by lra. assert (j * i * L = L) by (rewrite (Rmult_comm j), Hi1; lra).
      assert (X0 : 0 <= - i * L <= 5) by nra.
      split.
      - assert (d * X <= d * (- i * L + / 1000000)) by (apply Rmult_le_compat_l; lra).
        assert (d * (- i * L) = - L + (d - j) * (- i * L)) by lra. assert ((d - j) * (- i * L) <= / 100000000 * 5) by nra. nra.
      - assert (d * (- i * L - 2 * / 1000000) <= d * X) by (apply Rmult_le_compat_l; lra).
        assert (d * (- i * L) = - L + (d - j) * (- i * L)) by lra. assert (0 <= (d - j) * (- i * L)) by nra. nra. }
    unfold Rpower. fold z.
    assert (EL : exp L = 15099494 / 16777216) by (unfold L; rewrite <-target_val; apply exp_ln; lra).
    assert (P1 : exp z <= (15099494 / 16777216) * (1 + 5 / 1000000)).
    { apply Rle_trans with (exp (L + 4 / 1000000)); [apply exp_le; lra|]. rewrite exp_plus, EL. apply Rmult_le_compat_l; [lra|].
      replace (4 / 1000000) with (- (- (4 / 1000000))) by lra. rewrite exp_Ropp.
      pose proof (exp_ineq1_le (- (4 / 1000000))) as E. apply Rle_trans with (/ (1 + - (4 / 1000000))); [apply Rinv_le_contravar; lra|].
      apply Rmult_le_reg_r with (1 + - (4 / 1000000)); [lra|]. rewrite Rinv_l by lra. lra. }
    assert (P2 : (15099494 / 16777216) * (1 - 2 / 1000000) <= exp z).
    { apply Rle_trans with (exp (L + - (2 / 1000000))); [|apply exp_le; lra]. rewrite exp_plus, EL. apply Rmult_le_compat_l; [lra|].
      pose proof (exp_ineq1_le (- (2 / 1000000))) as E. lra. }
    pose proof (rel (exp z) ltac:(lra)) as E. apply Rabs_le_inv in E. apply Rabs_le. lra.
  Qed.
End curve.

Lemma ninety_between powf : power_ok powf → rounded_power powf → ∀ ty s, between f_0_5 s f_730 →
  Rabs (val (retrievability powf ty s s) - 9 / 10) <= / 100000.
Proof. intros Hp Hr ty s Hs. apply ninety; [done|done|]. by apply (between_f f_0_5 _ f_730 (/ 2) 730 eq_refl eq_refl v_0_5 v_730). Qed.
