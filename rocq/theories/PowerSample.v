(** The correctly rounded power meets what is assumed of [powf], and with it a score that
    grows while nothing is practised. *)
From stdpp Require Import list.
From Coq Require Import ZArith Reals Lra Lia.
From Flocq Require Import Core.Core IEEE754.BinarySingleNaN.
From Verif Require Import F32 F32Real F32More Stores Scorer ScorerSpec ScorerProofs ScoreProofs.
Local Open Scope R_scope.

(** The float nearest to a real number. *)
Definition of_real (r : R) : f32 :=
  binary_normalize 24 128 eq_refl eq_refl mode_NE
    (round_mode mode_NE (scaled_mantissa radix2 (SpecFloat.fexp 24 128) r)) (cexp radix2 (SpecFloat.fexp 24 128) r) false.
Lemma of_real_val r : 0 <= r <= 65536 → fin (of_real r) ∧ val (of_real r) = rnd r.
Proof.
  intros Hr. unfold of_real.
  pose proof (binary_normalize_correct 24 128 eq_refl eq_refl mode_NE
    (round_mode mode_NE (scaled_mantissa radix2 (SpecFloat.fexp 24 128) r)) (cexp radix2 (SpecFloat.fexp 24 128) r) false) as H.
  cbv zeta in H. change (F2R (Float radix2 (round_mode mode_NE (scaled_mantissa radix2 (SpecFloat.fexp 24 128) r)) (cexp radix2 (SpecFloat.fexp 24 128) r)))
    with (rnd r) in H.
  assert (E : rnd (rnd r) = rnd r).
  { apply round_generic; [apply valid_rnd_N|]. apply generic_format_round; [apply valid_exp_f32|apply valid_rnd_N]. }
  rewrite E in H. rewrite Rlt_bool_true in H; [destruct H as (H1 & H2 & _); done|].
  assert (0 <= rnd r <= 65536).
  { split; [apply rnd_ge; [rp|lra]|apply rnd_le_repr; [rp|lra]]. }
  rewrite Rabs_pos_eq by lra. apply Rle_lt_trans with 65536; [lra|]. rewrite <- (bp 16) by lia. apply bpow_lt. lia.
Qed.

Definition real_power (x y : f32) : f32 :=
  if is_finite x && is_finite y && flt fzero x then of_real (Rpower (val x) (val y))
  else if feq y fzero || feq x f_1 then f_1 else fzero.

Lemma Rpower_small x y : 0 < x <= 1 → 0 <= y → 0 <= Rpower x y <= 1.
Proof.
  intros Hx Hy. unfold Rpower. split; [left; apply exp_pos|]. rewrite <- exp_0. apply exp_le.
  assert (ln x <= 0); [|nra]. rewrite <- ln_1. destruct (Req_dec x 1) as [->|Hne]; [lra|]. left. apply ln_increasing; lra.
Qed.
Lemma ln_pos x : 1 <= x → 0 <= ln x.
Proof. intros H. rewrite <- ln_1. destruct (Req_dec x 1) as [->|Hne]; [lra|]. left. apply ln_increasing; lra. Qed.
Lemma ln_mono x y : 0 < x → x <= y → ln x <= ln y.
Proof. intros H Hxy. destruct (Req_dec x y) as [->|Hne]; [lra|]. left. apply ln_increasing; lra. Qed.
Lemma Rpower_negative x y : 1 <= x → y <= 0 → 0 <= Rpower x y <= 1.
Proof.
  intros Hx Hy. unfold Rpower. split; [left; apply exp_pos|]. rewrite <- exp_0. apply exp_le.
  pose proof (ln_pos x Hx). nra.
Qed.
Lemma Rpower_falls x x' y : 1 <= x → x <= x' → y <= 0 → Rpower x' y <= Rpower x y.
Proof. intros H1 H2 Hy. unfold Rpower. apply exp_le. pose proof (ln_mono x x' ltac:(lra) H2). nra. Qed.
Lemma Rpower_root x y : / 2 <= x <= 1 → -8 <= y <= 0 → 1 <= Rpower x y <= 256.
Proof.
  intros Hx Hy.
  assert (L1 : ln x <= 0). { rewrite <- ln_1. apply ln_mono; lra. }
  assert (L2 : - ln 2 <= ln x). { rewrite <- ln_Rinv by lra. apply ln_mono; lra. }
  assert (L3 : 0 <= ln 2) by (apply ln_pos; lra).
  split.
  - unfold Rpower. rewrite <- exp_0 at 1. apply exp_le. nra.
  - assert (E : 256 = exp (8 * ln 2)).
    { change (8 * ln 2) with (8 * ln 2). replace 256 with (2 ^ 8) by lra. rewrite <- Rpower_pow by lra.
      unfold Rpower. f_equal. simpl. lra. }
    rewrite E. unfold Rpower. apply exp_le. nra.
Qed.

Lemma real_power_pos x y : fin x → fin y → 0 < val x → real_power x y = of_real (Rpower (val x) (val y)).
Proof.
  intros Hx Hy H. unfold real_power. unfold fin in Hx, Hy. rewrite Hx, Hy.
  assert (E : flt fzero x = true) by (apply flt_true; [done|done|]; by rewrite v_0). by rewrite E.
Qed.
Lemma real_power_rounded : rounded_power real_power.
Proof.
  intros x y Hx Hy H Hb. rewrite real_power_pos by done. apply of_real_val.
  split; [left; apply exp_pos|done].
Qed.
Lemma rounded_btw powf x y a b : rounded_power powf → fin x → fin y → 0 < val x → repr a → repr b → b <= 65536 →
  a <= Rpower (val x) (val y) <= b → btw a b (powf x y).
Proof.
  intros Hr Hx Hy H Ra Rb Hb [H1 H2]. destruct (Hr x y Hx Hy H) as [F V]; [lra|]. split; [done|]. rewrite V.
  split; [by apply rnd_ge|by apply rnd_le_repr].
Qed.

(** A float that is not finite and not below a finite one is plus infinity. *)
Lemma not_fin_ge x lo : fin lo → fle lo x = true → ¬ fin x → x = B754_infinity false.
Proof.
  intros Hl H Hx. destruct x as [s|[]| |s m e He]; try (by destruct Hx); try done.
  - exfalso. destruct lo as [[]|[]| |[] ? ? ?]; try done; vm_compute in H; done.
  - exfalso. by destruct lo as [[]|[]| |[] ? ? ?].
Qed.
Lemma not_fin_le y : fle y fzero = true → ¬ fin y → y = B754_infinity true.
Proof. intros H Hy. destruct y as [s|[]| |s m e He]; try (by destruct Hy); done. Qed.

Lemma feq_zero y : fin y → feq y fzero = true ↔ val y = 0.
Proof. intros H. by rewrite feq_true. Qed.

Lemma real_power_ok : power_ok real_power.
Proof.
  split.
  - intros x y Hx Hy. apply (between_f _ _ _ 0 1) in Hx as [Fx Hx]; [|done|done|done|apply v_1].
    apply (between_f _ _ _ 0 1); [done|done|done|apply v_1|].
    destruct (decide (is_finite y = true ∧ flt fzero x = true)) as [[Fy Hpos]|Hno].
    + apply flt_true in Hpos; [|done|done]. rewrite v_0 in Hpos. apply fle_true in Hy; [|done|done]. rewrite v_0 in Hy.
      apply rounded_btw; [apply real_power_rounded|done|done|done|rp|rp|lra|]. apply Rpower_small; lra.
    + unfold real_power. assert (E : is_finite x && is_finite y && flt fzero x = false).
      { destruct (is_finite x), (is_finite y), (flt fzero x); try done. exfalso. by apply Hno. }
      rewrite E. destruct (_ || _); (split; [done|]); rewrite ?v_0, ?v_1; lra.
  - intros x y Hx Hy. apply (between_f _ _ _ 0 1); [done|done|done|apply v_1|].
    destruct (decide (is_finite x = true ∧ is_finite y = true)) as [[Fx Fy]|Hno].
    + apply fle_true in Hx; [|done|done]. apply fle_true in Hy; [|done|done]. rewrite v_1 in Hx. rewrite v_0 in Hy.
      apply rounded_btw; [apply real_power_rounded|done|done|lra|rp|rp|lra|]. by apply Rpower_negative.
    + unfold real_power. assert (E : is_finite x && is_finite y && flt fzero x = false).
      { destruct (is_finite x), (is_finite y), (flt fzero x); try done. exfalso. by apply Hno. }
      rewrite E. destruct (_ || _); (split; [done|]); rewrite ?v_0, ?v_1; lra.
  - intros x y Hx Hy. apply (between_f _ _ _ (/ 2) 1) in Hx as [Fx Hx]; [|done|done|apply v_0_5|apply v_1].
    apply (between_f _ _ _ (-8) 0) in Hy as [Fy Hy]; [|done|done|rewrite v_m8; lra|done].
    apply (between_f _ _ _ 1 256); [done|done|apply v_1|apply v_256|].
    apply rounded_btw; [apply real_power_rounded|done|done|lra|rp|rp|lra|]. by apply Rpower_root.
Qed.

Lemma real_power_falls : power_falls real_power.
Proof.
  intros x x' y Hx Hxx Hy. pose proof (real_power_ok) as Hok.
  assert (Hx' : fle f_1 x' = true).
  { destruct (decide (fin x)) as [Fx|Nx].
    - destruct (decide (fin x')) as [Fx'|Nx'].
      + apply fle_true; [done|done|]. apply fle_true in Hx; [|done|done]. apply fle_true in Hxx; [|done|done]. lra.
      + by rewrite (not_fin_ge x' x).
    - rewrite (not_fin_ge x f_1 eq_refl Hx Nx) in Hxx.
      destruct x' as [s|[]| |s m e He]; first [reflexivity|discriminate Hxx]. }
  destruct (power_negative _ Hok x y Hx Hy) as [A1 A2]. destruct (power_negative _ Hok x' y Hx' Hy) as [B1 B2].
  assert (PF : ∀ z, between fzero z f_1 → fin z) by (intros z Hz; apply (between_btw fzero z f_1 eq_refl eq_refl) in Hz as [Fz _]; exact Fz).
  assert (Fp : fin (real_power x y)) by (apply PF; split; assumption). assert (Fp' : fin (real_power x' y)) by (apply PF; split; assumption).
  apply fle_true in A1; [|done|done]. apply fle_true in A2; [|done|done].
  apply fle_true in B1; [|done|done]. apply fle_true in B2; [|done|done].
  rewrite v_0, v_1 in *.
  apply fle_true; [done|done|].
  destruct (decide (fin y)) as [Fy|Ny].
  - apply fle_true in Hy; [|done|done]. rewrite v_0 in Hy.
    destruct (Req_dec (val y) 0) as [Ey|Ey].
    { assert (Z : ∀ z, fle f_1 z = true → val (real_power z y) = 1); [|rewrite (Z x), (Z x') by done; lra].
      intros z Hz. destruct (decide (fin z)) as [Fz|Nz].
      - apply fle_true in Hz; [|done|done]. rewrite v_1 in Hz.
        destruct (real_power_rounded z y Fz Fy) as [_ ->]; [lra|rewrite Ey; rewrite Rpower_O; lra|].
        rewrite Ey, Rpower_O by lra. apply rnd_repr. rp.
      - unfold real_power. rewrite (not_fin_ge z f_1 eq_refl Hz Nz). cbn [is_finite andb].
        assert (E : feq y fzero = true) by by apply feq_zero. rewrite E. apply v_1. }
    destruct (decide (fin x')) as [Fx'|Nx'].
    + assert (Fx : fin x).
      { destruct (decide (fin x)) as [|Nx]; [done|]. exfalso.
        rewrite (not_fin_ge x f_1 eq_refl Hx Nx) in Hxx.
        destruct x' as [s|[]| |s m e He]; first [discriminate Hxx|discriminate Fx']. }
      apply fle_true in Hx; [|done|done]. apply fle_true in Hxx; [|done|done]. rewrite v_1 in Hx.
      pose proof (Rpower_negative (val x) (val y) Hx Hy).
      pose proof (Rpower_negative (val x') (val y) ltac:(lra) Hy).
      destruct (real_power_rounded x y Fx Fy) as [_ ->]; [lra|lra|].
      destruct (real_power_rounded x' y Fx' Fy) as [_ ->]; [lra|lra|].
      apply rnd_le. by apply Rpower_falls.
    + assert (E : real_power x' y = fzero).
      { rewrite (not_fin_ge x' f_1 eq_refl Hx' Nx'). unfold real_power. cbn [is_finite andb].
        assert (E : feq y fzero = false).
        { destruct (feq y fzero) eqn:E; [|done]. apply feq_zero in E; [done|done]. }
        rewrite E. done. }
      rewrite E, v_0. lra.
  - rewrite (not_fin_le y Hy Ny) in *. unfold real_power. cbn [is_finite]. rewrite !andb_false_r. cbn [andb].
    change (feq (B754_infinity true) fzero) with false. cbn [orb].
    destruct (feq x' f_1) eqn:E'; [|destruct (feq x f_1); rewrite ?v_0, ?v_1; lra].
    assert (Fx' : fin x').
    { destruct (decide (fin x')) as [|Nx']; [done|]. rewrite (not_fin_ge x' f_1 eq_refl Hx' Nx') in E'. done. }
    assert (Fx : fin x).
    { destruct (decide (fin x)) as [|Nx]; [done|]. exfalso.
      rewrite (not_fin_ge x f_1 eq_refl Hx Nx) in Hxx.
        destruct x' as [s|[]| |s m e He]; first [discriminate Hxx|discriminate Fx']. }
    apply feq_true in E'; [|done|done]. apply fle_true in Hx; [|done|done]. apply fle_true in Hxx; [|done|done].
    assert (E : feq x f_1 = true) by (apply feq_true; [done|done|lra]). rewrite E. lra.
Qed.
