(** Proofs about the exercise scorer: ranges of scores, stability and difficulty. *)
From stdpp Require Import list.
From Coq Require Import ZArith Reals Lra Lia.
From Flocq Require Import Core.Core IEEE754.BinarySingleNaN.
From Verif Require Import F32 F32Real F32More Stores Scorer ScorerSpec.
Local Open Scope R_scope.

Ltac litv := repeat (rewrite lit_val || rewrite fneg_val); simpl; lra.
Lemma v_0_1 : / 16 <= val f_0_1 <= / 8. Proof. unfold f_0_1. litv. Qed.
Lemma v_0_2 : / 8 <= val f_0_2 <= / 4. Proof. unfold f_0_2. litv. Qed.
Lemma v_0_4 : / 4 <= val f_0_4 <= / 2. Proof. unfold f_0_4. litv. Qed.
Lemma v_0_5 : val f_0_5 = / 2. Proof. unfold f_0_5. litv. Qed.
Lemma v_0_8 : / 2 <= val f_0_8 <= 1. Proof. unfold f_0_8. litv. Qed.
Lemma v_0_9 : / 2 <= val f_0_9 <= 1. Proof. unfold f_0_9. litv. Qed.
Lemma v_0_95 : / 2 <= val f_0_95 <= 1. Proof. unfold f_0_95. litv. Qed.
Lemma v_0_65 : / 2 <= val f_0_65 <= 1. Proof. unfold f_0_65. litv. Qed.
Lemma v_0_16 : / 8 <= val f_0_16 <= / 4. Proof. unfold f_0_16. litv. Qed.
Lemma v_0_75 : val f_0_75 = 3 / 4. Proof. unfold f_0_75. litv. Qed.
Lemma v_1_05 : 1 <= val f_1_05 <= 2. Proof. unfold f_1_05. litv. Qed.
Lemma v_0 : val fzero = 0. Proof. reflexivity. Qed.
Lemma v_1 : val f_1 = 1. Proof. unfold f_1. litv. Qed.
Lemma v_2_5 : val f_2_5 = 5 / 2. Proof. unfold f_2_5. litv. Qed.
Lemma v_3 : val f_3 = 3. Proof. unfold f_3. litv. Qed.
Lemma v_4 : val f_4 = 4. Proof. unfold f_4. litv. Qed.
Lemma v_5 : val f_5 = 5. Proof. unfold f_5. litv. Qed.
Lemma v_7 : val f_7 = 7. Proof. unfold f_7. litv. Qed.
Lemma v_9 : val f_9 = 9. Proof. unfold f_9. litv. Qed.
Lemma v_10 : val f_10 = 10. Proof. unfold f_10. litv. Qed.
Lemma v_11 : val f_11 = 11. Proof. unfold f_11. litv. Qed.
Lemma v_14 : val f_14 = 14. Proof. unfold f_14. litv. Qed.
Lemma v_50 : val f_50 = 50. Proof. unfold f_50. litv. Qed.
Lemma v_730 : val f_730 = 730. Proof. unfold f_730. litv. Qed.
Lemma v_86400 : val f_86400 = 86400. Proof. unfold f_86400. litv. Qed.
Lemma v_256 : val f_256 = 256. Proof. unfold f_256. litv. Qed.
Lemma v_m8 : val f_m8 = - 8. Proof. unfold f_m8. litv. Qed.

Lemma between_btw lo x hi : fin lo → fin hi → between lo x hi ↔ btw (val lo) (val hi) x.
Proof. apply fle_btw. Qed.

Lemma repr_half : repr (/ 2). Proof. rewrite <- v_0_5. by apply repr_val. Qed.
Ltac rp := first [ apply (repr_Z 0); lia | apply repr_bpow; lia | apply repr_opp, repr_bpow; lia
  | apply repr_half | apply repr_opp, repr_half
  | match goal with |- repr (val _) => by apply repr_val end
  | match goal with |- repr (IZR ?z) => apply (repr_Z z); lia end
  | match goal with |- repr (- IZR ?z) => apply repr_opp, (repr_Z z); lia end ].

Lemma bp n m : m = Z.pow 2 n → (0 <= n)%Z → bpow radix2 n = IZR m.
Proof. intros -> H. by rewrite <- IZR_Zpower. Qed.

(** ** Time *)
Lemma saturating_bound a b : (Z.abs (saturating_sub a b) <= 2 ^ 63)%Z.
Proof. unfold saturating_sub, i64_min, i64_max. lia. Qed.
Lemma saturating_mono a a' b : (a <= a')%Z → (saturating_sub a b <= saturating_sub a' b)%Z.
Proof. unfold saturating_sub, i64_min, i64_max. lia. Qed.
Lemma small_abs z : (Z.abs z <= 2 ^ 63)%Z → (Z.abs z <= 2 ^ 127)%Z.
Proof. lia. Qed.

(** The quotient of the cast of a 64-bit integer by a number that is at least 1. *)
Lemma f_of_i64 z : (Z.abs z <= 2 ^ 63)%Z → btw (- bpow radix2 63) (bpow radix2 63) (f_of_Z z).
Proof.
  intros H. destruct (f_of_Z_rnd z) as [Hf Hv]; [lia|]. split; [done|]. rewrite Hv.
  rewrite (bp 63 (2 ^ 63)) by lia. split.
  - apply rnd_ge; [rewrite <- (bp 63) by lia; rp|]. rewrite <- opp_IZR. apply IZR_le. lia.
  - apply rnd_le_repr; [rewrite <- (bp 63) by lia; rp|]. apply IZR_le. lia.
Qed.
Lemma fdiv_big x d n : btw (- bpow radix2 n) (bpow radix2 n) x → (0 <= n <= 104)%Z → fin d → 1 <= val d →
  btw (- bpow radix2 n) (bpow radix2 n) (fdiv x d) ∧ val (fdiv x d) = rnd (val x / val d).
Proof.
  intros [Hx H] Hn Hd H1. apply fdiv_btw; [done|done|lra|rp|rp|].
  assert (0 < bpow radix2 n) by apply bpow_gt_0.
  assert (0 < / val d <= 1) as [? ?].
  { split; [apply Rinv_0_lt_compat; lra|]. rewrite <- Rinv_1. apply Rinv_le_contravar; lra. }
  unfold Rdiv. split; nra.
Qed.
Lemma days_between_btw a b : btw 0 (bpow radix2 63) (days_between a b).
Proof.
  unfold days_between. pose proof (f_of_i64 _ (saturating_bound a b)) as H.
  destruct (fdiv_big _ f_86400 63 H) as [[Hf Hr] _]; [lia|done|rewrite v_86400; lra|].
  destruct (fmax_val (fdiv (f_of_Z (saturating_sub a b)) f_86400) fzero Hf) as [Hm Hv]; [done|].
  split; [done|]. rewrite Hv, v_0. unfold Rmax. destruct (Rle_dec _ 0); [|lra].
  pose proof (bpow_ge_0 radix2 63). lra.
Qed.
Lemma elapsed_weeks_ok a b : fle fzero (elapsed_weeks a b) = true.
Proof.
  unfold elapsed_weeks. pose proof (f_of_i64 _ (saturating_bound a b)) as H.
  destruct (fdiv_big _ f_86400 63 H) as [H2 _]; [lia|done|rewrite v_86400; lra|].
  destruct (fdiv_big _ f_7 63 H2) as [[Hf _] _]; [lia|done|rewrite v_7; lra|].
  destruct (fmax_val (fdiv (fdiv (f_of_Z (saturating_sub a b)) f_86400) f_7) fzero Hf) as [Hm Hv]; [done|].
  apply fle_true; [done|done|]. rewrite Hv. apply Rmax_r.
Qed.

Section power.
  Context (powf : f32 → f32 → f32) (Hp : power_ok powf).

  (** ** Weights and weighted averages *)
  Lemma decay_weight_btw x : fle fzero x = true → btw (val f_0_1) 1 (decay_weight powf x).
  Proof using Hp.
    intros Hx. assert (H : btw 0 1 (powf f_0_95 x)).
    { rewrite <- v_1, <- v_0. apply between_btw; [done|done|]. by apply (power_small _ Hp). }
    destruct H as [Hf H]. unfold decay_weight.
    destruct (fmax_val (powf f_0_95 x) f_0_1 Hf) as [Hm Hv]; [done|]. split; [done|]. rewrite Hv.
    pose proof v_0_1. split; [apply Rmax_r|]. apply Rmax_lub; lra.
  Qed.

  (** The two sums of the loop: never above 2^27 and 2^25, whatever the number of terms. *)
  Definition good_weight (wv : f32 * f32) : Prop := btw (val f_0_1) 1 wv.1 ∧ btw (-5) 5 wv.2.
  Definition sums_ok (acc : f32 * f32) : Prop :=
    btw (- bpow radix2 27) (bpow radix2 27) acc.1 ∧ btw 0 (bpow radix2 25) acc.2.
  Lemma add_weighted_ok acc wv : sums_ok acc → good_weight wv →
    sums_ok (add_weighted acc wv) ∧ val f_0_1 <= val (add_weighted acc wv).2 ∧
    (0 <= val acc.1 → 0 <= val wv.2 → 0 <= val (add_weighted acc wv).1).
  Proof using.
    intros [[Fn Hn] [Fd Hd]] [[Fw Hw] [Fv Hv]]. unfold add_weighted. cbn [fst snd].
    pose proof v_0_1 as H01.
    destruct (fmul_btw wv.1 wv.2 (-5) 5) as [[Ft Ht] Et]; [done|done|rp|rp|nra|].
    rewrite (bp 27 134217728) in * by lia. rewrite (bp 25 33554432) in * by lia.
    assert (R28 : repr 268435456) by (rewrite <- (bp 28) by lia; rp).
    destruct (fadd_btw acc.1 (fmul wv.1 wv.2) (-268435456) 268435456) as [[Fa _] Ea];
      [done|done|by apply repr_opp|done|lra|].
    destruct (fadd_btw acc.2 wv.1 0 268435456) as [[Fb Hb] Eb]; [done|done|rp|done|lra|].
    unfold sums_ok. cbn [fst snd]. split; [split|split].
    - split; [done|]. rewrite Ea. split.
      + apply absorb_neg; [lia|]. rewrite (bp 27 134217728), (bp (27 - 24) 8) by lia. lra.
      + apply absorb; [lia|]. rewrite (bp 27 134217728), (bp (27 - 24) 8) by lia. lra.
    - split; [done|]. split; [lra|]. rewrite Eb.
      apply absorb; [lia|]. rewrite (bp 25 33554432), (bp (25 - 24) 2) by lia. lra.
    - rewrite Eb. apply rnd_ge; [by apply repr_val|]. lra.
    - intros H1 H2. rewrite Ea. apply rnd_ge; [rp|]. rewrite Et. assert (0 <= rnd (val wv.1 * val wv.2)); [|lra].
      apply rnd_ge; [rp|]. nra.
  Qed.
  Lemma fold_weighted_ok l acc : sums_ok acc → Forall good_weight l →
    sums_ok (fold_left add_weighted l acc) ∧
    (l ≠ [] → val f_0_1 <= val (fold_left add_weighted l acc).2) ∧
    (0 <= val acc.1 → Forall (λ wv, 0 <= val wv.2) l → 0 <= val (fold_left add_weighted l acc).1).
  Proof using.
    revert acc. induction l as [|wv l IH]; intros acc Ha Hl; [done|]. cbn [fold_left].
    apply Forall_cons in Hl as [Hw Hl]. destruct (add_weighted_ok acc wv Ha Hw) as (H1 & H2 & H3).
    destruct (IH _ H1 Hl) as (I1 & I2 & I3). split; [done|]. split.
    - intros _. destruct l as [|wv' l]; [done|]. by apply I2.
    - intros H0 HF. apply Forall_cons in HF as [? ?]. auto.
  Qed.
  Lemma ratio_ok l : l ≠ [] → Forall good_weight l →
    btw (- bpow radix2 31) (bpow radix2 31) (ratio (fold_left add_weighted l (fzero, fzero))) ∧
    (Forall (λ wv, 0 <= val wv.2) l → 0 <= val (ratio (fold_left add_weighted l (fzero, fzero)))).
  Proof using.
    intros Hne Hl. destruct (fold_weighted_ok l (fzero, fzero)) as ([[Fn Hn] [Fd Hd]] & H2 & H3); [|done|].
    { split; (split; [done|]); cbn [fst snd]; rewrite v_0;
        rewrite ?(bp 27 134217728), ?(bp 25 33554432) by lia; lra. }
    specialize (H2 Hne). cbn [fst snd] in H3. unfold ratio.
    set (acc := fold_left add_weighted l (fzero, fzero)) in *. pose proof v_0_1 as H01.
    rewrite (bp 27 134217728) in * by lia. rewrite (bp 31 2147483648) by lia.
    assert (0 < / val acc.2 <= 16) as [I1 I2].
    { split; [apply Rinv_0_lt_compat; lra|]. replace 16 with (/ / 16) by lra. apply Rinv_le_contravar; lra. }
    assert (R31 : repr 2147483648) by (rewrite <- (bp 31) by lia; rp).
    destruct (fdiv_btw acc.1 acc.2 (-2147483648) 2147483648) as [Hb Hr];
      [done|done|lra|by apply repr_opp|done|unfold Rdiv; split; nra|].
    split; [done|]. intros HF. specialize (H3 (Rle_refl 0) HF). rewrite Hr. apply rnd_ge; [rp|].
    apply Rmult_le_pos; lra.
  Qed.

  Lemma time_weighted_ok n es : Forall (λ e, btw (-5) 5 (e_val e)) es → Forall good_weight (time_weighted powf n es).
  Proof using Hp.
    intros H. apply Forall_fmap. eapply Forall_impl; [exact H|]. intros e He. split; [|done].
    apply decay_weight_btw, elapsed_weeks_ok.
  Qed.
  Lemma f_of_nat_pos i : fle fzero (f_of_nat i) = true.
  Proof using.
    unfold f_of_nat. destruct (Z_le_gt_dec (Z.of_nat i) (2 ^ 127)) as [H|H].
    - destruct (f_of_Z_rnd (Z.of_nat i)) as [Hf Hv]; [lia|]. apply fle_true; [done|done|]. rewrite Hv, v_0.
      apply rnd_ge; [rp|]. apply IZR_le. lia.
    - unfold f_of_Z.
      pose proof (binary_normalize_correct 24 128 eq_refl eq_refl mode_NE (Z.of_nat i) 0 false) as E.
      cbv zeta in E.
      set (x := binary_normalize 24 128 eq_refl eq_refl mode_NE (Z.of_nat i) 0 false) in *.
      assert (EF : F2R (Float radix2 (Z.of_nat i) 0) = IZR (Z.of_nat i)) by (unfold F2R; simpl; lra).
      rewrite EF in E.
      destruct (Rlt_bool (Rabs (rnd (IZR (Z.of_nat i)))) (bpow radix2 128)).
      + destruct E as (E1 & E2 & _). apply fle_true; [done|done|].
        change (val x = rnd (IZR (Z.of_nat i))) in E1. change (val fzero <= val x). rewrite E1, v_0.
        apply rnd_ge; [rp|]. apply IZR_le. lia.
      + change (B2SF x = binary_overflow 24 128 mode_NE (Rlt_bool (IZR (Z.of_nat i)) 0)) in E.
        rewrite Rlt_bool_false in E by (apply IZR_le; lia). cbn in E.
        change (fle fzero x = true). destruct x as [s|s| |s m e He]; cbn in E; simplify_eq. done.
  Qed.
  Lemma position_weighted_ok es : Forall (λ e, btw (-5) 5 (e_val e)) es → Forall good_weight (position_weighted powf es).
  Proof using Hp.
    intros H. apply Forall_lookup_2. intros i wv Hi. unfold position_weighted in Hi.
    rewrite list_lookup_imap in Hi. apply fmap_Some in Hi as (e & He & ->).
    split; [apply decay_weight_btw, f_of_nat_pos|]. by eapply Forall_lookup_1 in H.
  Qed.

  Lemma weighted_avg_btw es : Forall (λ e, btw (-5) 5 (e_val e)) es →
    btw (- bpow radix2 32) (bpow radix2 32) (compute_weighted_avg powf es) ∧
    (Forall (λ e, 0 <= val (e_val e)) es → 0 <= val (compute_weighted_avg powf es)).
  Proof using Hp.
    intros H. pose proof (bpow_ge_0 radix2 32) as H32. unfold compute_weighted_avg. destruct es as [|e es'].
    { split; [|intros _; rewrite v_0; lra]. split; [done|]. rewrite v_0. lra. }
    set (es := e :: es') in *.
    destruct (ratio_ok (time_weighted powf (e_ts e) es)) as [[Ft Ht] Pt]; [done|by apply time_weighted_ok|].
    destruct (ratio_ok (position_weighted powf es)) as [[Fq Hq] Pq]; [done|by apply position_weighted_ok|].
    set (t := ratio (fold_left add_weighted (time_weighted powf (e_ts e) es) (fzero, fzero))) in *.
    set (q := ratio (fold_left add_weighted (position_weighted powf es) (fzero, fzero))) in *.
    pose proof v_0_8 as H8. pose proof v_0_2 as H2.
    rewrite (bp 31 2147483648) in * by lia. rewrite (bp 32 4294967296) in * by lia.
    assert (R31 : repr 2147483648) by (rewrite <- (bp 31) by lia; rp).
    assert (R32 : repr 4294967296) by (rewrite <- (bp 32) by lia; rp).
    destruct (fmul_btw f_0_8 t (-2147483648) 2147483648) as [[F1 H1] E1];
      [done|done|by apply repr_opp|done|split; nra|].
    destruct (fmul_btw f_0_2 q (-2147483648) 2147483648) as [[F2 H3] E2];
      [done|done|by apply repr_opp|done|split; nra|].
    destruct (fadd_btw (fmul f_0_8 t) (fmul f_0_2 q) (-4294967296) 4294967296) as [Hb E3];
      [done|done|by apply repr_opp|done|lra|].
    split; [done|]. intros HF.
    assert (0 <= val t).
    { apply Pt. apply Forall_fmap. eapply Forall_impl; [exact HF|]. done. }
    assert (0 <= val q).
    { apply Pq. apply Forall_lookup_2. intros i wv Hi. unfold position_weighted in Hi.
      rewrite list_lookup_imap in Hi. apply fmap_Some in Hi as (e' & He & ->). by eapply Forall_lookup_1 in HF. }
    rewrite E3. apply rnd_ge; [rp|]. rewrite E1, E2.
    assert (0 <= rnd (val f_0_8 * val t)) by (apply rnd_ge; [rp|nra]).
    assert (0 <= rnd (val f_0_2 * val q)) by (apply rnd_ge; [rp|nra]). lra.
  Qed.

  (** ** Retrievability *)
  Lemma curve_decay_btw ty : btw (-1) 0 (curve_decay ty).
  Proof using.
    pose proof v_0_4. pose proof v_0_2.
    destruct ty; (split; [done|]); unfold curve_decay; rewrite fneg_val; lra.
  Qed.
  Lemma curve_factor_btw ty : btw 0 255 (curve_factor powf ty).
  Proof using Hp.
    unfold curve_factor.
    assert (H : between f_m8 (fdiv (fneg f_1) (fmax (fabs (curve_decay ty)) f_epsilon)) fzero).
    { destruct ty; (split; vm_compute; reflexivity). }
    assert (Hb : btw 1 256 (powf f_0_9 (fdiv (fneg f_1) (fmax (fabs (curve_decay ty)) f_epsilon)))).
    { rewrite <- v_1, <- v_256. apply between_btw; [done|done|]. by apply (power_root _ Hp). }
    destruct Hb as [Hf Hb]. apply fsub_btw; [done|done|rp|rp|]. rewrite v_1. lra.
  Qed.
  Lemma curve_base ty days s : btw 0 (bpow radix2 63) days → btw (/ 2) 730 s →
    btw 1 (bpow radix2 80) (fadd f_1 (fdiv (fmul (curve_factor powf ty) days) s)) ∧
    val (fadd f_1 (fdiv (fmul (curve_factor powf ty) days) s)) =
      rnd (1 + rnd (rnd (val (curve_factor powf ty) * val days) / val s)).
  Proof using Hp.
    intros [Fd Hd] [Fs Hs]. destruct (curve_factor_btw ty) as [Fc Hc].
    assert (R71 : repr (bpow radix2 71)) by rp. assert (R72 : repr (bpow radix2 72)) by rp.
    assert (R80 : repr (bpow radix2 80)) by rp.
    rewrite (bp 71 (2 ^ 71)) in R71 by lia. rewrite (bp 72 (2 ^ 72)) in R72 by lia.
    rewrite (bp 80 (2 ^ 80)) in * by lia. rewrite (bp 63 (2 ^ 63)) in Hd by lia.
    assert (0 < / val s <= 2) as [I1 I2].
    { split; [apply Rinv_0_lt_compat; lra|]. replace 2 with (/ / 2) by lra. apply Rinv_le_contravar; lra. }
    simpl Z.pow in *.
    destruct (fmul_btw (curve_factor powf ty) days 0 (IZR (2 ^ 71))) as [[F1 H1] E1]; [done|done|rp|exact R71| |].
    { simpl Z.pow. split; nra. }
    simpl Z.pow in *.
    destruct (fdiv_btw (fmul (curve_factor powf ty) days) s 0 (IZR (2 ^ 72))) as [[F2 H2] E2];
      [done|done|lra|rp|exact R72| |].
    { simpl Z.pow. unfold Rdiv. split; nra. }
    simpl Z.pow in *.
    destruct (fadd_btw f_1 (fdiv (fmul (curve_factor powf ty) days) s) 1 (IZR (2 ^ 80))) as [H3 E3];
      [done|done|rp|exact R80| |].
    { rewrite v_1. simpl Z.pow. lra. }
    split; [exact H3|]. by rewrite E3, E2, E1, v_1.
  Qed.
  Lemma retrievability_btw ty days s : btw 0 (bpow radix2 63) days → btw (/ 2) 730 s →
    btw 0 1 (retrievability powf ty days s).
  Proof using Hp.
    intros Hd Hs. unfold retrievability. destruct (curve_base ty days s Hd Hs) as [[Hf Hb] _].
    destruct (curve_decay_btw ty) as [Fc Hc].
    assert (H : btw 0 1 (powf (fadd f_1 (fdiv (fmul (curve_factor powf ty) days) s)) (curve_decay ty))).
    { rewrite <- v_1, <- v_0. apply between_btw; [done|done|]. apply (power_negative _ Hp).
      - apply fle_true; [done|done|]. rewrite v_1. lra.
      - apply fle_true; [done|done|]. rewrite v_0. lra. }
    rewrite <- v_0, <- v_1. apply fclamp_btw; [by destruct H|done|done|]. rewrite v_0, v_1. lra.
  Qed.

  (** ** Stability and difficulty *)
  Lemma spacing_gain_btw ty days s p : btw 0 (bpow radix2 63) days → btw (/ 2) 730 s →
    btw 1 2 (spacing_gain powf ty days s p).
  Proof using Hp.
    intros Hd Hs. unfold spacing_gain. destruct (fle p fzero).
    { split; [done|]. rewrite v_1. lra. }
    destruct (retrievability_btw ty days s Hd Hs) as [Fr Hr]. pose proof v_0_65 as H65.
    destruct (fsub_btw f_1 (retrievability powf ty days s) 0 1) as [[F1 H1] _]; [done|done|rp|rp|rewrite v_1; lra|].
    destruct (fmul_btw f_0_65 (fsub f_1 (retrievability powf ty days s)) 0 1) as [[F2 H2] _]; [done|done|rp|rp|nra|].
    destruct (fadd_btw f_1 (fmul f_0_65 (fsub f_1 (retrievability powf ty days s))) 1 2) as [[F3 H3] _];
      [done|done|rp|rp|rewrite v_1; lra|].
    destruct (fadd_btw f_1 f_0_65 1 2) as [[F4 H4] _]; [done|done|rp|rp|rewrite v_1; lra|].
    eapply btw_weaken; [apply fclamp_btw; [done..|]|..]; rewrite ?v_1; lra.
  Qed.
  Lemma grade_range_val : fin grade_range ∧ val grade_range = 4.
  Proof using.
    unfold grade_range. destruct (fsub_btw f_5 f_1 4 4) as [[F H] _]; [done|done|rp|rp|rewrite v_1, v_5; lra|].
    split; [done|lra].
  Qed.
  Lemma update_difficulty_btw d b s : btw 1 10 d → btw 1 10 b → btw 1 5 s → btw 1 10 (update_difficulty d b s).
  Proof using.
    intros [Fd Hd] [Fb Hb] [Fs Hs]. unfold update_difficulty. cbv zeta. destruct grade_range_val as [Fg Hg].
    pose proof v_1_05 as H105. pose proof v_0_16 as H16.
    destruct (fsub_btw f_3 s (-2) 2) as [[F1 H1] _]; [done|done|rp|rp|rewrite v_3; lra|].
    destruct (fdiv_btw (fsub f_3 s) grade_range (-1) 1) as [[F2 H2] _]; [done|done|lra|rp|rp|rewrite Hg; lra|].
    destruct (fmul_btw (fdiv (fsub f_3 s) grade_range) f_1_05 (-2) 2) as [[F3 H3] _]; [done|done|rp|rp|split; nra|].
    destruct (fadd_btw d (fmul (fdiv (fsub f_3 s) grade_range) f_1_05) (-1) 12) as [[F4 H4] _]; [done|done|rp|rp|lra|].
    set (x := fadd d _) in *.
    destruct (fclamp_btw x f_1 f_10) as [F5 H5]; [done|done|done|rewrite v_1, v_10; lra|]. rewrite v_1, v_10 in H5.
    destruct (fmul_btw f_0_16 b 0 10) as [[F6 H6] _]; [done|done|rp|rp|split; nra|].
    destruct (fsub_btw f_1 f_0_16 0 1) as [[F7 H7] _]; [done|done|rp|rp|rewrite v_1; lra|].
    destruct (fmul_btw (fsub f_1 f_0_16) (fclamp x f_1 f_10) 0 10) as [[F8 H8] _]; [done|done|rp|rp|split; nra|].
    destruct (fadd_btw (fmul f_0_16 b) (fmul (fsub f_1 f_0_16) (fclamp x f_1 f_10)) 0 20) as [[F9 H9] _];
      [done|done|rp|rp|lra|].
    replace 1 with (val f_1) by apply v_1. replace 10 with (val f_10) by apply v_10.
    apply fclamp_btw; [done|done|done|rewrite v_1, v_10; lra].
  Qed.
  Lemma apply_stability_btw ty s d x days : btw (/ 2) 730 s → btw 1 10 d → btw 1 5 x → btw 0 (bpow radix2 63) days →
    btw (/ 2) 730 (apply_stability powf ty s d x days).
  Proof using Hp.
    intros Hs [Fd Hd] [Fx Hx] Hdays. unfold apply_stability. cbv zeta. destruct grade_range_val as [Fg Hg].
    destruct (fsub_btw x f_1 0 4) as [[F1 H1] _]; [done|done|rp|rp|rewrite v_1; lra|].
    destruct (fdiv_btw (fsub x f_1) grade_range 0 1) as [[F2 H2] _]; [done|done|lra|rp|rp|rewrite Hg; lra|].
    destruct (fsub_btw (fdiv (fsub x f_1) grade_range) f_0_5 (- / 2) (/ 2)) as [[F3 H3] _];
      [done|done|rp|rp|rewrite v_0_5; lra|].
    set (p := fsub (fdiv (fsub x f_1) grade_range) f_0_5) in *.
    destruct (fsub_btw f_11 d 1 10) as [[F4 H4] _]; [done|done|rp|rp|rewrite v_11; lra|].
    destruct (fdiv_btw (fsub f_11 d) f_5 0 2) as [[F5 H5] _]; [done|done|rewrite v_5; lra|rp|rp|rewrite v_5; lra|].
    set (e := fdiv (fsub f_11 d) f_5) in *.
    destruct (spacing_gain_btw ty days s p Hdays Hs) as [F6 H6]. set (g := spacing_gain powf ty days s p) in *.
    destruct Hdays as [Fy Hy].
    destruct (fmin_val days f_1) as [F7 H7]; [done|done|].
    assert (H7' : 0 <= val (fmin days f_1) <= 1).
    { rewrite H7, v_1. unfold Rmin. destruct (Rle_dec (val days) 1); lra. }
    destruct (fmul_btw f_2_5 p (-2) 2) as [[F8 H8] _]; [done|done|rp|rp|rewrite v_2_5; split; nra|].
    destruct (fmul_btw (fmul f_2_5 p) e (-4) 4) as [[F9 H9] _]; [done|done|rp|rp|split; nra|].
    destruct (fmul_btw (fmul (fmul f_2_5 p) e) g (-8) 8) as [[F10 H10] _]; [done|done|rp|rp|split; nra|].
    destruct (fmul_btw (fmul (fmul (fmul f_2_5 p) e) g) (fmin days f_1) (-8) 8) as [[F11 H11] _];
      [done|done|rp|rp|split; nra|].
    set (growth := fmul _ (fmin days f_1)) in *.
    destruct (fadd_btw f_1 growth (-7) 9) as [[F12 H12] _]; [done|done|rp|rp|rewrite v_1; lra|].
    destruct Hs as [Fs Hs].
    destruct (fmul_btw s (fadd f_1 growth) (-10000) 10000) as [[F13 H13] _]; [done|done|rp|rp|split; nra|].
    rewrite <- v_0_5, <- v_730. apply fclamp_btw; [done|done|done|rewrite v_0_5, v_730; lra].
  Qed.

  Definition mem_btw (m : memory) : Prop := btw (/ 2) 730 (m_stability m) ∧ btw 1 10 (m_difficulty m).
  Lemma replay_step_ok ty m t : mem_btw m → btw 1 5 (e_val t) → mem_btw (replay_step powf ty m t).
  Proof using Hp.
    intros [H1 H2] Ht. unfold replay_step. destruct (m_previous m); [|done]. split; cbn [m_stability m_difficulty].
    - apply apply_stability_btw; try done. apply days_between_btw.
    - apply update_difficulty_btw; try done. split; [done|]. rewrite v_5. lra.
  Qed.
  Lemma fold_replay_ok ty l m : mem_btw m → Forall (λ t, btw 1 5 (e_val t)) l →
    mem_btw (fold_left (replay_step powf ty) l m).
  Proof using Hp.
    revert m. induction l as [|t l IH]; intros m Hm Hl; [done|]. apply Forall_cons in Hl as [Ht Hl].
    cbn [fold_left]. apply IH; [|done]. by apply replay_step_ok.
  Qed.
  Lemma replay_ok ty base trials : btw 1 10 base → Forall (λ t, btw 1 5 (e_val t)) trials →
    mem_btw (replay powf ty base trials).
  Proof using Hp.
    intros Hb Hl. unfold replay. apply fold_replay_ok.
    - split; [|done]. split; [done|]. cbn [m_stability]. rewrite v_1. lra.
    - rewrite Forall_forall in *. intros t Ht. apply Hl. by rewrite <- in_rev in Ht || (apply elem_of_list_In, in_rev, elem_of_list_In).
  Qed.
End power.

Lemma f_of_nat_u64 n : (Z.of_nat n < 18446744073709551616)%Z → btw 0 (bpow radix2 64) (f_of_nat n).
Proof. intros H. apply f_of_Z_btw; [lia|]. change (2 ^ 64)%Z with 18446744073709551616%Z. lia. Qed.
Lemma estimate_difficulty_btw trials : fits trials → btw 1 10 (estimate_difficulty trials).
Proof.
  unfold fits. intros Hl. destruct trials as [|t0 l]; [split; [done|]; unfold estimate_difficulty; rewrite v_5; lra|].
  unfold estimate_difficulty. cbv zeta. set (trials := t0 :: l) in *.
  set (k := length (List.filter (λ t : trial, flt (e_val t) f_3) trials)).
  assert (Hk : (k <= length trials)%nat).
  { unfold k. clearbody trials. clear. induction trials as [|t l IH]; [done|]. cbn. destruct (flt _ _); cbn; lia. }
  destruct (f_of_nat_u64 k) as [F1 H1]; [lia|]. destruct (f_of_nat_u64 (length trials)) as [F2 H2]; [lia|].
  assert (H3 : val (f_of_nat k) <= val (f_of_nat (length trials))) by (apply f_of_Z_le; lia).
  assert (H4 : 1 <= val (f_of_nat (length trials))).
  { rewrite <- v_1. replace (val f_1) with (val (f_of_Z 1)) by (destruct (f_of_Z_val 1) as [_ ->]; [lia|rewrite v_1; lra]).
    apply f_of_Z_le; [lia|lia|]. unfold trials. cbn. lia. }
  assert (0 < / val (f_of_nat (length trials)) <= 1) as [I1 I2].
  { split; [apply Rinv_0_lt_compat; lra|]. rewrite <- Rinv_1. apply Rinv_le_contravar; lra. }
  assert (I3 : val (f_of_nat (length trials)) * / val (f_of_nat (length trials)) = 1) by (apply Rinv_r; lra).
  destruct (fdiv_btw (f_of_nat k) (f_of_nat (length trials)) 0 1) as [[F5 H5] _]; [done|done|lra|rp|rp|unfold Rdiv; split; nra|].
  destruct (fmul_btw (fdiv (f_of_nat k) (f_of_nat (length trials))) f_9 0 9) as [[F6 H6] _]; [done|done|rp|rp|rewrite v_9; split; nra|].
  set (x := fmul _ f_9) in *.
  destruct (fadd_btw f_1 x 1 10) as [[F7 H7] _]; [done|done|rp|rp|rewrite v_1; lra|].
  replace 1 with (val f_1) by apply v_1. replace 10 with (val f_10) by apply v_10.
  apply fclamp_btw; [done|done|done|rewrite v_1, v_10; lra].
Qed.
