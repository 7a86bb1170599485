(** Proofs about weighted averages (C24) and rewards (C23). *)
From stdpp Require Import list.
From Coq Require Import ZArith Reals Lra Lia.
From Flocq Require Import Core.Core IEEE754.BinarySingleNaN Relative.
From Verif Require Import F32 F32Real F32More Stores Scorer ScorerSpec ScorerProofs ScoreProofs.
Local Open Scope R_scope.

(** ** Relative error *)
Definition u : R := / 16777216.
Lemma relative r : bpow radix2 (-126) <= r → (1 - u) * r <= rnd r <= (1 + u) * r.
Proof.
  intros H. assert (Hr : 0 < r) by (pose proof (bpow_gt_0 radix2 (-126)); lra).
  pose proof (relative_error_N_FLT radix2 (-149) 24 eq_refl (λ x, negb (Z.even x)) r) as E.
  rewrite Rabs_pos_eq in E by lra. specialize (E H).
  change (round radix2 (FLT_exp (-149) 24) (Znearest (λ x, negb (Z.even x))) r) with (rnd r) in E.
  apply Rabs_le_inv in E.
  assert (EB : / 2 * bpow radix2 (- (24) + 1) = u) by (unfold u; simpl; lra).
  unfold u in *. change (- (24) + 1)%Z with (-23)%Z in *. rewrite EB in E. lra.
Qed.
Lemma tiny : bpow radix2 (-126) <= / 1099511627776.
Proof. replace (/ 1099511627776) with (bpow radix2 (-40)) by (simpl; lra). apply bpow_le. lia. Qed.

Lemma pow_lower n : 1 - INR n * u <= (1 - u) ^ n.
Proof.
  induction n as [|n IH]; [simpl; lra|]. rewrite S_INR. cbn [pow].
  assert (0 <= (1 - u) ^ n) by (apply pow_le; unfold u; lra). unfold u in *.
  pose proof (pos_INR n). nra.
Qed.
Lemma pow_small n : (1 - u) ^ n <= 1.
Proof.
  induction n as [|n IH]; [simpl; lra|]. cbn [pow].
  assert (0 <= (1 - u) ^ n) by (apply pow_le; unfold u; lra). unfold u in *. nra.
Qed.
Lemma pow_both n : 0 < (1 + u) ^ n ∧ 0 < (1 - u) ^ n ∧ (1 + u) ^ n * (1 - u) ^ n <= 1.
Proof.
  split; [apply pow_lt; unfold u; lra|]. split; [apply pow_lt; unfold u; lra|].
  rewrite <- Rpow_mult_distr. apply Rle_trans with (1 ^ n); [|rewrite pow1; lra].
  apply pow_incr. unfold u. lra.
Qed.

(** ** One step of the two sums *)
Definition ok_weight (w : f32) : Prop := btw (/ 1048576) 1 w.
Section step.
  Context (lo hi : R) (Hlo : lo = 0 ∨ / 1048576 <= lo) (Hhi : hi = 0 ∨ / 1048576 <= hi) (Hmax : hi <= 1048576)
    (Hle : lo <= hi).

  Definition inv (k : nat) (n d : f32) : Prop :=
    btw 0 (bpow radix2 45) n ∧ btw 0 (bpow radix2 25) d ∧
    (1 - u) ^ k * val n <= hi * (1 + u) ^ (k + 1) * val d ∧
    lo * (1 - u) ^ (k + 1) * val d <= (1 + u) ^ k * val n ∧
    (k <> 0%nat → / 1048576 <= val d).

  Lemma inv_step k n d w v t : inv k n d → ok_weight w → btw lo hi v → fin t → val t = rnd (val w * val v) →
    inv (S k) (fadd n t) (fadd d w).
  Proof using Hlo Hhi Hmax Hle.
    intros ([Fn Hn] & [Fd Hd] & I1 & I2 & I3) [Fw Hw] [Fv Hv] Ft Et.
    assert (L0 : 0 <= lo) by (destruct Hlo as [->|]; lra).
    assert (T1 : rnd (val w * val v) <= (1 + u) * (hi * val w)).
    { destruct Hhi as [Eh|Eh].
      - assert (val v = 0) by lra. rewrite H, Rmult_0_r, Eh, Rmult_0_l, Rmult_0_r.
        apply rnd_le_repr; [rp|lra].
      - apply Rle_trans with (rnd (hi * val w)); [apply rnd_le; nra|].
        assert (bpow radix2 (-126) <= hi * val w) by (eapply Rle_trans; [apply tiny|nra]).
        destruct (relative (hi * val w)); [done|lra]. }
    assert (T2 : (1 - u) * (lo * val w) <= rnd (val w * val v)).
    { destruct Hlo as [El|El].
      - rewrite El, Rmult_0_l, Rmult_0_r. apply rnd_ge; [rp|nra].
      - apply Rle_trans with (rnd (lo * val w)); [|apply rnd_le; nra].
        assert (bpow radix2 (-126) <= lo * val w) by (eapply Rle_trans; [apply tiny|nra]).
        destruct (relative (lo * val w)); [done|lra]. }
    assert (T3 : 0 <= rnd (val w * val v) <= 1048576).
    { split; [apply rnd_ge; [rp|nra]|apply rnd_le_repr; [rp|nra]]. }
    rewrite <- Et in *.
    rewrite (bp 45 35184372088832) in Hn by lia. rewrite (bp 25 33554432) in Hd by lia.
    assert (R46 : repr 70368744177664) by (rewrite <- (bp 46) by lia; rp).
    assert (R26 : repr 67108864) by (rewrite <- (bp 26) by lia; rp).
    destruct (fadd_btw n t 0 70368744177664) as [[F1 H1] E1]; [done|done|rp|done|lra|].
    destruct (fadd_btw d w 0 67108864) as [[F2 H2] E2]; [done|done|rp|done|lra|].
    assert (RD : (1 - u) * (val d + val w) <= val (fadd d w) <= (1 + u) * (val d + val w)).
    { rewrite E2. apply relative. eapply Rle_trans; [apply tiny|lra]. }
    assert (RN : (1 - u) * (val n + val t) <= val (fadd n t) <= (1 + u) * (val n + val t)).
    { rewrite E1. destruct (Req_dec (val n + val t) 0) as [E0|E0].
      - rewrite E0, !Rmult_0_r. assert (Er : rnd 0 = 0) by (apply rnd_repr; rp). rewrite Er. lra.
      - (* a sum of floats below the normal range is exact *)
        destruct (Rle_or_lt (bpow radix2 (-126)) (val n + val t)) as [Hbig|Hsmall]; [by apply relative|].
        assert (Hex : rnd (val n + val t) = val n + val t).
        { apply round_generic; [apply valid_rnd_N|].
          apply (generic_format_FLT_FIX radix2 (-149) 24).
          - rewrite Rabs_pos_eq by lra. replace (-149 + 24)%Z with (-125)%Z by lia.
            left. eapply Rlt_trans; [exact Hsmall|]. apply bpow_lt. lia.
          - assert (FX : ∀ x : f32, generic_format radix2 (FIX_exp (-149)) (val x)).
            { intros x. apply (generic_format_FIX_FLT radix2 (-149) 24), (val_format x). }
            apply generic_format_FIX. destruct (FIX_format_generic _ _ _ (FX n)) as [fn En Xn].
            destruct (FIX_format_generic _ _ _ (FX t)) as [ft Et' Xt].
            exists (Float radix2 (Fnum fn + Fnum ft) (-149)); [|done].
            rewrite En, Et'. unfold F2R. cbn [Fnum Fexp]. rewrite Xn, Xt, plus_IZR. ring. }
        rewrite Hex. unfold u in *. lra. }
    destruct (pow_both k) as (P1 & P2 & _). destruct (pow_both (k + 1)) as (P3 & P4 & _).
    pose proof (pow_small k) as P5.
    assert (P6 : 1 <= (1 + u) ^ k). { apply pow_R1_Rle. unfold u. lra. }
    assert (P7 : 1 <= (1 + u) ^ (k + 1)). { apply pow_R1_Rle. unfold u. lra. }
    assert (P8 : (1 - u) ^ (k + 1) <= 1) by apply pow_small.
    assert (U : 0 < u < 1) by (unfold u; lra).
    repeat split.
    - done.
    - lra.
    - rewrite E1. apply absorb; [lia|]. rewrite (bp 45 35184372088832), (bp (45 - 24) 2097152) by lia. lra.
    - done.
    - lra.
    - rewrite E2. apply absorb; [lia|]. rewrite (bp 25 33554432), (bp (25 - 24) 2) by lia. lra.
    - replace (S k + 1)%nat with (S (k + 1)) by lia. cbn [pow].
      assert (A : (1 - u) ^ k * (val n + val t) <= hi * (1 + u) ^ (k + 1) * (val d + val w)).
      { assert ((1 - u) ^ k * val t <= hi * (1 + u) ^ (k + 1) * val w); [|nra].
        apply Rle_trans with (1 * val t); [nra|].
        replace (k + 1)%nat with (S k) by lia. cbn [pow].
        assert (0 <= hi * val w) by nra.
        assert (X : hi * val w <= (1 + u) ^ k * (hi * val w)) by nra.
        apply (Rmult_le_compat_l (1 + u)) in X; [|lra].
        replace (hi * ((1 + u) * (1 + u) ^ k) * val w) with ((1 + u) * ((1 + u) ^ k * (hi * val w))) by ring. lra. }
      assert (0 <= hi * (1 + u) ^ (k + 1)) by nra.
      apply Rle_trans with ((1 - u) * (1 + u) * ((1 - u) ^ k * (val n + val t))); [|].
      { destruct RN as [_ RN]. apply (Rmult_le_compat_l ((1 - u) * (1 - u) ^ k)) in RN; [|nra]. lra. }
      apply (Rmult_le_compat_l ((1 - u) * (1 + u))) in A; [|nra]. eapply Rle_trans; [exact A|].
      destruct RD as [RD _]. apply (Rmult_le_compat_l (hi * (1 + u) ^ (k + 1) * (1 + u))) in RD; [|nra]. lra.
    - replace (S k + 1)%nat with (S (k + 1)) by lia. cbn [pow].
      assert (A : lo * (1 - u) ^ (k + 1) * (val d + val w) <= (1 + u) ^ k * (val n + val t)).
      { assert (lo * (1 - u) ^ (k + 1) * val w <= (1 + u) ^ k * val t); [|nra].
        apply Rle_trans with (1 * val t); [|nra].
        replace (k + 1)%nat with (S k) by lia. cbn [pow].
        assert (0 <= lo * val w) by nra.
        assert (X : (1 - u) ^ k * (lo * val w) <= lo * val w) by nra.
        apply (Rmult_le_compat_l (1 - u)) in X; [|lra].
        replace (lo * ((1 - u) * (1 - u) ^ k) * val w) with ((1 - u) * ((1 - u) ^ k * (lo * val w))) by ring. lra. }
      apply Rle_trans with ((1 - u) * (1 + u) * ((1 + u) ^ k * (val n + val t))).
      2:{ destruct RN as [RN _]. apply (Rmult_le_compat_l ((1 + u) * (1 + u) ^ k)) in RN; [|nra]. lra. }
      apply (Rmult_le_compat_l ((1 - u) * (1 + u))) in A; [|nra]. eapply Rle_trans; [|exact A].
      assert (0 <= lo * (1 - u) ^ (k + 1)) by nra.
      destruct RD as [_ RD]. apply (Rmult_le_compat_l (lo * (1 - u) ^ (k + 1) * (1 - u))) in RD; [|nra]. lra.
    - intros _. rewrite E2. apply rnd_ge; [|lra].
      destruct (float_exists 1 (-20)) as (h & Fh & Vh); [lia|lia|]. exists h. split; [done|]. rewrite Vh. simpl. lra.
  Qed.

  Lemma inv_start n d : fin n → fin d → val n = 0 → val d = 0 → inv 0 n d.
  Proof using.
    intros Fn Fd En Ed. pose proof (bpow_ge_0 radix2 45). pose proof (bpow_ge_0 radix2 25).
    repeat split; try done; rewrite ?En, ?Ed; try lra.
  Qed.

  Lemma inv_ratio k n d : inv k n d → (0 < k <= 1000)%nat →
    btw (lo * (999 / 1000)) (hi * (1001 / 1000)) (fdiv n d).
  Proof using Hlo Hhi Hmax Hle.
    intros ([Fn Hn] & [Fd Hd] & I1 & I2 & I3) Hk. specialize (I3 ltac:(lia)).
    rewrite (bp 45 35184372088832) in Hn by lia.
    assert (L0 : 0 <= lo) by (destruct Hlo as [->|]; lra).
    assert (H0 : 0 <= hi) by lra.
    assert (0 < / val d <= 1048576) as [J1 J2].
    { split; [apply Rinv_0_lt_compat; lra|]. replace 1048576 with (/ / 1048576) by lra. apply Rinv_le_contravar; lra. }
    assert (J3 : val d * / val d = 1) by (apply Rinv_r; lra).
    assert (R66 : repr 73786976294838206464) by (rewrite <- (bp 66) by lia; rp).
    destruct (fdiv_btw n d 0 73786976294838206464) as [[F Hb] E]; [done|done|lra|rp|done|unfold Rdiv; split; nra|].
    split; [done|]. rewrite E.
    set (q := val n / val d) in *.
    assert (Q0 : 0 <= q). { unfold q, Rdiv. nra. }
    assert (Qn : val n = q * val d). { unfold q. field. lra. }
    rewrite Qn in I1, I2.
    assert (K1 : (1 - u) ^ k * q <= hi * (1 + u) ^ (k + 1)).
    { apply Rmult_le_reg_r with (val d); [lra|]. lra. }
    assert (K2 : lo * (1 - u) ^ (k + 1) <= (1 + u) ^ k * q).
    { apply Rmult_le_reg_r with (val d); [lra|]. lra. }
    destruct (pow_both k) as (P1 & P2 & P3). destruct (pow_both (k + 1)) as (P4 & P5 & P6).
    pose proof (pow_lower k) as B1. pose proof (pow_lower (k + 1)) as B2.
    assert (KR : INR k <= 1000). { replace 1000 with (INR 1000) by (rewrite INR_IZR_INZ; f_equal). apply le_INR. lia. }
    rewrite plus_INR in B2. change (INR 1) with 1 in B2.
    assert (C1 : 9999 / 10000 <= (1 - u) ^ k) by (unfold u in *; pose proof (pos_INR k); nra).
    assert (C2 : 9999 / 10000 <= (1 - u) ^ (k + 1)) by (unfold u in *; pose proof (pos_INR k); nra).
    assert (C3 : (1 + u) ^ k <= 10002 / 10000) by nra.
    assert (C4 : (1 + u) ^ (k + 1) <= 10002 / 10000) by nra.
    assert (Qhi : q <= hi * (10004 / 10000)) by nra.
    assert (Qlo : lo * (9996 / 10000) <= q) by nra.
    split.
    - destruct Hlo as [El|El].
      + rewrite El, Rmult_0_l. apply rnd_ge; [rp|done].
      + destruct (relative q) as [R1 _]; [eapply Rle_trans; [apply tiny|nra]|]. unfold u in *. nra.
    - destruct Hhi as [Eh|Eh].
      + rewrite Eh, Rmult_0_l in *. assert (q = 0) by lra. rewrite H. apply rnd_le_repr; [rp|lra].
      + apply Rle_trans with (rnd (hi * (10004 / 10000))); [by apply rnd_le|].
        destruct (relative (hi * (10004 / 10000))) as [_ R1]; [eapply Rle_trans; [apply tiny|nra]|]. unfold u in *. nra.
  Qed.
End step.

(** ** The averages *)
Lemma inv_fold lo hi k acc l : plain_bounds lo hi → inv (val lo) (val hi) k acc.1 acc.2 →
  Forall (λ wv : f32 * f32, plain_weight wv.1 ∧ between lo wv.2 hi) l →
  inv (val lo) (val hi) (k + length l) (fold_left add_weighted l acc).1 (fold_left add_weighted l acc).2.
Proof.
  intros (Fl & Fh & (B1 & B2) & B3 & B4) H HF. revert k acc H.
  induction HF as [|[w v] l [[Fw Hw] Hv] _ IH]; intros k acc H.
  { rewrite Nat.add_0_r. done. }
  cbn [fold_left length]. rewrite <- Nat.add_succ_comm. apply IH. cbn [fst snd] in *.
  apply between_btw in Hv; [|done|done].
  assert (R20 : repr 1048576) by (rewrite <- (bp 20) by lia; rp).
  destruct (fmul_btw w v 0 1048576) as [[Ft _] Et]; [done|apply Hv|rp|done| |].
  { destruct Hv as [_ Hv]. destruct B3; split; nra. }
  apply inv_step with (w := w) (v := v); try done.
Qed.

Lemma ratio_between lo hi l : plain_bounds lo hi → (0 < length l <= 1000)%nat →
  Forall (λ wv : f32 * f32, plain_weight wv.1 ∧ between lo wv.2 hi) l →
  roughly_between lo (ratio (fold_left add_weighted l (fzero, fzero))) hi (/ 1000).
Proof.
  intros HB Hn HF. pose proof (inv_fold lo hi 0 (fzero, fzero) l HB) as H.
  cbn [Nat.add] in H. specialize (H ltac:(by apply inv_start) HF).
  destruct HB as (Fl & Fh & (B1 & B2) & B3 & B4).
  unfold ratio. apply inv_ratio in H; [|done..].
  destruct H as [F H]. split; [done|]. lra.
Qed.


Lemma average_between lo hi vs ws : plain_bounds lo hi → length vs = length ws → (0 < length vs <= 1000)%nat →
  Forall plain_weight ws → Forall (λ v, between lo v hi) vs →
  roughly_between lo (weighted_average vs ws) hi (/ 1000).
Proof.
  intros HB Hl Hn Hw Hv. assert (HB' := HB). destruct HB' as (Fl & Fh & (B1 & B2) & B3 & B4).
  assert (Hgen : ∀ k n d, inv (val lo) (val hi) k n d →
    inv (val lo) (val hi) (k + length vs) (fold_left fadd (zip_with fmul vs ws) n) (fold_left fadd ws d)).
  { clear Hn. revert ws Hl Hw. induction Hv as [|v vs Hv _ IH]; intros [|w ws] Hl Hw k n d H; try done.
    { rewrite Nat.add_0_r. done. }
    apply Forall_cons in Hw as [[Fw Hw] Hws].
    cbn [zip_with fold_left length]. rewrite <- Nat.add_succ_comm. apply IH; [simpl in Hl; lia|done|].
    apply between_btw in Hv; [|done|done].
    assert (R20 : repr 1048576) by (rewrite <- (bp 20) by lia; rp).
    destruct (fmul_btw v w 0 1048576) as [[Ft _] Et]; [apply Hv|done|rp|done| |].
    { destruct Hv as [_ Hv]. destruct B3; split; nra. }
    apply inv_step with (w := w) (v := v); try done. rewrite Et. f_equal. ring. }
  specialize (Hgen 0%nat (B754_zero true) (B754_zero true) ltac:(by apply inv_start)).
  unfold weighted_average, fsum.
  destruct (feq (fold_left fadd ws (B754_zero true)) fzero) eqn:E.
  - apply feq_true in E; [|apply Hgen|done]. destruct Hgen as (_ & _ & _ & _ & G).
    specialize (G ltac:(lia)). rewrite E, v_0 in G. lra.
  - apply inv_ratio in Hgen; [|done..]. destruct Hgen as [F H]. split; [done|]. lra.
Qed.

Section scored.
  Context (powf : f32 → f32 → f32) (Hp : power_ok powf).

  Lemma decay_weight_plain x : fle fzero x = true → plain_weight (decay_weight powf x).
  Proof using Hp.
    intros H. destruct (decay_weight_btw powf Hp x H) as [F B]. pose proof v_0_1. split; [done|]. lra.
  Qed.

  Lemma scored_average lo hi es : plain_bounds lo hi → (0 < length es <= 1000)%nat →
    Forall (λ e, between lo (e_val e) hi) es →
    roughly_between lo (compute_weighted_avg powf es) hi (/ 500).
  Proof using Hp.
    intros HB Hn HF. unfold compute_weighted_avg. destruct es as [|e es']; [simpl in Hn; lia|].
    set (es := e :: es') in *.
    destruct (ratio_between lo hi (time_weighted powf (e_ts e) es)) as [Ft Ht]; [done| | |].
    { unfold time_weighted. by rewrite fmap_length. }
    { apply Forall_fmap. eapply Forall_impl; [exact HF|]. intros x Hx. split; [|done].
      apply decay_weight_plain, elapsed_weeks_ok. }
    destruct (ratio_between lo hi (position_weighted powf es)) as [Fq Hq]; [done| | |].
    { unfold position_weighted. by rewrite imap_length. }
    { apply Forall_lookup_2. intros i wv Hi. unfold position_weighted in Hi.
      rewrite list_lookup_imap in Hi. apply fmap_Some in Hi as (x & Hx & ->). split.
      - apply decay_weight_plain, f_of_nat_pos.
      - by eapply Forall_lookup_1 in HF. }
    destruct HB as (Fl & Fh & (B1 & B2) & B3 & B4).
    set (t := ratio (fold_left add_weighted (time_weighted powf (e_ts e) es) (fzero, fzero))) in *.
    set (q := ratio (fold_left add_weighted (position_weighted powf es) (fzero, fzero))) in *.
    assert (V8 : 7999999 / 10000000 <= val f_0_8 <= 8000001 / 10000000) by (unfold f_0_8; litv).
    assert (V2 : 1999999 / 10000000 <= val f_0_2 <= 2000001 / 10000000) by (unfold f_0_2; litv).
    assert (L0 : 0 <= val lo) by (destruct B3 as [->|]; lra).
    assert (R21 : repr 2097152) by (rewrite <- (bp 21) by lia; rp).
    assert (R22 : repr 4194304) by (rewrite <- (bp 22) by lia; rp).
    assert (T0 : 0 <= val t <= 2097152) by (split; nra).
    assert (Q0 : 0 <= val q <= 2097152) by (split; nra).
    destruct (fmul_btw f_0_8 t 0 2097152) as [[F1 H1] E1]; [done|done|rp|done|split; nra|].
    destruct (fmul_btw f_0_2 q 0 2097152) as [[F2 H2] E2]; [done|done|rp|done|split; nra|].
    destruct (fadd_btw (fmul f_0_8 t) (fmul f_0_2 q) 0 4194304) as [[F3 H3] E3]; [done|done|rp|done|lra|].
    assert (Z0 : rnd 0 = 0) by (apply rnd_repr; rp).
    split; [done|]. rewrite E3, E1, E2. split.
    - destruct B3 as [Z|B3].
      { rewrite Z, Rmult_0_l. apply rnd_ge; [rp|]. rewrite <- E1, <- E2. lra. }
      assert (G1 : (1 - u) * (val f_0_8 * val t) <= rnd (val f_0_8 * val t)).
      { apply relative. eapply Rle_trans; [apply tiny|]. nra. }
      assert (G2 : (1 - u) * (val f_0_2 * val q) <= rnd (val f_0_2 * val q)).
      { apply relative. eapply Rle_trans; [apply tiny|]. nra. }
      assert (M1 : 7999999 / 10000000 * (val lo * (999 / 1000)) <= val f_0_8 * val t) by (apply Rmult_le_compat; lra).
      assert (M2 : 1999999 / 10000000 * (val lo * (999 / 1000)) <= val f_0_2 * val q) by (apply Rmult_le_compat; lra).
      set (s := rnd (val f_0_8 * val t) + rnd (val f_0_2 * val q)) in *.
      assert (G3 : val lo * (9985 / 10000) <= s) by (unfold s, u in *; lra).
      assert ((1 - u) * s <= rnd s). { apply relative. eapply Rle_trans; [apply tiny|]. lra. }
      unfold u in *. lra.
    - destruct B4 as [Z|B4].
      { rewrite Z in *. assert (val t = 0) by lra. assert (val q = 0) by lra.
        rewrite H, H0, !Rmult_0_r, Z0, Rplus_0_l, Z0. lra. }
      assert (M1 : val f_0_8 * val t <= 8000001 / 10000000 * (val hi * (1001 / 1000))) by (apply Rmult_le_compat; lra).
      assert (M2 : val f_0_2 * val q <= 2000001 / 10000000 * (val hi * (1001 / 1000))) by (apply Rmult_le_compat; lra).
      assert (G1 : rnd (val f_0_8 * val t) <= (1 + u) * (8000001 / 10000000 * (val hi * (1001 / 1000)))).
      { eapply Rle_trans; [by apply rnd_le|]. apply relative. eapply Rle_trans; [apply tiny|]. lra. }
      assert (G2 : rnd (val f_0_2 * val q) <= (1 + u) * (2000001 / 10000000 * (val hi * (1001 / 1000)))).
      { eapply Rle_trans; [by apply rnd_le|]. apply relative. eapply Rle_trans; [apply tiny|]. lra. }
      set (s := rnd (val f_0_8 * val t) + rnd (val f_0_2 * val q)) in *.
      assert (G3 : s <= val hi * (10015 / 10000)) by (unfold s, u in *; lra).
      assert (rnd s <= (1 + u) * (val hi * (10015 / 10000))).
      { eapply Rle_trans; [by apply rnd_le|]. apply relative. eapply Rle_trans; [apply tiny|]. lra. }
      unfold u in *. lra.
  Qed.
End scored.

Lemma average_none ws : weighted_average [] [] = fzero ∧
  (Forall (λ w : f32, fin w ∧ val w = 0) ws → ∀ vs, weighted_average vs ws = fzero).
Proof.
  split; [reflexivity|]. intros H vs. unfold weighted_average.
  assert (E : fin (fsum ws) ∧ val (fsum ws) = 0).
  { unfold fsum. assert (Hs : fin (B754_zero true : f32) ∧ val (B754_zero true) = 0) by done.
    revert Hs. generalize (B754_zero true : f32). induction H as [|w ws [Fw Ew] _ IH]; intros a [Fa Ea]; [done|].
    cbn [fold_left]. apply IH. destruct (fadd_btw a w 0 0) as [[F B] _]; [done|done|rp|rp|lra|]. split; [done|lra]. }
  destruct E as [F E]. assert (feq (fsum ws) fzero = true) as -> by (apply feq_true; done). done.
Qed.
