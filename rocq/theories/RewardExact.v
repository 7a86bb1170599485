(** Proof that the reward is what the documented formulas give, up to rounding. *)
From stdpp Require Import list strings.
From Coq Require Import ZArith Reals Lra Lia.
From Flocq Require Import Core.Core IEEE754.BinarySingleNaN.
From Verif Require Import F32 F32Real F32More Stores Scorer ScorerSpec ScorerProofs ScoreProofs PowerSample AverageProofs CurveProofs MemoryProofs RewardProofs ExactSpec MemoryExact CurveExact AverageExact RewardExactSpec.
Local Open Scope R_scope.

Lemma fmul_comm x y : fmul x y = fmul y x.
Proof.
  unfold fmul. destruct x as [a|a| |a m e H], y as [b|b| |b m' e' H']; cbn; try reflexivity; try by rewrite xorb_comm.
  apply B2SF_inj. rewrite !B2SF_SF2B. by rewrite xorb_comm, Pos.mul_comm, Z.add_comm.
Qed.

(** The rewards that count, as weights and values. *)
Section rewards.
  Context (powf : f32 → f32 → f32) (Hp : power_ok powf) (Hr : rounded_power powf) (valid_time : Z → bool).

  Definition counted (now : Z) (rs : list (entry reward)) : list (f32 * f32) :=
    omap (λ r, let '(v, w) := decayed_reward powf valid_time now r in if flt w f_0_05 then None else Some (w, v)) rs.
  Lemma counted_fold now rs acc : fold_left (add_reward powf valid_time now) rs acc = fold_left add_weighted (counted now rs) acc.
  Proof using.
    revert acc. induction rs as [|r rs IH]; intros acc; [done|]. unfold counted in *. cbn [fold_left omap list_omap]. rewrite IH. unfold add_reward.
    destruct (decayed_reward powf valid_time now r) as [v w]. destruct (flt w f_0_05); [done|]. cbn [fold_left]. unfold add_weighted at 2. cbn [fst snd].
    by rewrite fmul_comm.
  Qed.

  (** What is left after some days. *)
  Lemma half_near x X : 0 <= X → Rabs (x - X) <= X / 4000000 → Rabs (Rpower (/ 2) x - Rpower (/ 2) X) <= 8 / 1000000.
  Proof using.
    intros HX Hc. apply Rabs_le_inv in Hc. unfold Rpower. rewrite ln_Rinv by lra. set (p := ln 2).
    assert (Hl : / 25 <= p <= 1).
    { unfold p. split.
      - pose proof (exp_ineq1_le (- ln 2)) as E. rewrite exp_Ropp, exp_ln in E by lra. lra.
      - pose proof (exp_ineq1_le 1) as E. rewrite <-(ln_exp 1). apply Rlt_le, ln_increasing; [lra|]. apply exp_ineq1. lra. }
    clearbody p. replace (x * - p) with (- x * p) by ring. replace (X * - p) with (- X * p) by ring.
    assert (x0 : 0 <= x) by lra. pose proof (fades_out X p HX (proj1 Hl)) as FX. pose proof (fades_out x p x0 (proj1 Hl)) as Fx.
    pose proof (exp_pos (- X * p)) as P1. pose proof (exp_pos (- x * p)) as P2.
    destruct (Rle_lt_dec x X) as [L|L].
    - assert (M : exp (- x * p) - exp (- X * p) <= (X * p - x * p) * exp (- x * p)).
      { replace (X * p - x * p) with (- x * p - - X * p) by ring. apply exp_mean. nra. }
      assert (exp (- X * p) <= exp (- x * p)) by (apply exp_le; nra). 
      assert (X * p - x * p <= x / 3900000) by nra. apply Rabs_le. split; [lra|].
      assert ((X * p - x * p) * exp (- x * p) <= x / 3900000 * exp (- x * p)) by (apply Rmult_le_compat_r; lra). lra.
    - assert (M : exp (- X * p) - exp (- x * p) <= (x * p - X * p) * exp (- X * p)).
      { replace (x * p - X * p) with (- X * p - - x * p) by ring. apply exp_mean. nra. }
      assert (exp (- x * p) <= exp (- X * p)) by (apply exp_le; nra).
      assert (x * p - X * p <= X / 3900000) by nra. apply Rabs_le. split; [|lra].
      assert ((x * p - X * p) * exp (- X * p) <= X / 3900000 * exp (- X * p)) by (apply Rmult_le_compat_r; lra). lra.
  Qed.
  Lemma whole_quot now ts : Z.max (Z.quot (now - ts) 86400) 0 = whole_days now ts.
  Proof using.
    unfold whole_days. rewrite Z.max_comm. destruct (Z.le_gt_cases 0 (now - ts)) as [H|H].
    - by rewrite Z.quot_div_nonneg by lia.
    - assert (Z.quot (now - ts) 86400 <= 0)%Z. { pose proof (Z.quot_pos (- (now - ts)) 86400 ltac:(lia) ltac:(lia)) as Q. rewrite Z.quot_opp_l in Q by lia. lia. }
      assert ((now - ts) / 86400 < 0)%Z by (apply Z.div_lt_upper_bound; lia). lia.
  Qed.
  Lemma left_close now ts : valid_time ts = true → (Z.abs now <= 4611686018427387903)%Z → (Z.abs ts <= 4611686018427387903)%Z →
    btw 0 1 (decay_factor powf (days_since valid_time now ts)) ∧ 0 <= left_of now ts <= 1 ∧
    Rabs (val (decay_factor powf (days_since valid_time now ts)) - left_of now ts) <= 9 / 1000000.
  Proof using Hp Hr.
    intros Hv Hn Ht. pose proof (decay_factor_btw powf Hp valid_time now ts) as B. split; [done|].
    unfold decay_factor, days_since, left_of in *. rewrite Hv, whole_quot in *. 
    assert (D0 : (0 <= whole_days now ts <= 9223372036854775808)%Z).
    { unfold whole_days. split; [lia|]. apply Z.max_lub; [lia|]. apply Z.div_le_upper_bound; lia. }
    set (d := whole_days now ts) in *. clearbody d. replace (1 / 2) with (/ 2) by lra.
    assert (P01 : 0 <= Rpower (/ 2) (IZR d / 14) <= 1).
    { assert (0 <= IZR d) by (apply IZR_le; lia). unfold Rpower. split; [apply Rlt_le, exp_pos|]. rewrite <-exp_0. apply exp_le.
      rewrite ln_Rinv by lra. assert (0 <= ln 2) by (rewrite <-ln_1; apply Rlt_le, ln_increasing; lra). nra. }
    split; [done|].
    destruct (f_of_Z_rnd d) as [F V]; [lia|].
    assert (Hd : 0 <= IZR d) by (apply IZR_le; lia). assert (Hu : IZR d <= 9223372036854775808) by (apply IZR_le; lia).
    assert (R63 : repr 9223372036854775808) by (change 9223372036854775808 with (IZR (2 ^ 63)); rewrite <-(bp 63 (2 ^ 63)) by lia; rp).
    assert (B1 : 0 <= val (f_of_Z d) <= 9223372036854775808) by (rewrite V; split; [by apply rnd_pos|by apply rnd_le_repr]).
    destruct (fdiv_btw (f_of_Z d) f_14 0 9223372036854775808) as [[Fd Hd2] Ed]; [done|done|rewrite v_14; lra|rp|done|rewrite v_14; lra|]. rewrite v_14 in Ed.
    assert (C : Rabs (val (fdiv (f_of_Z d) f_14) - IZR d / 14) <= IZR d / 14 / 4000000).
    { destruct (Z.eq_dec d 0) as [->|Nz].
      - assert (E : val (f_of_Z 0) = 0) by (rewrite V; apply rnd_0). rewrite Ed, E. replace (0 / 14) with 0 by lra. rewrite rnd_0, Rminus_diag_eq, Rabs_R0 by done. lra.
      - assert (H1 : 1 <= IZR d) by (apply IZR_le; lia). pose proof (rel (IZR d) ltac:(lra)) as E1. rewrite <-V in E1. apply Rabs_le_inv in E1.
        pose proof (rel (val (f_of_Z d) / 14) ltac:(lra)) as E2. rewrite <-Ed in E2. apply Rabs_le_inv in E2. apply Rabs_le. lra. }
    set (x := fdiv (f_of_Z d) f_14) in *. clearbody x. pose proof (half_near (val x) (IZR d / 14) ltac:(lra) C) as N.
    assert (P : 0 <= Rpower (/ 2) (val x) <= 1).
    { unfold Rpower. split; [apply Rlt_le, exp_pos|]. rewrite <-exp_0. apply exp_le. rewrite ln_Rinv by lra.
      assert (0 <= ln 2) by (rewrite <-ln_1; apply Rlt_le, ln_increasing; lra). nra. }
    assert (V5 : val f_0_5 = / 2) by (rewrite v_0_5; lra).
    destruct (Hr f_0_5 x eq_refl Fd) as [F1 V1]; [rewrite V5; lra|rewrite V5; lra|]. rewrite V1, V5.
    pose proof (close (Rpower (/ 2) (val x)) 1 ltac:(apply Rabs_le; lra)) as C1. apply Rabs_le_inv in C1, N. apply Rabs_le. lra.
  Qed.

  (** Other weights and values. *)
  Lemma mean_near l l' : Forall2 (λ p p' : R * R, Rabs p.2 <= 1 ∧ Rabs p'.2 <= 1 ∧ / 25 <= p.1 <= 1 ∧ / 25 <= p'.1 <= 1 ∧
      Rabs (p.1 - p'.1) <= / 100000 ∧ Rabs (p.2 - p'.2) <= / 100000) l l' → l ≠ [] →
    Rabs (mean l - mean l') <= 76 / 100000.
  Proof using.
    intros HF Hne. assert (Hn : 1 <= INR (length l)).
    { destruct l; [done|]. cbn [length]. rewrite S_INR. pose proof (pos_INR (length l)). lra. }
    assert (Hl : length l = length l') by (by eapply Forall2_length).
    assert (D1 : Rabs (total (fst <$> l) - total (fst <$> l')) <= INR (length l) * / 100000).
    { rewrite <-(fmap_length fst l). apply total_diff. apply Forall2_fmap. eapply Forall2_impl; [exact HF|]. intros p p' H. apply H. }
    assert (D2 : Rabs (total (products l) - total (products l')) <= INR (length l) * (2 * / 100000)).
    { rewrite <-(fmap_length (λ p : R * R, p.1 * p.2) l). apply total_diff. apply Forall2_fmap. eapply Forall2_impl; [exact HF|].
      intros [w v] [w' v'] (H1 & H2 & H3 & H4 & H5 & H6). cbn [fst snd] in *. apply Rabs_le_inv in H1, H2, H5, H6. apply Rabs_le. split; nra. }
    assert (W1 : INR (length l) * (/ 25) <= total (fst <$> l)).
    { rewrite <-(fmap_length fst l). apply total_least, Forall_fmap, Forall_lookup_2. intros i p Hi. destruct (Forall2_lookup_l _ _ _ _ _ HF Hi) as (p' & _ & H). apply H. }
    assert (W2 : INR (length l) * (/ 25) <= total (fst <$> l')).
    { rewrite Hl, <-(fmap_length fst l'). apply total_least, Forall_fmap, Forall_lookup_2. intros i p Hi. destruct (Forall2_lookup_r _ _ _ _ _ HF Hi) as (p' & _ & H). apply H. }
    assert (B : Rabs (total (products l')) <= total (fst <$> l')).
    { assert (HG : Forall (λ p : R * R, Rabs p.2 <= 1 ∧ 0 <= p.1) l').
      { apply Forall_lookup_2. intros i p Hi. destruct (Forall2_lookup_r _ _ _ _ _ HF Hi) as (p' & _ & H). split; [apply H|]. destruct H as (_ & _ & _ & H & _). lra. }
      clear -HG. induction HG as [|x l [H1 H2] _ IH]; [unfold products; cbn [fmap list_fmap]; rewrite total_nil, Rabs_R0; lra|].
      unfold products in *. rewrite !fmap_cons, !total_cons. eapply Rle_trans; [apply Rabs_triang|].
      rewrite Rabs_mult, (Rabs_pos_eq x.1) by done. nra. }
    unfold mean. fold (products l) (products l'). set (n := INR (length l)) in *. clearbody n.
    set (W := total (fst <$> l)) in *. set (W' := total (fst <$> l')) in *. set (S := total (products l)) in *. set (S' := total (products l')) in *.
    clearbody W W' S S'. apply Rabs_le_inv in D1, D2, B.
    set (q := S' / W'). assert (Sq : S' = q * W') by (unfold q; field; lra).
    assert (Bq : -1 <= q <= 1).
    { unfold q, Rdiv. assert (IW : 0 < / W') by (apply Rinv_0_lt_compat; lra). assert (W' * / W' = 1) by (apply Rinv_r; lra). split; nra. }
    clearbody q. subst S'. assert (IW : 0 < / W) by (apply Rinv_0_lt_compat; lra). assert (DI : W * / W = 1) by (apply Rinv_r; lra).
    replace (S / W - q) with ((S - q * W) * / W) by (field; lra).
    assert (Hc : - (n * (3 * / 100000)) <= S - q * W <= n * (3 * / 100000)) by (split; nra).
    apply Rabs_le. split.
    - replace (- (76 / 100000)) with (- (76 / 100000 * W) * / W) by (replace (- (76 / 100000 * W) * / W) with (- (76 / 100000 * (W * / W))) by ring; rewrite DI; lra).
      apply Rmult_le_compat_r; lra.
    - replace (76 / 100000) with (76 / 100000 * W * / W) by (rewrite Rmult_assoc, DI; lra). apply Rmult_le_compat_r; lra.
  Qed.

  Lemma counted_near now rs : (Z.abs now <= 4611686018427387903)%Z → Forall (near_reward valid_time now) rs →
    Forall2 (λ (p : f32 * f32) (q : R * R), btw (/ 20) 1 p.1 ∧ btw (-1) 1 p.2 ∧ Rabs q.2 <= 1 ∧ / 25 <= q.1 <= 1 ∧
      Rabs (val p.1 - q.1) <= / 100000 ∧ Rabs (val p.2 - q.2) <= / 100000) (counted now rs) (weighty now rs).
  Proof using Hp Hr.
    intros Hn. induction 1 as [|r rs ([Hv Hw] & Ht & Hts & Hc) _ IH]; [constructor|]. unfold counted, weighty in *. cbn [omap list_omap].
    apply between_btw in Hv as [Fv Hv]; [|done|done]. apply between_btw in Hw as [Fw Hw]; [|done|done]. rewrite fneg_val, v_1, v_0 in *.
    destruct (left_close now (e_ts r) Ht Hn Hts) as ([Fk Hk] & HL & C). unfold decayed_reward. cbv zeta.
    unfold clear_cut, left_weight, left_value in *. set (k := decay_factor powf _) in *. set (v := (e_val r).1) in *. set (w := (e_val r).2) in *.
    set (L := left_of now (e_ts r)) in *. clearbody k v w L.
    destruct (fmul_btw v k (-1) 1) as [[Fv' Hv'] Ev]; [done|done|rp|rp|split; nra|].
    destruct (fmul_btw w k 0 1) as [[Fw' Hw'] Ew]; [done|done|rp|rp|split; nra|].
    apply Rabs_le_inv in C.
    assert (CV : Rabs (val (fmul v k) - val v * L) <= / 100000).
    { rewrite Ev. pose proof (close (val v * val k) 1 ltac:(apply Rabs_le; split; nra)) as C1. apply Rabs_le_inv in C1. apply Rabs_le. split; nra. }
    assert (CW : Rabs (val (fmul w k) - val w * L) <= 95 / 10000000).
    { rewrite Ew. pose proof (close (val w * val k) 1 ltac:(apply Rabs_le; split; nra)) as C1. apply Rabs_le_inv in C1. apply Rabs_le. split; nra. }
    assert (V05 : 5 / 100 <= val f_0_05 <= 5 / 100 + 1 / 10000000) by (unfold f_0_05; litv).
    apply Rabs_le_inv in CW as CW'. destruct (flt (fmul w k) f_0_05) eqn:E.
    - apply flt_true in E; [|done|done]. destruct (Rlt_dec (val w * L) (5 / 100)) as [_|N]; [done|].
      exfalso. rewrite Rabs_pos_eq in Hc; lra.
    - apply flt_false in E; [|done|done]. destruct (Rlt_dec (val w * L) (5 / 100)) as [N|N]; [exfalso; rewrite Rabs_left in Hc; lra|].
      constructor; [|done]. cbn [fst snd]. split; [split; [done|lra]|]. split; [by split|]. split; [apply Rabs_le; split; nra|].
      split; [split; [lra|nra]|]. split; [apply Rabs_le; lra|done].
  Qed.

  Lemma average_reward_close now rs : (Z.abs now <= 4611686018427387903)%Z → (length rs <= 1000)%nat → Forall (near_reward valid_time now) rs →
    Rabs (val (average_reward powf valid_time now rs) - exact_rewards now rs) <= INR (length rs) / 100000 + 76 / 100000.
  Proof using Hp Hr.
    intros Hn Hl HF. pose proof (counted_near now rs Hn HF) as HN. unfold average_reward. rewrite counted_fold. unfold exact_rewards.
    assert (Hk : (length (counted now rs) <= length rs)%nat).
    { unfold counted. clear. induction rs as [|r rs IH]; [done|]. cbn [omap list_omap]. destruct (decayed_reward _ _ _ _) as [v w]. destruct (flt _ _); cbn [length]; lia. }
    pose proof (pos_INR (length rs)) as P0.
    destruct (weighty now rs) as [|q m] eqn:Ew.
    { apply Forall2_nil_inv_r in HN. rewrite HN. cbn [fold_left]. assert (feq fzero fzero = true) as -> by done.
      rewrite v_0, Rminus_diag_eq, Rabs_R0 by done. lra. }
    rewrite <-Ew in *. assert (Hne : counted now rs ≠ []) by (intros E; rewrite E in HN; inversion HN; congruence).
    set (l := counted now rs) in *. clearbody l. set (m' := weighty now rs) in *. clearbody m'. clear Ew.
    assert (HG : Forall fair l).
    { apply Forall_lookup_2. intros i p Hi. destruct (Forall2_lookup_l _ _ _ _ _ HN Hi) as (p' & _ & H1 & H2 & _).
      split; [eapply btw_weaken; [exact H1|lra|lra]|eapply btw_weaken; [exact H2|lra|lra]]. }
    assert (L1 : (0 < length l)%nat) by (destruct l; [done|cbn; lia]).
    assert (HW : INR (length l) * (/ 20) <= total (fst <$> reals l)).
    { replace (length l) with (length (fst <$> reals l)) by (unfold reals; by rewrite !fmap_length). apply total_least. apply Forall_fmap. unfold reals. apply Forall_fmap.
      apply Forall_lookup_2. intros i p Hi. destruct (Forall2_lookup_l _ _ _ _ _ HN Hi) as (p' & _ & [_ H1] & _). cbn. lra. }
    assert (N1 : 1 <= INR (length l)) by (apply (le_INR 1); lia).
    destruct (ratio_close l HG) as [B C]; [lia|lra|]. cbv zeta in *.
    destruct (sums_close l HG ltac:(lia)) as (_ & F2 & _ & Hm & _ & E2). cbv zeta in *.
    assert (HD : 0 < val (fold_left add_weighted l (fzero, fzero)).2).
    { apply Rabs_le_inv in E2. set (n := INR (length l)) in *. set (W := total _) in *. set (D := val _) in *. clearbody n W D.
      assert (n * (W / 1000000 + / 10000000000) <= W / 1000 + / 10000000) by nra. lra. }
    destruct (fold_left add_weighted l (fzero, fzero)) as [num den] eqn:Ef. cbn [fst snd] in *. unfold ratio in *. cbn [fst snd] in *.
    assert (Eq : feq den fzero = false).
    { destruct (feq den fzero) eqn:E; [|done]. apply feq_true in E; [|done|done]. rewrite v_0 in E. lra. }
    rewrite Eq. 
    assert (M : Rabs (mean (reals l) - mean m') <= 76 / 100000).
    { apply mean_near; [|unfold reals; by destruct l]. unfold reals. apply Forall2_fmap_l. eapply Forall2_impl; [exact HN|].
      intros p p' ([_ H1] & [_ H2] & H3 & H4 & H5 & H6).
      change (Rabs (val p.2) <= 1 ∧ Rabs p'.2 <= 1 ∧ / 25 <= val p.1 <= 1 ∧ / 25 <= p'.1 <= 1 ∧ Rabs (val p.1 - p'.1) <= / 100000 ∧ Rabs (val p.2 - p'.2) <= / 100000).
      repeat split; try done; try lra. apply Rabs_le. lra. }
    assert (INR (length l) <= INR (length rs)) by (by apply le_INR).
    assert (E' : match m' with [] => 0 | _ => mean m' end = mean m').
    { destruct m'; [|done]. apply Forall2_nil_inv_r in HN. done. }
    replace (val (fdiv num den) - mean m') with ((val (fdiv num den) - mean (reals l)) + (mean (reals l) - mean m')) by ring.
    eapply Rle_trans; [apply Rabs_triang|]. lra.
  Qed.

  Lemma reward_close now course lesson : (Z.abs now <= 4611686018427387903)%Z → (length course <= 1000)%nat → (length lesson <= 1000)%nat →
    Forall (near_reward valid_time now) course → Forall (near_reward valid_time now) lesson →
    Rabs (val (score_rewards powf valid_time now course lesson) - exact_reward now course lesson)
      <= INR (length course + length lesson) / 100000 + 77 / 100000.
  Proof using Hp Hr.
    intros Hn Lc Ll Hc Hl. pose proof (average_reward_close now course Hn Lc Hc) as C1. pose proof (average_reward_close now lesson Hn Ll Hl) as C2.
    rewrite plus_INR. pose proof (pos_INR (length course)) as P1. pose proof (pos_INR (length lesson)) as P2.
    assert (B : ∀ rs, Forall (near_reward valid_time now) rs → btw (-1) 1 (average_reward powf valid_time now rs)).
    { intros rs HF. apply average_reward_ok; [done|]. eapply Forall_impl; [exact HF|]. intros r H. apply H. }
    destruct (B _ Hc) as [Fc Bc]. destruct (B _ Hl) as [Fl Bl].
    unfold score_rewards, exact_reward. cbv zeta.
    destruct course as [|c0 course].
    { destruct lesson as [|l0 lesson]; [|eapply Rle_trans; [exact C2|]; lra]. change (exact_rewards now []) with 0. rewrite v_0, Rminus_diag_eq, Rabs_R0 by done. lra. }
    destruct lesson as [|l0 lesson]; [eapply Rle_trans; [exact C1|]; lra|].
    set (c := average_reward powf valid_time now (c0 :: course)) in *. set (l := average_reward powf valid_time now (l0 :: lesson)) in *.
    set (C := exact_rewards now (c0 :: course)) in *. set (L := exact_rewards now (l0 :: lesson)) in *.
    set (n1 := INR (length (c0 :: course))) in *. set (n2 := INR (length (l0 :: lesson))) in *. clearbody c l C L n1 n2.
    destruct blend_one as [Fo Eo].
    assert (V3 : Rabs (val f_0_3 - 3 / 10) <= / 10000000) by (unfold f_0_3; rewrite lit_val; apply Rabs_le; simpl; lra).
    assert (V7 : Rabs (val f_0_7 - 7 / 10) <= / 10000000) by (unfold f_0_7; rewrite lit_val; apply Rabs_le; simpl; lra).
    apply Rabs_le_inv in V3, V7, C1, C2.
    destruct (fmul_btw c f_0_3 (-1) 1) as [[F3 B3] E3]; [done|done|rp|rp|split; nra|].
    destruct (fmul_btw l f_0_7 (-1) 1) as [[F4 B4] E4]; [done|done|rp|rp|split; nra|].
    destruct (fadd_btw (fmul c f_0_3) (fmul l f_0_7) (-2) 2) as [[F5 B5] E5]; [done|done|rp|rp|lra|].
    destruct (fdiv_btw (fadd (fmul c f_0_3) (fmul l f_0_7)) (fadd f_0_3 f_0_7) (-2) 2) as [[F6 B6] E6]; [done|done|rewrite Eo; lra|rp|rp|rewrite Eo; lra|].
    rewrite Eo in E6. replace (val (fadd (fmul c f_0_3) (fmul l f_0_7)) / 1) with (val (fadd (fmul c f_0_3) (fmul l f_0_7))) in E6 by lra.
    pose proof (close (val c * val f_0_3) 1 ltac:(apply Rabs_le; split; nra)) as G1. rewrite <-E3 in G1. apply Rabs_le_inv in G1.
    pose proof (close (val l * val f_0_7) 1 ltac:(apply Rabs_le; split; nra)) as G2. rewrite <-E4 in G2. apply Rabs_le_inv in G2.
    pose proof (close (val (fmul c f_0_3) + val (fmul l f_0_7)) 2 ltac:(apply Rabs_le; lra)) as G3. rewrite <-E5 in G3. apply Rabs_le_inv in G3.
    pose proof (close (val (fadd (fmul c f_0_3) (fmul l f_0_7))) 2 ltac:(apply Rabs_le; lra)) as G4. rewrite <-E6 in G4. apply Rabs_le_inv in G4.
    assert (X1 : -2 / 10000000 <= val c * val f_0_3 - val c * (3 / 10) <= 2 / 10000000) by (split; nra).
    assert (X2 : -2 / 10000000 <= val l * val f_0_7 - val l * (7 / 10) <= 2 / 10000000) by (split; nra).
    apply Rabs_le. lra.
  Qed.
End rewards.
