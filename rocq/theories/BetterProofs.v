(** Proofs about better grades: what they do to the average, the score and the urgency. *)
From stdpp Require Import list.
From Coq Require Import ZArith Reals Lra Lia.
From Flocq Require Import Core.Core IEEE754.BinarySingleNaN.
From Verif Require Import F32 F32Real F32More Stores Scorer ScorerSpec ScorerProofs ScoreProofs ScoreSample MemoryProofs MemoryMore BetterSpec.
Local Open Scope R_scope.

Lemma fold_mono l l' acc acc' : Forall2 (λ a b : f32 * f32, a.1 = b.1 ∧ val a.2 <= val b.2) l l' →
  Forall good_weight l → Forall good_weight l' → sums_ok acc → sums_ok acc' → acc.2 = acc'.2 → val acc.1 <= val acc'.1 →
  (fold_left add_weighted l acc).2 = (fold_left add_weighted l' acc').2 ∧
  val (fold_left add_weighted l acc).1 <= val (fold_left add_weighted l' acc').1.
Proof.
  intros HF. revert acc acc'. induction HF as [|a b l l' [E1 E2] _ IH]; intros acc acc' Hl Hl' Ha Ha' Eq Hle; [done|].
  cbn [fold_left]. inversion Hl as [|? ? Ga Hl1]; inversion Hl' as [|? ? Gb Hl2]; subst.
  destruct (add_weighted_ok acc a Ha Ga) as (K1 & _). destruct (add_weighted_ok acc' b Ha' Gb) as (K2 & _).
  apply IH; [done|done|done|done|unfold add_weighted; cbn [snd]; by rewrite Eq, E1|].
  unfold add_weighted. cbn [fst]. destruct Ga as [[Fw Hw] [Fv Hv]], Gb as [[Fw' Hw'] [Fv' Hv']].
  pose proof v_0_1 as H01. destruct Ha as [[Fn Hn] _], Ha' as [[Fn' Hn'] _].
  rewrite (bp 27 134217728) in * by lia. assert (R28 : repr 268435456) by (rewrite <- (bp 28) by lia; rp).
  destruct (fmul_btw a.1 a.2 (-5) 5) as [[Ft Ht] Et]; [done|done|rp|rp|nra|].
  destruct (fmul_btw b.1 b.2 (-5) 5) as [[Ft' Ht'] Et']; [done|done|rp|rp|nra|].
  destruct (fadd_btw acc.1 (fmul a.1 a.2) (-268435456) 268435456) as [_ ->]; [done|done|by apply repr_opp|done|lra|].
  destruct (fadd_btw acc'.1 (fmul b.1 b.2) (-268435456) 268435456) as [_ ->]; [done|done|by apply repr_opp|done|lra|].
  apply rnd_le, Rplus_le_compat; [done|]. rewrite Et, Et', E1. apply rnd_le. rewrite <-E1. nra.
Qed.
Lemma ratio_mono l l' : l ≠ [] → Forall2 (λ a b : f32 * f32, a.1 = b.1 ∧ val a.2 <= val b.2) l l' →
  Forall good_weight l → Forall good_weight l' →
  val (ratio (fold_left add_weighted l (fzero, fzero))) <= val (ratio (fold_left add_weighted l' (fzero, fzero))).
Proof.
  intros Hne HF Hl Hl'.
  assert (S0 : sums_ok (fzero, fzero)).
  { split; (split; [done|]); cbn [fst snd]; rewrite v_0; rewrite ?(bp 27 134217728), ?(bp 25 33554432) by lia; lra. }
  assert (Hne' : l' ≠ []) by (intros ->; inversion HF; subst; done).
  destruct (fold_mono l l' _ _ HF Hl Hl' S0 S0 eq_refl (Rle_refl _)) as [E M].
  destruct (fold_weighted_ok l (fzero, fzero) S0 Hl) as ([[Fn Hn] [Fd Hd]] & H2 & _). specialize (H2 Hne).
  destruct (fold_weighted_ok l' (fzero, fzero) S0 Hl') as ([[Fn' Hn'] _] & _).
  unfold ratio. set (acc := fold_left add_weighted l _) in *. set (acc' := fold_left add_weighted l' _) in *. rewrite <-E in *.
  pose proof v_0_1 as H01. rewrite (bp 27 134217728) in * by lia.
  assert (0 < / val acc.2 <= 16) as [I1 I2].
  { split; [apply Rinv_0_lt_compat; lra|]. replace 16 with (/ / 16) by lra. apply Rinv_le_contravar; lra. }
  assert (R31 : repr 2147483648) by (rewrite <- (bp 31) by lia; rp).
  destruct (fdiv_btw acc.1 acc.2 (-2147483648) 2147483648) as [_ ->]; [done|done|lra|by apply repr_opp|done|unfold Rdiv; split; nra|].
  destruct (fdiv_btw acc'.1 acc.2 (-2147483648) 2147483648) as [_ ->]; [done|done|lra|by apply repr_opp|done|unfold Rdiv; split; nra|].
  apply rnd_le. unfold Rdiv. apply Rmult_le_compat_r; lra.
Qed.

Lemma better_btw l l' : better l l' → Forall graded l → Forall graded l' →
  Forall2 (λ t t' : trial, e_ts t = e_ts t' ∧ val (e_val t) <= val (e_val t')) l l'.
Proof.
  intros HF. induction HF as [|t t' l l' [E H] _ IH]; intros Hl Hl'; [constructor|].
  inversion Hl as [|? ? G1 Hl1]; inversion Hl' as [|? ? G2 Hl2]; subst. constructor; [|by apply IH]. split; [done|].
  apply graded_btw in G1 as [F1 _], G2 as [F2 _]. by apply fle_true.
Qed.
Lemma graded_wide l : Forall graded l → Forall (λ e : trial, btw (-5) 5 (e_val e)) l.
Proof. intros H. eapply Forall_impl; [exact H|]. intros t Ht%graded_btw. eapply btw_weaken; [exact Ht|lra|lra]. Qed.

Section better.
  Context (powf : f32 → f32 → f32) (Hp : power_ok powf).

  Lemma average_better l l' : better l l' → Forall graded l → Forall graded l' →
    val (compute_weighted_avg powf l) <= val (compute_weighted_avg powf l').
  Proof using Hp.
    intros Hb Hg Hg'. pose proof (better_btw l l' Hb Hg Hg') as HB. clear Hb.
    destruct l as [|e es0]; [inversion HB; subst; lra|]. destruct l' as [|e' es0']; [inversion HB|].
    unfold compute_weighted_avg. apply graded_wide in Hg, Hg'. assert (Ets : e_ts e = e_ts e') by (inversion HB as [|? ? ? ? [E _]]; done).
    rewrite <-Ets. set (es := e :: es0) in *. set (es' := e' :: es0') in *.
    assert (Mt : val (ratio (fold_left add_weighted (time_weighted powf (e_ts e) es) (fzero, fzero))) <=
      val (ratio (fold_left add_weighted (time_weighted powf (e_ts e) es') (fzero, fzero)))).
    { apply ratio_mono; [done| |by apply time_weighted_ok|by apply time_weighted_ok].
      unfold time_weighted. apply Forall2_fmap. eapply Forall2_impl; [exact HB|]. intros a b [E H]. cbn [fst snd]. by rewrite E. }
    assert (Mp : val (ratio (fold_left add_weighted (position_weighted powf es) (fzero, fzero))) <=
      val (ratio (fold_left add_weighted (position_weighted powf es') (fzero, fzero)))).
    { apply ratio_mono; [done| |by apply position_weighted_ok|by apply position_weighted_ok].
      unfold position_weighted. apply Forall2_same_length_lookup. split.
      { rewrite !imap_length. by eapply Forall2_length. }
      intros i a b Ha Hb'. rewrite list_lookup_imap in Ha, Hb'. apply fmap_Some in Ha as (x & Hx & ->). apply fmap_Some in Hb' as (y & Hy & ->).
      cbn [fst snd]. split; [done|]. eapply Forall2_lookup_lr in HB; [|exact Hx|exact Hy]. apply HB. }
    destruct (ratio_ok (time_weighted powf (e_ts e) es)) as [[Ft Ht] _]; [done|by apply time_weighted_ok|].
    destruct (ratio_ok (position_weighted powf es)) as [[Fq Hq] _]; [done|by apply position_weighted_ok|].
    destruct (ratio_ok (time_weighted powf (e_ts e) es')) as [[Ft' Ht'] _]; [done|by apply time_weighted_ok|].
    destruct (ratio_ok (position_weighted powf es')) as [[Fq' Hq'] _]; [done|by apply position_weighted_ok|].
    set (t := ratio (fold_left add_weighted (time_weighted powf (e_ts e) es) (fzero, fzero))) in *.
    set (q := ratio (fold_left add_weighted (position_weighted powf es) (fzero, fzero))) in *.
    set (t' := ratio (fold_left add_weighted (time_weighted powf (e_ts e) es') (fzero, fzero))) in *.
    set (q' := ratio (fold_left add_weighted (position_weighted powf es') (fzero, fzero))) in *.
    pose proof v_0_8 as H8. pose proof v_0_2 as H2. rewrite (bp 31 2147483648) in * by lia.
    assert (R31 : repr 2147483648) by (rewrite <- (bp 31) by lia; rp).
    assert (R32 : repr 4294967296) by (rewrite <- (bp 32) by lia; rp).
    destruct (fmul_btw f_0_8 t (-2147483648) 2147483648) as [[F1 H1] E1]; [done|done|by apply repr_opp|done|split; nra|].
    destruct (fmul_btw f_0_2 q (-2147483648) 2147483648) as [[F2 H3] E2]; [done|done|by apply repr_opp|done|split; nra|].
    destruct (fmul_btw f_0_8 t' (-2147483648) 2147483648) as [[F1' H1'] E1']; [done|done|by apply repr_opp|done|split; nra|].
    destruct (fmul_btw f_0_2 q' (-2147483648) 2147483648) as [[F2' H3'] E2']; [done|done|by apply repr_opp|done|split; nra|].
    destruct (fadd_btw (fmul f_0_8 t) (fmul f_0_2 q) (-4294967296) 4294967296) as [_ ->]; [done|done|by apply repr_opp|done|lra|].
    destruct (fadd_btw (fmul f_0_8 t') (fmul f_0_2 q') (-4294967296) 4294967296) as [_ ->]; [done|done|by apply repr_opp|done|lra|].
    apply rnd_le. rewrite E1, E2, E1', E2'. apply Rplus_le_compat; apply rnd_le; nra.
  Qed.

  Lemma delta_mono deltas eff eff' : Forall small_delta deltas → btw 0 1 eff → btw 0 1 eff' → val eff' <= val eff →
    Forall (λ d : trial, fle fzero (e_val d) = true) deltas → val (compute_delta powf deltas eff') <= val (compute_delta powf deltas eff).
  Proof using Hp.
    intros Hd [FE1 HE1] [FE2 HE2] Heff Hpos. unfold compute_delta. destruct (Nat.ltb (length deltas) 2); [lra|].
    destruct (weighted_avg_btw powf Hp deltas) as [[Fa Ha] Pa].
    { eapply Forall_impl; [exact Hd|]. intros t. apply small_delta_btw. }
    assert (0 <= val (compute_weighted_avg powf deltas)).
    { apply Pa. apply Forall_lookup_2. intros i d Hi. eapply Forall_lookup_1 in Hpos; [|exact Hi].
      eapply Forall_lookup_1 in Hd; [|exact Hi]. apply small_delta_btw in Hd as [Fd _].
      apply fle_true in Hpos; [|done|done]. by rewrite v_0 in Hpos. }
    rewrite (bp 32 4294967296) in * by lia.
    assert (R32 : repr 4294967296) by (rewrite <- (bp 32) by lia; rp).
    set (a := compute_weighted_avg powf deltas) in *.
    destruct (fmul_btw a eff 0 4294967296) as [[K1 B1] Q1]; [done|done|rp|done|split; nra|].
    destruct (fmul_btw a eff' 0 4294967296) as [[K2 B2] Q2]; [done|done|rp|done|split; nra|].
    destruct (fdiv_btw (fmul a eff) f_4 0 4294967296) as [_ ->]; [done|done|rewrite v_4; lra|rp|done|rewrite v_4; lra|].
    destruct (fdiv_btw (fmul a eff') f_4 0 4294967296) as [_ ->]; [done|done|rewrite v_4; lra|rp|done|rewrite v_4; lra|].
    apply rnd_le. rewrite v_4, Q1, Q2. assert (rnd (val a * val eff') <= rnd (val a * val eff)); [|lra].
    apply rnd_le. nra.
  Qed.

  (** A better average and a better memory give a better score. *)
  Lemma score_mono ty trials trials' t0 l0 t1 l1 deltas now s s' : trials = t0 :: l0 → trials' = t1 :: l1 →
    better trials trials' → fits trials → Forall graded trials → Forall graded trials' → newest_first trials →
    Forall small_delta deltas →
    (let r := retrievability powf ty (days_between now (e_ts t0)) (compute_stability powf ty trials (estimate_difficulty trials)) in
     let r' := retrievability powf ty (days_between now (e_ts t0)) (compute_stability powf ty trials' (estimate_difficulty trials')) in
     r = r' ∧ fge (days_between now (e_ts t0)) f_50 = false ∨ val r <= val r' ∧ Forall (λ d : trial, fle fzero (e_val d) = true) deltas) →
    score_exercise powf ty trials deltas now = Some s → score_exercise powf ty trials' deltas now = Some s' →
    fle (sc_value s) (sc_value s') = true.
  Proof using Hp.
    intros -> -> Hb Hf Hg Hg' Hn Hd Hr H1 H2. pose proof (average_better _ _ Hb Hg Hg') as Hw.
    assert (Hlen : length (t0 :: l0) = length (t1 :: l1)) by (by eapply Forall2_length).
    assert (Hf' : fits (t1 :: l1)) by (unfold fits in *; by rewrite <-Hlen).
    assert (Hn' : newest_first (t1 :: l1)).
    { intros i j a b Hi Hj Hij. destruct (Forall2_lookup_r _ _ _ _ _ Hb Hi) as (a' & Ha' & Ea & _).
      destruct (Forall2_lookup_r _ _ _ _ _ Hb Hj) as (b' & Hb' & Eb & _). rewrite <-Ea, <-Eb. by apply (Hn i j). }
    assert (Ets : e_ts t0 = e_ts t1) by (inversion Hb as [|? ? ? ? [E _]]; done).
    rewrite score_unfold in H1, H2 by done.
    pose proof (parts_ok powf Hp ty (t0 :: l0) now t0 Hf Hg) as P1. pose proof (parts_ok powf Hp ty (t1 :: l1) now t1 Hf' Hg') as P2.
    unfold parts in *. cbv zeta in *. rewrite <-Ets, <-Hlen in *.
    destruct P1 as (R1 & W1 & E1), P2 as (R2 & W2 & E2).
    set (r := retrievability powf ty (days_between now (e_ts t0)) (compute_stability powf ty (t0 :: l0) (estimate_difficulty (t0 :: l0)))) in *.
    set (r' := retrievability powf ty (days_between now (e_ts t0)) (compute_stability powf ty (t1 :: l1) (estimate_difficulty (t1 :: l1)))) in *.
    set (w := compute_weighted_avg powf (t0 :: l0)) in *. set (w' := compute_weighted_avg powf (t1 :: l1)) in *.
    set (eff := old_good_floor r w (days_between now (e_ts t0)) (length (t0 :: l0))) in *.
    set (eff' := old_good_floor r' w' (days_between now (e_ts t0)) (length (t0 :: l0))) in *.
    assert (Hdelta : val eff <= val eff' ∧ val (compute_delta powf deltas eff) <= val (compute_delta powf deltas eff')).
    { destruct Hr as [[Er E50]|[Hr Hpos]].
      - assert (Ee : eff = eff').
        { unfold eff, eff', old_good_floor. by rewrite E50, !andb_false_r. }
        rewrite Ee. lra.
      - assert (Heff : val eff <= val eff').
        { unfold eff, eff', old_good_floor. destruct R1 as [F1 _], R2 as [F2 _].
          destruct (Nat.leb 2 _ && fge w f_4 && fge (days_between now (e_ts t0)) f_50) eqn:C.
          - apply andb_prop in C as [C C3]. apply andb_prop in C as [C1 C2].
            assert (C2' : fge w' f_4 = true).
            { destruct W1 as [FW _], W2 as [FW' _]. unfold fge in *. apply fle_true; [done|done|]. apply fle_true in C2; [lra|done|done]. }
            rewrite C1, C2', C3. cbn [andb].
            destruct (fmax_val r f_0_75 F1) as [_ ->]; [done|]. destruct (fmax_val r' f_0_75 F2) as [_ ->]; [done|]. by apply Rle_max_compat_r.
          - clear C. destruct (_ && _ && _); [|exact Hr]. destruct (fmax_val r' f_0_75 F2) as [_ ->]; [done|].
            eapply Rle_trans; [exact Hr|apply Rmax_l]. }
        split; [done|]. by apply delta_mono. }
    destruct Hdelta as [Heff Hdelta].
    destruct (delta_btw powf Hp deltas eff Hd E1) as [D1 _]. destruct (delta_btw powf Hp deltas eff' Hd E2) as [D2 _].
    destruct (sum_btw eff w _ E1 W1 D1) as [G1 V1]. destruct (sum_btw eff' w' _ E2 W2 D2) as [G2 V2].
    destruct E1 as [FE1 HE1], E2 as [FE2 HE2], W1 as [FW HW], W2 as [FW' HW'].
    simplify_eq. cbn [sc_value].
    destruct (fclamp_val _ fzero f_5 G1) as [C1 U1]; [done|done|rewrite v_0, v_5; lra|].
    destruct (fclamp_val _ fzero f_5 G2) as [C2 U2]; [done|done|rewrite v_0, v_5; lra|].
    apply fle_true; [done|done|]. rewrite U1, U2. apply Rle_min_compat_r, Rle_max_compat_r.
    rewrite V1, V2. apply rnd_le. apply Rplus_le_compat; [|done]. apply rnd_le. nra.
  Qed.

  (** At the moment of the last trial, or before it, the memory does not count. *)
  Lemma no_days now ts : (now <= ts)%Z → fin (days_between now ts) ∧ val (days_between now ts) = 0.
  Proof using.
    intros H. destruct (days_between_btw now ts) as [F B]. split; [done|]. apply Rle_antisym; [|lra].
    eapply Rle_trans; [apply (days_mono now ts ts H)|]. unfold days_between, saturating_sub.
    replace (ts - ts)%Z with 0%Z by lia. assert (E : feq (fmax (fdiv (f_of_Z (Z.max i64_min (Z.min i64_max 0))) f_86400) fzero) fzero = true) by (vm_compute; reflexivity).
    apply feq_true in E; [|vm_compute; reflexivity|done]. rewrite E, v_0. lra.
  Qed.
  Lemma remembered ty d s : fin d → val d = 0 → btw (/ 2) 730 s → retrievability powf ty d s = fclamp (powf f_1 (curve_decay ty)) fzero f_1.
  Proof using Hp.
    intros Fd Vd Hs. assert (Hd : btw 0 (bpow radix2 63) d) by (split; [done|]; rewrite Vd; pose proof (bpow_ge_0 radix2 63); lra).
    destruct (curve_base powf Hp ty d s Hd Hs) as [[F1 B1] E1]. unfold retrievability. f_equal. f_equal.
    apply same_float; [done|done|lra|]. rewrite E1, Vd, Rmult_0_r, v_1, rnd_0. unfold Rdiv. rewrite Rmult_0_l, rnd_0.
    rewrite Rplus_0_r. apply (rnd_Z 1). lia.
  Qed.
  Lemma better_now ty l l' deltas now s s' : better l l' → fits l → Forall graded l → Forall graded l' → newest_first l →
    Forall small_delta deltas → (∀ t, head l = Some t → (now <= e_ts t)%Z) →
    score_exercise powf ty l deltas now = Some s → score_exercise powf ty l' deltas now = Some s' →
    fle (sc_value s) (sc_value s') = true.
  Proof using Hp.
    intros Hb Hf Hg Hg' Hn Hd Hnow H1 H2. destruct l as [|t0 l0].
    { inversion Hb; subst. rewrite H1 in H2. simplify_eq. cbn in H1. simplify_eq. vm_compute. reflexivity. }
    destruct l' as [|t1 l1]; [inversion Hb|]. specialize (Hnow t0 eq_refl).
    assert (Hf' : fits (t1 :: l1)) by (unfold fits in *; by rewrite <-(Forall2_length _ _ _ Hb)).
    destruct (no_days now (e_ts t0) Hnow) as [Fd Vd].
    eapply (score_mono ty (t0 :: l0) (t1 :: l1)); [done..| |exact H1|exact H2]. cbv zeta. left. split.
    - rewrite !remembered; [done|done|done| |done|done|].
      + apply (replay_btw powf Hp ty (estimate_difficulty (t1 :: l1)) (t1 :: l1)); [by apply estimate_difficulty_btw|done].
      + apply (replay_btw powf Hp ty (estimate_difficulty (t0 :: l0)) (t0 :: l0)); [by apply estimate_difficulty_btw|done].
    - apply recent_days. unfold fifty_days. lia.
  Qed.

  Context (Hfall : power_falls powf).
  Lemma same_base t t' l : failed t = failed t' → estimate_difficulty (t :: l) = estimate_difficulty (t' :: l).
  Proof using. unfold failed, estimate_difficulty. cbn [List.filter length]. intros ->. by destruct (flt (e_val t') f_3). Qed.
  Lemma better_newest ty t t' l deltas now s s' : e_ts t = e_ts t' → fle (e_val t) (e_val t') = true → failed t = failed t' →
    fits (t :: l) → Forall graded (t :: t' :: l) → newest_first (t :: l) → Forall small_delta deltas →
    Forall (λ d : trial, fle fzero (e_val d) = true) deltas →
    score_exercise powf ty (t :: l) deltas now = Some s → score_exercise powf ty (t' :: l) deltas now = Some s' →
    fle (sc_value s) (sc_value s') = true ∧ fle (sc_urgency s') (sc_urgency s) = true.
  Proof using Hp Hfall.
    intros Ets Hle Hfail Hf Hg Hn Hd Hpos H1 H2.
    inversion Hg as [|? ? G1 Hg1]; subst. inversion Hg1 as [|? ? G2 Gl]; subst.
    assert (Hga : Forall graded (t :: l)) by (by constructor). assert (Hgb : Forall graded (t' :: l)) by (by constructor).
    assert (Hb : better (t :: l) (t' :: l)).
    { constructor; [done|]. clear -Gl. induction Gl as [|x l Hx _ IH]; constructor; [|done]. split; [done|].
      apply graded_btw in Hx as [Fx _]. apply fle_true; [done|done|lra]. }
    assert (Hn' : newest_first (t' :: l)).
    { intros i j a b Hi Hj Hij. destruct (Forall2_lookup_r _ _ _ _ _ Hb Hi) as (a' & Ha' & Ea & _).
      destruct (Forall2_lookup_r _ _ _ _ _ Hb Hj) as (b' & Hb' & Eb & _). rewrite <-Ea, <-Eb. by apply (Hn i j). }
    assert (Hf' : fits (t' :: l)) by done.
    pose proof (same_base t t' l Hfail) as Eb. pose proof (estimate_difficulty_btw (t :: l) Hf) as Bb.
    assert (Bb' : between f_1 (estimate_difficulty (t :: l)) f_10) by (by apply (between_f f_1 _ f_10 1 10 eq_refl eq_refl v_1 v_10)).
    destruct (better_trial powf Hp ty (estimate_difficulty (t :: l)) t t' l Bb' Gl G1 G2 Ets Hle) as [Hst _].
    split.
    - destruct (replay_btw powf Hp ty (estimate_difficulty (t :: l)) (t :: l) Bb Hga) as [S1 _].
      destruct (replay_btw powf Hp ty (estimate_difficulty (t :: l)) (t' :: l) Bb Hgb) as [S2 _].
      eapply (score_mono ty (t :: l) (t' :: l)); [done..| |exact H1|exact H2]. cbv zeta. right. split; [|done].
      rewrite <-Eb. apply retrievability_stable; [done|done|apply days_between_btw|done|done|].
      apply fle_true in Hst; [done|apply S1|apply S2].
    - eapply (stability_urgency powf Hp Hfall ty (t :: l) (t' :: l)); [done..|by rewrite Ets| |exact H1|exact H2].
      by rewrite <-Eb.
  Qed.
End better.
