(** Proofs about whole scores: C20, C21, C22, and scores over time. *)
From stdpp Require Import list sorting.
From Coq Require Import ZArith Reals Lra Lia.
From Flocq Require Import Core.Core IEEE754.BinarySingleNaN.
From Verif Require Import F32 F32Real F32More Stores StoresSpec Scorer ScorerSpec ScorerProofs.
Local Open Scope R_scope.

(** ** Order of the trials *)
Lemma out_of_order_spec l : out_of_order l = false ↔ newest_first l.
Proof.
  unfold newest_first. split.
  - induction l as [|a [|b l] IH]; intros H i j x y Hi Hj Hij; [done| |].
    { destruct j as [|j]; [lia|]. done. }
    cbn [out_of_order] in H. apply orb_false_iff in H as [Hab H]. apply Z.ltb_ge in Hab.
    specialize (IH H). destruct j as [|j]; [lia|]. cbn in Hj. destruct i as [|i]; cbn in Hi.
    + simplify_eq. destruct j as [|j]; cbn in Hj; [by simplify_eq|].
      assert (e_ts y <= e_ts b)%Z; [|lia]. eapply (IH 0%nat (S j)); [done|exact Hj|lia].
    + eapply (IH i j); [exact Hi|exact Hj|lia].
  - induction l as [|a [|b l] IH]; intros H; [done|done|]. cbn [out_of_order]. apply orb_false_iff. split.
    + apply Z.ltb_ge. by eapply (H 0%nat 1%nat); [| |lia].
    + apply IH. intros i j x y Hi Hj Hij. eapply (H (S i) (S j)); [exact Hi|exact Hj|lia].
Qed.

Lemma score_rejects powf ty trials deltas now : score_exercise powf ty trials deltas now = None ↔ ¬ newest_first trials.
Proof.
  rewrite <- out_of_order_spec. unfold score_exercise. destruct trials as [|t l]; [done|].
  destruct (out_of_order (t :: l)); cbv zeta; split; (done || congruence).
Qed.

Lemma newest_first_sorted l : StronglySorted (λ a b : trial, (e_ts b <= e_ts a)%Z) l → newest_first l.
Proof.
  unfold newest_first. induction 1 as [|a l Hl IH Ha]; intros i j x y Hi Hj Hij; [done|].
  destruct j as [|j]; [lia|]. cbn in Hj. destruct i as [|i]; cbn in Hi.
  - simplify_eq. by eapply Forall_lookup_1 in Ha.
  - eapply (IH i j); [exact Hi|exact Hj|lia].
Qed.
Lemma decoded_sorted {A} u (l : list (row A)) es : StronglySorted later_first l → mapM (decode_row u) l = Some es →
  StronglySorted (λ a b : entry A, (e_ts b <= e_ts a)%Z) es.
Proof.
  intros Hs H. apply mapM_Some in H. revert es H. induction Hs as [|r l Hl IH Hr]; intros es H.
  - apply Forall2_nil_inv_l in H as ->. constructor.
  - apply Forall2_cons_inv_l in H as (e & es' & He & H & ->). constructor; [by apply IH|].
    assert (Ets : e_ts e = r_ts r). { unfold decode_row in He. by destruct (r_val r); simplify_eq. }
    apply Forall_lookup_2. intros i e' Hi. destruct (Forall2_lookup_r _ _ _ _ _ H Hi) as (r' & Hr' & He').
    assert (Ets' : e_ts e' = r_ts r'). { unfold decode_row in He'. by destruct (r_val r'); simplify_eq. }
    eapply Forall_lookup_1 in Hr; [|exact Hr']. unfold later_first in Hr. rewrite Ets, Ets'. exact Hr.
Qed.
Lemma sorted_take {A} (R : A → A → Prop) n l : StronglySorted R l → StronglySorted R (take n l).
Proof.
  intros H. revert n. induction H as [|a l Hl IH Ha]; intros [|n]; cbn; try constructor; [apply IH|].
  by apply Forall_take.
Qed.
Lemma store_history_ordered (q : order f32) t u n es : sorts_newest_first q → get_entries q t u n = Some es →
  newest_first es.
Proof.
  intros Hq H. apply newest_first_sorted. unfold get_entries in H. destruct (uid_of _ u) as [k|]; [|simplify_eq; constructor].
  eapply decoded_sorted; [|exact H]. unfold newest_rows.
  destruct (Hq (filter (λ r, r_uid r = k) (t_rows t))) as [_ Hs].
  by apply sorted_take.
Qed.

(** ** Whole scores *)
Lemma between_f lo x hi a b : fin lo → fin hi → val lo = a → val hi = b → between lo x hi ↔ btw a b x.
Proof. intros Hl Hh <- <-. by apply between_btw. Qed.
Lemma graded_btw t : graded t ↔ btw 1 5 (e_val t).
Proof. apply between_f; [done|done|apply v_1|apply v_5]. Qed.
Lemma small_delta_btw t : small_delta t ↔ btw (-5) 5 (e_val t).
Proof. apply between_f; [done|done|rewrite fneg_val, v_5; lra|apply v_5]. Qed.

Lemma fmax_btw a b x y : btw a b x → btw a b y → btw a b (fmax x y).
Proof.
  intros [Fx Hx] [Fy Hy]. destruct (fmax_val x y Fx Fy) as [F V]. split; [done|]. rewrite V.
  unfold Rmax. destruct (Rle_dec _ _); lra.
Qed.

Section scores.
  Context (powf : f32 → f32 → f32) (Hp : power_ok powf).

  Lemma floor_btw r w d n : btw 0 1 r → btw 0 1 (old_good_floor r w d n).
  Proof using.
    intros Hr. unfold old_good_floor. destruct (_ && _ && _); [|done]. apply fmax_btw; [done|].
    split; [done|]. rewrite v_0_75. lra.
  Qed.
  Lemma delta_btw deltas r : Forall small_delta deltas → btw 0 1 r →
    btw (- bpow radix2 33) (bpow radix2 33) (compute_delta powf deltas r) ∧
    (Forall (λ d : trial, 0 <= val (e_val d)) deltas → 0 <= val (compute_delta powf deltas r)).
  Proof using Hp.
    intros Hd [Fr Hr]. pose proof (bpow_ge_0 radix2 33) as H33. unfold compute_delta.
    destruct (Nat.ltb (length deltas) 2).
    { split; [split; [done|]; rewrite v_0; lra|]. rewrite v_0. lra. }
    destruct (weighted_avg_btw powf Hp deltas) as [[Fa Ha] Pa].
    { eapply Forall_impl; [exact Hd|]. intros t. apply small_delta_btw. }
    rewrite (bp 33 8589934592) in * by lia. rewrite (bp 32 4294967296) in * by lia.
    assert (R32 : repr 4294967296) by (rewrite <- (bp 32) by lia; rp).
    assert (R33 : repr 8589934592) by (rewrite <- (bp 33) by lia; rp).
    destruct (fmul_btw (compute_weighted_avg powf deltas) r (-4294967296) 4294967296) as [[F1 H1] E1];
      [done|done|by apply repr_opp|done|split; nra|].
    destruct (fdiv_btw (fmul (compute_weighted_avg powf deltas) r) f_4 (-8589934592) 8589934592) as [H2 E2];
      [done|done|rewrite v_4; lra|by apply repr_opp|done|rewrite v_4; lra|].
    split; [done|]. intros HF. specialize (Pa HF). rewrite E2, E1, v_4. apply rnd_ge; [rp|].
    assert (0 <= rnd (val (compute_weighted_avg powf deltas) * val r)); [|lra]. apply rnd_ge; [rp|nra].
  Qed.

  Definition parts ty trials now (t0 : trial) : f32 * f32 * f32 * f32 :=
    let s := compute_stability powf ty trials (estimate_difficulty trials) in
    let days := days_between now (e_ts t0) in
    let r := retrievability powf ty days s in
    let w := compute_weighted_avg powf trials in
    (r, w, old_good_floor r w days (length trials), days).
  Lemma parts_ok ty trials now t0 : fits trials → Forall graded trials →
    let '(r, w, eff, days) := parts ty trials now t0 in
    btw 0 1 r ∧ btw 0 (bpow radix2 32) w ∧ btw 0 1 eff.
  Proof using Hp.
    intros Hf Hg. unfold parts. cbv zeta.
    assert (Hg' : Forall (λ t : trial, btw 1 5 (e_val t)) trials).
    { eapply Forall_impl; [exact Hg|]. intros t. apply graded_btw. }
    destruct (replay_ok powf Hp ty (estimate_difficulty trials) trials) as [Hs _]; [by apply estimate_difficulty_btw|done|].
    assert (Hr : btw 0 1 (retrievability powf ty (days_between now (e_ts t0)) (compute_stability powf ty trials (estimate_difficulty trials)))).
    { apply retrievability_btw; [done|apply days_between_btw|exact Hs]. }
    split; [done|]. split; [|by apply floor_btw].
    destruct (weighted_avg_btw powf Hp trials) as [[Fa Ha] Pa].
    { eapply Forall_impl; [exact Hg'|]. intros t Ht. eapply btw_weaken; [exact Ht|lra..]. }
    split; [done|]. split; [|lra]. apply Pa. eapply Forall_impl; [exact Hg'|]. intros t [_ Ht]. lra.
  Qed.

  Lemma score_unfold ty t0 l deltas now : newest_first (t0 :: l) →
    score_exercise powf ty (t0 :: l) deltas now =
    let '(r, w, eff, days) := parts ty (t0 :: l) now t0 in
    Some (EScore (fclamp (fadd (fmul eff w) (compute_delta powf deltas eff)) fzero f_5) (fsub f_1 r) (velocity (t0 :: l))).
  Proof using. intros H. apply out_of_order_spec in H. unfold score_exercise. by rewrite H. Qed.

  Lemma sum_btw eff w d : btw 0 1 eff → btw 0 (bpow radix2 32) w → btw (- bpow radix2 33) (bpow radix2 33) d →
    fin (fadd (fmul eff w) d) ∧ val (fadd (fmul eff w) d) = rnd (rnd (val eff * val w) + val d).
  Proof using.
    intros [F1 H1] [F2 H2] [F3 H3].
    rewrite (bp 33 8589934592) in * by lia. rewrite (bp 32 4294967296) in * by lia.
    assert (R32 : repr 4294967296) by (rewrite <- (bp 32) by lia; rp).
    assert (R34 : repr 17179869184) by (rewrite <- (bp 34) by lia; rp).
    destruct (fmul_btw eff w 0 4294967296) as [[F4 H4] E4]; [done|done|rp|done|split; nra|].
    destruct (fadd_btw (fmul eff w) d (-17179869184) 17179869184) as [[F5 H5] E5];
      [done|done|by apply repr_opp|done|lra|].
    split; [done|]. by rewrite E5, E4.
  Qed.

  Lemma score_valid ty trials deltas now : newest_first trials → fits trials → Forall graded trials →
    Forall small_delta deltas →
    ∃ s, score_exercise powf ty trials deltas now = Some s ∧
      between fzero (sc_value s) f_5 ∧ between fzero (sc_urgency s) f_1.
  Proof using Hp.
    intros Hn Hf Hg Hd. destruct trials as [|t0 l].
    { eexists. split; [reflexivity|]. cbn. split; split; vm_compute; reflexivity. }
    rewrite score_unfold by done. pose proof (parts_ok ty (t0 :: l) now t0 Hf Hg) as H.
    destruct (parts ty (t0 :: l) now t0) as [[[r w] eff] days]. destruct H as (Hr & Hw & He).
    eexists. split; [reflexivity|]. cbn [sc_value sc_urgency].
    destruct (delta_btw deltas eff Hd He) as [Hdl _].
    destruct (sum_btw eff w _ He Hw Hdl) as [Fs _].
    split.
    - apply between_btw; [done|done|]. apply fclamp_btw; [done|done|done|]. rewrite v_0, v_5. lra.
    - apply (between_f _ _ _ 0 1); [done|done|done|apply v_1|]. destruct Hr as [Fr Hr].
      apply fsub_btw; [done|done|rp|rp|]. rewrite v_1. lra.
  Qed.

  Lemma replay_in_range ty base trials : between f_1 base f_10 → Forall graded trials →
    memory_ok (replay powf ty base trials).
  Proof using Hp.
    intros Hb Hg. destruct (replay_ok powf Hp ty base trials) as [H1 H2].
    - by apply (between_f f_1 base f_10); [done|done|apply v_1|apply v_10|].
    - eapply Forall_impl; [exact Hg|]. intros t. apply graded_btw.
    - split; [by apply (between_f _ _ _ (/ 2) 730); [done|done|apply v_0_5|apply v_730|]|].
      by apply (between_f _ _ _ 1 10); [done|done|apply v_1|apply v_10|].
  Qed.

  (** ** Scores over time *)
  Lemma days_mono now now' b : (now <= now')%Z → val (days_between now b) <= val (days_between now' b).
  Proof using.
    intros H. unfold days_between.
    destruct (fdiv_big _ f_86400 63 (f_of_i64 _ (saturating_bound now b))) as [[F1 _] E1]; [lia|done|rewrite v_86400; lra|].
    destruct (fdiv_big _ f_86400 63 (f_of_i64 _ (saturating_bound now' b))) as [[F2 _] E2]; [lia|done|rewrite v_86400; lra|].
    destruct (fmax_val _ fzero F1) as [_ V1]; [done|]. destruct (fmax_val _ fzero F2) as [_ V2]; [done|].
    rewrite V1, V2, E1, E2. apply Rle_max_compat_r. apply rnd_le. rewrite v_86400. unfold Rdiv.
    apply Rmult_le_compat_r; [lra|]. apply f_of_Z_le; [apply small_abs, saturating_bound..|by apply saturating_mono].
  Qed.
  Lemma old_days now b : (fifty_days <= now - b)%Z → fge (days_between now b) f_50 = true.
  Proof using.
    intros H. destruct (days_between_btw now b) as [F _]. apply fle_true; [done|done|]. rewrite v_50.
    unfold days_between in *.
    destruct (fdiv_big _ f_86400 63 (f_of_i64 _ (saturating_bound now b))) as [[F1 _] E1]; [lia|done|rewrite v_86400; lra|].
    destruct (fmax_val _ fzero F1) as [_ V1]; [done|]. rewrite V1. eapply Rle_trans; [|apply Rmax_l].
    rewrite E1. apply rnd_ge; [rp|]. rewrite v_86400.
    assert (val (f_of_Z 4320000) <= val (f_of_Z (saturating_sub now b))).
    { apply f_of_Z_le; [lia|apply small_abs, saturating_bound|]. unfold saturating_sub, i64_min, i64_max, fifty_days in *. lia. }
    destruct (f_of_Z_val 4320000) as [_ V]; [lia|]. lra.
  Qed.
  Lemma recent_days now b : (now - b < fifty_days)%Z → fge (days_between now b) f_50 = false.
  Proof using.
    intros H. destruct (days_between_btw now b) as [F _]. apply fle_false; [done|done|]. rewrite v_50.
    unfold days_between in *.
    destruct (fdiv_big _ f_86400 63 (f_of_i64 _ (saturating_bound now b))) as [[F1 _] E1]; [lia|done|rewrite v_86400; lra|].
    destruct (fmax_val _ fzero F1) as [_ V1]; [done|]. rewrite V1. apply Rmax_lub_lt; [|rewrite v_0; lra].
    assert (H2 : val (fdiv (f_of_Z 4319999) f_86400) < 50).
    { rewrite <- v_50. apply flt_true; [vm_compute; reflexivity|done|]. vm_compute. reflexivity. }
    eapply Rle_lt_trans; [|exact H2].
    destruct (fdiv_big _ f_86400 63 (f_of_i64 4319999 ltac:(lia))) as [[F2 _] E2]; [lia|done|rewrite v_86400; lra|].
    rewrite E1, E2. apply rnd_le. rewrite v_86400. unfold Rdiv. apply Rmult_le_compat_r; [lra|].
    apply f_of_Z_le; [apply small_abs, saturating_bound|lia|]. unfold saturating_sub, i64_min, i64_max, fifty_days in *. lia.
  Qed.

  Context (Hfall : power_falls powf).
  Lemma retrievability_mono ty d d' s : btw 0 (bpow radix2 63) d → btw 0 (bpow radix2 63) d' → btw (/ 2) 730 s →
    val d <= val d' → val (retrievability powf ty d' s) <= val (retrievability powf ty d s).
  Proof using Hp Hfall.
    intros Hd Hd' Hs Hle. unfold retrievability.
    destruct (curve_base powf Hp ty d s Hd Hs) as [[F1 B1] E1]. destruct (curve_base powf Hp ty d' s Hd' Hs) as [[F2 B2] E2].
    destruct (curve_factor_btw powf Hp ty) as [Fc Hc]. destruct (curve_decay_btw ty) as [Fy Hy].
    set (x := fadd f_1 (fdiv (fmul (curve_factor powf ty) d) s)) in *.
    set (x' := fadd f_1 (fdiv (fmul (curve_factor powf ty) d') s)) in *.
    assert (Hx : val x <= val x').
    { rewrite E1, E2. apply rnd_le, Rplus_le_compat_l, rnd_le. unfold Rdiv. destruct Hs as [_ Hs].
      apply Rmult_le_compat_r; [left; apply Rinv_0_lt_compat; lra|]. apply rnd_le. nra. }
    assert (N1 : fle f_1 x = true) by (apply fle_true; [done..|]; rewrite v_1; lra).
    assert (N2 : fle f_1 x' = true) by (apply fle_true; [done..|]; rewrite v_1; lra).
    assert (N3 : fle (curve_decay ty) fzero = true) by (apply fle_true; [done..|]; rewrite v_0; lra).
    destruct (proj1 (between_btw fzero _ f_1 eq_refl eq_refl) (power_negative _ Hp x _ N1 N3)) as [P1 Q1].
    destruct (proj1 (between_btw fzero _ f_1 eq_refl eq_refl) (power_negative _ Hp x' _ N2 N3)) as [P2 Q2].
    assert (Hpw : val (powf x' (curve_decay ty)) <= val (powf x (curve_decay ty))).
    { apply fle_true; [done|done|]. apply Hfall; [done| |done]. by apply fle_true. }
    destruct (fclamp_val (powf x' (curve_decay ty)) fzero f_1) as [_ ->]; [done|done|done|rewrite v_0, v_1; lra|].
    destruct (fclamp_val (powf x (curve_decay ty)) fzero f_1) as [_ ->]; [done|done|done|rewrite v_0, v_1; lra|].
    apply Rle_min_compat_r, Rle_max_compat_r. done.
  Qed.

  Lemma urgency_grows ty trials deltas now now' s s' : newest_first trials → fits trials → Forall graded trials →
    Forall small_delta deltas → (now <= now')%Z →
    score_exercise powf ty trials deltas now = Some s → score_exercise powf ty trials deltas now' = Some s' →
    fle (sc_urgency s) (sc_urgency s') = true.
  Proof using Hp Hfall.
    intros Hn Hf Hg Hd Hle H1 H2. destruct trials as [|t0 l].
    { cbn in H1, H2. simplify_eq. vm_compute. reflexivity. }
    rewrite score_unfold in H1, H2 by done.
    pose proof (parts_ok ty (t0 :: l) now t0 Hf Hg) as P1. pose proof (parts_ok ty (t0 :: l) now' t0 Hf Hg) as P2.
    unfold parts in *. cbv zeta in *. destruct P1 as ([F1 P1] & _ & _), P2 as ([F2 P2] & _ & _).
    simplify_eq. cbn [sc_urgency].
    destruct (replay_ok powf Hp ty (estimate_difficulty (t0 :: l)) (t0 :: l)) as [Hs _];
      [by apply estimate_difficulty_btw|eapply Forall_impl; [exact Hg|]; intros t; apply graded_btw|].
    fold (compute_stability powf ty (t0 :: l) (estimate_difficulty (t0 :: l))) in Hs.
    pose proof (retrievability_mono ty _ _ _ (days_between_btw now (e_ts t0)) (days_between_btw now' (e_ts t0)) Hs
      (days_mono _ _ (e_ts t0) Hle)) as Hr.
    destruct (fsub_btw f_1 _ 0 1 (eq_refl : fin f_1) F1) as [[G1 _] E1]; [rp|rp|rewrite v_1; lra|].
    destruct (fsub_btw f_1 _ 0 1 (eq_refl : fin f_1) F2) as [[G2 _] E2]; [rp|rp|rewrite v_1; lra|].
    apply fle_true; [done|done|]. rewrite E1, E2. apply rnd_le. unfold compute_stability in *. lra.
  Qed.

  Lemma score_fades ty trials deltas now now' s s' : newest_first trials → fits trials → Forall graded trials →
    Forall small_delta deltas → Forall (λ d : trial, fle fzero (e_val d) = true) deltas →
    (now <= now')%Z → recent trials now' ∨ old trials now →
    score_exercise powf ty trials deltas now = Some s → score_exercise powf ty trials deltas now' = Some s' →
    fle (sc_value s') (sc_value s) = true.
  Proof using Hp Hfall.
    intros Hn Hf Hg Hd Hpos Hle Hside H1 H2. destruct trials as [|t0 l].
    { cbn in H1, H2. simplify_eq. vm_compute. reflexivity. }
    rewrite score_unfold in H1, H2 by done.
    pose proof (parts_ok ty (t0 :: l) now t0 Hf Hg) as P1. pose proof (parts_ok ty (t0 :: l) now' t0 Hf Hg) as P2.
    unfold parts in *. cbv zeta in *.
    destruct P1 as (R1 & W1 & E1), P2 as (R2 & _ & E2).
    destruct (replay_ok powf Hp ty (estimate_difficulty (t0 :: l)) (t0 :: l)) as [Hs _];
      [by apply estimate_difficulty_btw|eapply Forall_impl; [exact Hg|]; intros t; apply graded_btw|].
    fold (compute_stability powf ty (t0 :: l) (estimate_difficulty (t0 :: l))) in Hs.
    pose proof (retrievability_mono ty _ _ _ (days_between_btw now (e_ts t0)) (days_between_btw now' (e_ts t0)) Hs
      (days_mono _ _ (e_ts t0) Hle)) as Hr.
    set (st := compute_stability powf ty (t0 :: l) (estimate_difficulty (t0 :: l))) in *.
    set (r := retrievability powf ty (days_between now (e_ts t0)) st) in *.
    set (r' := retrievability powf ty (days_between now' (e_ts t0)) st) in *.
    set (w := compute_weighted_avg powf (t0 :: l)) in *.
    set (eff := old_good_floor r w (days_between now (e_ts t0)) (length (t0 :: l))) in *.
    set (eff' := old_good_floor r' w (days_between now' (e_ts t0)) (length (t0 :: l))) in *.
    assert (Heff : val eff' <= val eff).
    { assert (Hcase : fge (days_between now (e_ts t0)) f_50 = fge (days_between now' (e_ts t0)) f_50).
      { destruct Hside as [(t & [= <-] & H)|(t & [= <-] & H)].
        - rewrite !recent_days by (done || lia). done.
        - rewrite !old_days by (done || lia). done. }
      unfold eff, eff', old_good_floor. rewrite Hcase. destruct (_ && _ && _); [|done].
      destruct R1 as [F1 _], R2 as [F2 _].
      destruct (fmax_val r f_0_75 F1) as [_ ->]; [done|]. destruct (fmax_val r' f_0_75 F2) as [_ ->]; [done|].
      by apply Rle_max_compat_r. }
    destruct (delta_btw deltas eff Hd E1) as [D1 _]. destruct (delta_btw deltas eff' Hd E2) as [D2 _].
    destruct (sum_btw eff w _ E1 W1 D1) as [G1 V1]. destruct (sum_btw eff' w _ E2 W1 D2) as [G2 V2].
    destruct E1 as [FE1 HE1], E2 as [FE2 HE2], W1 as [FW HW].
    assert (Hdelta : val (compute_delta powf deltas eff') <= val (compute_delta powf deltas eff)).
    { unfold compute_delta. destruct (Nat.ltb (length deltas) 2); [lra|].
      destruct (weighted_avg_btw powf Hp deltas) as [[Fa Ha] Pa].
      { eapply Forall_impl; [exact Hd|]. intros t. apply small_delta_btw. }
      assert (0 <= val (compute_weighted_avg powf deltas)).
      { apply Pa. apply Forall_lookup_2. intros i d Hi. eapply Forall_lookup_1 in Hpos; [|exact Hi].
        eapply Forall_lookup_1 in Hd; [|exact Hi]. apply small_delta_btw in Hd as [Fd _].
        apply fle_true in Hpos; [|done|done]. by rewrite v_0 in Hpos. }
      rewrite (bp 32 4294967296) in * by lia.
      assert (R32 : repr 4294967296) by (rewrite <- (bp 32) by lia; rp).
      set (a := compute_weighted_avg powf deltas) in *.
      destruct (fmul_btw a eff 0 4294967296) as [[K1 B1] Q1]; [done|done|rp|done|split; nra|].
      destruct (fmul_btw a eff' 0 4294967296) as [[K2 B2] Q2]; [done|done|rp|done|split; nra|].
      destruct (fdiv_btw (fmul a eff) f_4 0 4294967296) as [_ ->]; [done|done|rewrite v_4; lra|rp|done|rewrite v_4; lra|].
      destruct (fdiv_btw (fmul a eff') f_4 0 4294967296) as [_ ->]; [done|done|rewrite v_4; lra|rp|done|rewrite v_4; lra|].
      apply rnd_le. rewrite v_4, Q1, Q2. assert (rnd (val a * val eff') <= rnd (val a * val eff)); [|lra].
      apply rnd_le. nra. }
    simplify_eq. cbn [sc_value].
    destruct (fclamp_val _ fzero f_5 G1) as [C1 U1]; [done|done|rewrite v_0, v_5; lra|].
    destruct (fclamp_val _ fzero f_5 G2) as [C2 U2]; [done|done|rewrite v_0, v_5; lra|].
    apply fle_true; [done|done|]. rewrite U1, U2. apply Rle_min_compat_r, Rle_max_compat_r.
    rewrite V1, V2. apply rnd_le. apply Rplus_le_compat; [|done]. apply rnd_le. nra.
  Qed.
End scores.
