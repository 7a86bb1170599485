(** What trials do to the urgency of an exercise. *)
From stdpp Require Import list strings.
From Coq Require Import ZArith Reals Lra Lia.
From Flocq Require Import Core.Core IEEE754.BinarySingleNaN.
From Verif Require Import F32 F32Real F32More Stores Scorer ScorerSpec ScorerProofs ScoreProofs PowerSample AverageProofs ScoreSample CurveProofs MemoryProofs.
Local Open Scope R_scope.

Section urgency.
  Context (powf : f32 → f32 → f32) (Hp : power_ok powf) (Hfall : power_falls powf).

  (** What is remembered longer is remembered better. *)
  Lemma retrievability_stable ty d s s' : btw 0 (bpow radix2 63) d → btw (/ 2) 730 s → btw (/ 2) 730 s' → val s <= val s' →
    val (retrievability powf ty d s) <= val (retrievability powf ty d s').
  Proof using Hp Hfall.
    intros Hd Hs Hs' Hle. unfold retrievability.
    destruct (curve_base powf Hp ty d s Hd Hs) as [[F1 B1] E1]. destruct (curve_base powf Hp ty d s' Hd Hs') as [[F2 B2] E2].
    destruct (curve_factor_btw powf Hp ty) as [Fc Hc]. destruct (curve_decay_btw ty) as [Fy Hy].
    set (x := fadd f_1 (fdiv (fmul (curve_factor powf ty) d) s)) in *.
    set (x' := fadd f_1 (fdiv (fmul (curve_factor powf ty) d) s')) in *.
    assert (Hx : val x' <= val x).
    { rewrite E1, E2. apply rnd_le, Rplus_le_compat_l, rnd_le. unfold Rdiv. destruct Hs as [_ Hs], Hd as [_ Hd].
      apply Rmult_le_compat_l; [apply rnd_pos; nra|]. apply Rinv_le_contravar; lra. }
    assert (N1 : fle f_1 x = true) by (apply fle_true; [done..|]; rewrite v_1; lra).
    assert (N2 : fle f_1 x' = true) by (apply fle_true; [done..|]; rewrite v_1; lra).
    assert (N3 : fle (curve_decay ty) fzero = true) by (apply fle_true; [done..|]; rewrite v_0; lra).
    destruct (proj1 (between_btw fzero _ f_1 eq_refl eq_refl) (power_negative _ Hp x _ N1 N3)) as [P1 Q1].
    destruct (proj1 (between_btw fzero _ f_1 eq_refl eq_refl) (power_negative _ Hp x' _ N2 N3)) as [P2 Q2].
    assert (Hpw : val (powf x (curve_decay ty)) <= val (powf x' (curve_decay ty))).
    { apply fle_true; [done|done|]. apply Hfall; [done| |done]. by apply fle_true. }
    destruct (fclamp_val (powf x' (curve_decay ty)) fzero f_1) as [_ ->]; [done|done|done|rewrite v_0, v_1; lra|].
    destruct (fclamp_val (powf x (curve_decay ty)) fzero f_1) as [_ ->]; [done|done|done|rewrite v_0, v_1; lra|].
    apply Rle_min_compat_r, Rle_max_compat_r. done.
  Qed.

  Lemma no_failures trials : fits trials → trials ≠ [] → Forall (λ t : trial, between f_3 (e_val t) f_5) trials →
    estimate_difficulty trials = f_1.
  Proof using.
    intros Hf Hn HF. destruct trials as [|t0 l]; [done|]. unfold estimate_difficulty. set (trials := t0 :: l) in *.
    assert (E : List.filter (λ t : trial, flt (e_val t) f_3) trials = []).
    { clearbody trials. clear -HF. induction HF as [|t l Ht _ IH]; [done|]. cbn [List.filter].
      assert (Hx : btw 3 5 (e_val t)) by (by apply (between_f f_3 _ f_5 3 5 eq_refl eq_refl v_3 v_5)). destruct Hx as [Fx Hx].
      assert (E : flt (e_val t) f_3 = false) by (apply flt_false; [done|done|]; rewrite v_3; lra). by rewrite E. }
    rewrite E. cbn [length]. cbv zeta. change (f_of_nat 0) with (f_of_Z 0). destruct (f_of_Z_val 0) as [F0 V0]; [lia|].
    destruct (f_of_nat_u64 (length trials)) as [F2 H2]; [exact Hf|].
    assert (H4 : 1 <= val (f_of_nat (length trials))).
    { replace 1 with (val (f_of_Z 1)) by (destruct (f_of_Z_val 1) as [_ ->]; [lia|lra]). unfold fits in Hf.
      apply f_of_Z_le; [lia|lia|]. unfold trials. cbn [length]. lia. }
    set (n := f_of_nat (length trials)) in *. clearbody n.
    destruct (fdiv_btw (f_of_Z 0) n 0 0) as [[F5 H5] _]; [done|done|lra|rp|rp|rewrite V0; unfold Rdiv; lra|].
    destruct (fmul_btw (fdiv (f_of_Z 0) n) f_9 0 0) as [[F6 H6] _]; [done|done|rp|rp|rewrite v_9; split; nra|].
    set (x := fmul _ f_9) in *.
    destruct (fadd_btw f_1 x 1 1) as [[F7 H7] _]; [done|done|rp|rp|rewrite v_1; lra|].
    destruct (fclamp_val (fadd f_1 x) f_1 f_10) as [F8 V8]; [done|done|done|rewrite v_1, v_10; lra|].
    apply same_float; [done|done|rewrite V8, v_1, v_10, Rmax_left, Rmin_left by lra; lra|].
    rewrite V8, v_1, v_10, Rmax_left, Rmin_left by lra. lra.
  Qed.

  Lemma good_graded (t : trial) : between f_3 (e_val t) f_5 → graded t.
  Proof using.
    intros Ht. assert (Hx : btw 3 5 (e_val t)) by (by apply (between_f f_3 _ f_5 3 5 eq_refl eq_refl v_3 v_5)).
    apply (between_f f_1 _ f_5 1 5 eq_refl eq_refl v_1 v_5). eapply btw_weaken; [exact Hx|lra|lra].
  Qed.

  Lemma stability_urgency ty trials trials' t0 l0 t1 l1 deltas now now' s s' : trials = t0 :: l0 → trials' = t1 :: l1 →
    fits trials → fits trials' → Forall graded trials → Forall graded trials' → newest_first trials → newest_first trials' →
    (now - e_ts t0 = now' - e_ts t1)%Z →
    fle (compute_stability powf ty trials (estimate_difficulty trials)) (compute_stability powf ty trials' (estimate_difficulty trials')) = true →
    score_exercise powf ty trials deltas now = Some s → score_exercise powf ty trials' deltas now' = Some s' →
    fle (sc_urgency s') (sc_urgency s) = true.
  Proof using Hp Hfall.
    intros -> -> Hf Hf' Hg Hg' Hn Hn' Ht Hle H1 H2. rewrite score_unfold in H1, H2 by done.
    pose proof (parts_ok powf Hp ty (t0 :: l0) now t0 Hf Hg) as P1. pose proof (parts_ok powf Hp ty (t1 :: l1) now' t1 Hf' Hg') as P2.
    unfold parts in *. cbv zeta in *. destruct P1 as ([F1 P1] & _ & _), P2 as ([F2 P2] & _ & _).
    simplify_eq. cbn [sc_urgency].
    destruct (replay_btw powf Hp ty (estimate_difficulty (t0 :: l0)) (t0 :: l0)) as [Hs _]; [by apply estimate_difficulty_btw|done|].
    destruct (replay_btw powf Hp ty (estimate_difficulty (t1 :: l1)) (t1 :: l1)) as [Hs' _]; [by apply estimate_difficulty_btw|done|].
    assert (Ed : days_between now' (e_ts t1) = days_between now (e_ts t0)) by (unfold days_between, saturating_sub; by rewrite Ht).
    rewrite Ed in *. apply fle_true in Hle; [|apply Hs|apply Hs'].
    pose proof (retrievability_stable ty _ _ _ (days_between_btw now (e_ts t0)) Hs Hs' Hle) as Hr.
    destruct (fsub_btw f_1 _ 0 1 (eq_refl : fin f_1) F1) as [[G1 _] E1]; [rp|rp|rewrite v_1; lra|].
    destruct (fsub_btw f_1 _ 0 1 (eq_refl : fin f_1) F2) as [[G2 _] E2]; [rp|rp|rewrite v_1; lra|].
    apply fle_true; [done|done|]. rewrite E1, E2. apply rnd_le. lra.
  Qed.

  Lemma practice_calms ty t t0 l deltas now now' s s' : newest_first (t :: t0 :: l) → fits (t :: t0 :: l) →
    Forall (λ t : trial, between f_3 (e_val t) f_5) (t :: t0 :: l) → (now - e_ts t0 = now' - e_ts t)%Z →
    score_exercise powf ty (t0 :: l) deltas now = Some s → score_exercise powf ty (t :: t0 :: l) deltas now' = Some s' →
    fle (sc_urgency s') (sc_urgency s) = true.
  Proof using Hp Hfall.
    intros Hn Hf HF Ht. assert (HF' : Forall (λ t : trial, between f_3 (e_val t) f_5) (t0 :: l)) by (by inversion HF).
    assert (Hf' : fits (t0 :: l)) by (unfold fits in *; cbn [length] in *; lia).
    apply (stability_urgency ty (t0 :: l) (t :: t0 :: l) t0 l t (t0 :: l) deltas); [done|done|done|done| | | |done|done|].
    - eapply Forall_impl; [exact HF'|]. apply good_graded.
    - eapply Forall_impl; [exact HF|]. apply good_graded.
    - intros i j a b Hi Hj Hij. by apply (Hn (S i) (S j) a b); [..|lia].
    - rewrite !no_failures by done. apply good_trial; [done|done| |by inversion HF].
      eapply Forall_impl; [exact HF'|]. apply good_graded.
  Qed.
End urgency.
