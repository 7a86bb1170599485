(** Proofs about the memory of an exercise: what a trial does to its stability and difficulty. *)
From stdpp Require Import list.
From Coq Require Import ZArith Reals Lra Lia.
From Flocq Require Import Core.Core IEEE754.BinarySingleNaN.
From Verif Require Import F32 F32Real F32More Stores Scorer ScorerSpec ScorerProofs ScoreProofs.
Local Open Scope R_scope.

(** ** The rounded formulas *)
Definition performance (x : R) : R := rnd (rnd (rnd (x - 1) / 4) - / 2).
Definition ease (d : R) : R := rnd (rnd (11 - d) / 5).
Definition growth_of (p e g m : R) : R := rnd (rnd (rnd (rnd (5 / 2 * p) * e) * g) * m).
Definition limited (x : R) : R := Rmin (Rmax x (/ 2)) 730.
Definition grown (s gr : R) : R := limited (rnd (s * rnd (1 + gr))).

Lemma performance_mono x y : x <= y → performance x <= performance y.
Proof. intros H. unfold performance. apply rnd_le. assert (rnd (rnd (x - 1) / 4) <= rnd (rnd (y - 1) / 4)); [|lra]. apply rnd_le.
  assert (rnd (x - 1) <= rnd (y - 1)); [|lra]. apply rnd_le. lra. Qed.
Lemma rnd_Z z : (Z.abs z <= 16777216)%Z → rnd (IZR z) = IZR z.
Proof. intros H. by apply rnd_repr, repr_Z. Qed.
Lemma rnd_0 : rnd 0 = 0. Proof. by apply (rnd_Z 0). Qed.
Lemma rnd_half : rnd (/ 2) = / 2. Proof. apply rnd_repr, repr_half. Qed.
Lemma performance_3 : performance 3 = 0.
Proof.
  unfold performance. replace (3 - 1) with 2 by lra. rewrite (rnd_Z 2) by lia. replace (2 / 4) with (/ 2) by lra.
  rewrite rnd_half. replace (/ 2 - / 2) with 0 by lra. apply rnd_0.
Qed.
Lemma rnd_pos r : 0 <= r → 0 <= rnd r. Proof. intros H. apply rnd_ge; [rp|done]. Qed.
Lemma rnd_neg r : r <= 0 → rnd r <= 0. Proof. intros H. apply rnd_le_repr; [rp|done]. Qed.

Lemma growth_pos p e g m : 0 <= p → 0 <= e → 0 <= g → 0 <= m → 0 <= growth_of p e g m.
Proof.
  intros. unfold growth_of. apply rnd_pos, Rmult_le_pos; [|done]. apply rnd_pos, Rmult_le_pos; [|done].
  apply rnd_pos, Rmult_le_pos; [|done]. apply rnd_pos. lra.
Qed.
Lemma growth_neg p e g m : p <= 0 → 0 <= e → 0 <= g → 0 <= m → growth_of p e g m <= 0.
Proof.
  intros Hp He Hg Hm. unfold growth_of. assert (H1 : rnd (5 / 2 * p) <= 0) by (apply rnd_neg; lra).
  assert (H2 : rnd (rnd (5 / 2 * p) * e) <= 0) by (apply rnd_neg; nra).
  assert (H3 : rnd (rnd (rnd (5 / 2 * p) * e) * g) <= 0) by (apply rnd_neg; nra). apply rnd_neg. nra.
Qed.
Lemma growth_mono_p p p' e g m : p <= p' → 0 <= e → 0 <= g → 0 <= m → growth_of p e g m <= growth_of p' e g m.
Proof.
  intros Hp He Hg Hm. unfold growth_of. apply rnd_le, Rmult_le_compat_r; [done|]. apply rnd_le, Rmult_le_compat_r; [done|].
  apply rnd_le, Rmult_le_compat_r; [done|]. apply rnd_le. lra.
Qed.
Lemma growth_mono_g p e g g' m m' : 0 <= p → 0 <= e → 0 <= g <= g' → 0 <= m <= m' → growth_of p e g m <= growth_of p e g' m'.
Proof.
  intros Hp He Hg Hm. unfold growth_of. set (a := rnd (rnd (5 / 2 * p) * e)).
  assert (Ha : 0 <= a) by (apply rnd_pos, Rmult_le_pos; [|done]; apply rnd_pos; lra).
  apply rnd_le. apply Rmult_le_compat; [apply rnd_pos, Rmult_le_pos; lra|lra| |lra]. apply rnd_le. apply Rmult_le_compat_l; lra.
Qed.
Lemma limited_mono x y : x <= y → limited x <= limited y.
Proof. intros H. unfold limited. by apply Rle_min_compat_r, Rle_max_compat_r. Qed.
Lemma limited_id x : / 2 <= x <= 730 → limited x = x.
Proof. intros H. unfold limited. rewrite Rmax_left by lra. by rewrite Rmin_left by lra. Qed.
Lemma grown_mono s a b : 0 <= s → a <= b → grown s a <= grown s b.
Proof. intros Hs H. unfold grown. apply limited_mono, rnd_le, Rmult_le_compat_l; [done|]. apply rnd_le. lra. Qed.
Lemma grown_0 s : / 2 <= val s <= 730 → grown (val s) 0 = val s.
Proof.
  intros H. unfold grown. replace (1 + 0) with 1 by lra. rewrite (rnd_Z 1) by lia. rewrite Rmult_1_r, rnd_val. by apply limited_id.
Qed.

Section memory.
  Context (powf : f32 → f32 → f32) (Hp : power_ok powf).

  Lemma apply_stability_val ty s d x days : btw (/ 2) 730 s → btw 1 10 d → btw 1 5 x → btw 0 (bpow radix2 63) days →
    ∃ p : f32, fin p ∧ val p = performance (val x) ∧ 0 <= ease (val d) ∧
    fin (apply_stability powf ty s d x days) ∧
    val (apply_stability powf ty s d x days) =
      grown (val s) (growth_of (performance (val x)) (ease (val d)) (val (spacing_gain powf ty days s p)) (Rmin (val days) 1)).
  Proof using Hp.
    intros Hs [Fd Hd] [Fx Hx] Hdays. unfold apply_stability. cbv zeta. destruct grade_range_val as [Fg Hg].
    destruct (fsub_btw x f_1 0 4) as [[F1 H1] E1]; [done|done|rp|rp|rewrite v_1; lra|].
    destruct (fdiv_btw (fsub x f_1) grade_range 0 1) as [[F2 H2] E2]; [done|done|lra|rp|rp|rewrite Hg; lra|].
    destruct (fsub_btw (fdiv (fsub x f_1) grade_range) f_0_5 (- / 2) (/ 2)) as [[F3 H3] E3];
      [done|done|rp|rp|rewrite v_0_5; lra|].
    set (p := fsub (fdiv (fsub x f_1) grade_range) f_0_5) in *.
    destruct (fsub_btw f_11 d 1 10) as [[F4 H4] E4]; [done|done|rp|rp|rewrite v_11; lra|].
    destruct (fdiv_btw (fsub f_11 d) f_5 0 2) as [[F5 H5] E5]; [done|done|rewrite v_5; lra|rp|rp|rewrite v_5; lra|].
    set (e := fdiv (fsub f_11 d) f_5) in *.
    destruct (spacing_gain_btw powf Hp ty days s p Hdays Hs) as [F6 H6]. exists p. set (g := spacing_gain powf ty days s p) in *.
    destruct Hdays as [Fy Hy].
    destruct (fmin_val days f_1) as [F7 H7]; [done|done|].
    assert (H7' : 0 <= val (fmin days f_1) <= 1).
    { rewrite H7, v_1. unfold Rmin. destruct (Rle_dec (val days) 1); lra. }
    destruct (fmul_btw f_2_5 p (-2) 2) as [[F8 H8] E8]; [done|done|rp|rp|rewrite v_2_5; split; nra|].
    destruct (fmul_btw (fmul f_2_5 p) e (-4) 4) as [[F9 H9] E9]; [done|done|rp|rp|split; nra|].
    destruct (fmul_btw (fmul (fmul f_2_5 p) e) g (-8) 8) as [[F10 H10] E10]; [done|done|rp|rp|split; nra|].
    destruct (fmul_btw (fmul (fmul (fmul f_2_5 p) e) g) (fmin days f_1) (-8) 8) as [[F11 H11] E11];
      [done|done|rp|rp|split; nra|].
    set (growth := fmul _ (fmin days f_1)) in *.
    destruct (fadd_btw f_1 growth (-7) 9) as [[F12 H12] E12]; [done|done|rp|rp|rewrite v_1; lra|].
    destruct Hs as [Fs Hs].
    destruct (fmul_btw s (fadd f_1 growth) (-10000) 10000) as [[F13 H13] E13]; [done|done|rp|rp|split; nra|].
    assert (Ep : val p = performance (val x)) by (unfold performance; by rewrite E3, E2, E1, v_1, Hg, v_0_5).
    assert (Ee : val e = ease (val d)) by (unfold ease; by rewrite E5, E4, v_11, v_5).
    split; [done|]. split; [done|]. split; [rewrite <-Ee; lra|].
    destruct (fclamp_val (fmul s (fadd f_1 growth)) f_0_5 f_730) as [F14 E14]; [done|done|done|rewrite v_0_5, v_730; lra|].
    split; [done|]. rewrite E14, v_0_5, v_730, E13, E12, E11, E10, E9, E8, v_1, v_2_5, Ee, Ep, H7, v_1. done.
  Qed.

  Lemma gain_pos ty days s p : btw (/ 2) 730 s → btw 0 (bpow radix2 63) days → 0 <= val (spacing_gain powf ty days s p).
  Proof using Hp. intros Hs Hd. destruct (spacing_gain_btw powf Hp ty days s p Hd Hs). lra. Qed.
  Lemma damping_pos days : btw 0 (bpow radix2 63) days → 0 <= Rmin (val days) 1.
  Proof using. intros [_ H]. unfold Rmin. destruct (Rle_dec _ _); lra. Qed.

  Lemma apply_good ty s d x days : btw (/ 2) 730 s → btw 1 10 d → btw 1 5 x → btw 0 (bpow radix2 63) days → 3 <= val x →
    val s <= val (apply_stability powf ty s d x days).
  Proof using Hp.
    intros Hs Hd Hx Hy H3. destruct (apply_stability_val ty s d x days Hs Hd Hx Hy) as (p & _ & _ & He & _ & ->).
    rewrite <-(grown_0 s) at 1 by apply Hs. apply grown_mono; [destruct Hs; lra|].
    apply growth_pos; [|done|by apply gain_pos|by apply damping_pos]. rewrite <-performance_3. by apply performance_mono.
  Qed.
  Lemma apply_poor ty s d x days : btw (/ 2) 730 s → btw 1 10 d → btw 1 5 x → btw 0 (bpow radix2 63) days → val x <= 3 →
    val (apply_stability powf ty s d x days) <= val s.
  Proof using Hp.
    intros Hs Hd Hx Hy H3. destruct (apply_stability_val ty s d x days Hs Hd Hx Hy) as (p & _ & _ & He & _ & ->).
    rewrite <-(grown_0 s) at 2 by apply Hs. apply grown_mono; [destruct Hs; lra|].
    apply growth_neg; [|done|by apply gain_pos|by apply damping_pos]. rewrite <-performance_3. by apply performance_mono.
  Qed.

  (** The gain does not depend on the grade except for its sign. *)
  Lemma gain_same ty days s p p' : fin p → fin p' → 0 < val p → 0 < val p' → spacing_gain powf ty days s p = spacing_gain powf ty days s p'.
  Proof using.
    intros F F' H H'. unfold spacing_gain.
    assert (E : fle p fzero = false) by (apply fle_false; [done|done|by rewrite v_0]).
    assert (E' : fle p' fzero = false) by (apply fle_false; [done|done|by rewrite v_0]). by rewrite E, E'.
  Qed.
  Lemma gain_one ty days s p : fin p → val p <= 0 → val (spacing_gain powf ty days s p) = 1.
  Proof using.
    intros F H. unfold spacing_gain. assert (E : fle p fzero = true) by (apply fle_true; [done|done|by rewrite v_0]). rewrite E. apply v_1.
  Qed.
  Lemma apply_better ty s d x x' days : btw (/ 2) 730 s → btw 1 10 d → btw 1 5 x → btw 1 5 x' → btw 0 (bpow radix2 63) days → val x <= val x' →
    val (apply_stability powf ty s d x days) <= val (apply_stability powf ty s d x' days).
  Proof using Hp.
    intros Hs Hd Hx Hx' Hy H. pose proof (performance_mono _ _ H) as Hpp.
    destruct (Rle_lt_dec (performance (val x)) 0) as [Hn|Hpos].
    - destruct (Rle_lt_dec (performance (val x')) 0) as [Hn'|Hpos'].
      + destruct (apply_stability_val ty s d x days Hs Hd Hx Hy) as (p & Fp & Ep & He & _ & ->).
        destruct (apply_stability_val ty s d x' days Hs Hd Hx' Hy) as (p' & Fp' & Ep' & _ & _ & ->).
        rewrite !gain_one by (done || lra). apply grown_mono; [destruct Hs; lra|]. apply growth_mono_p; [done|done|lra|by apply damping_pos].
      + assert (L1 : val (apply_stability powf ty s d x days) <= val s).
        { destruct (apply_stability_val ty s d x days Hs Hd Hx Hy) as (p & Fp & Ep & He & _ & ->).
          rewrite <-(grown_0 s) at 2 by apply Hs. apply grown_mono; [destruct Hs; lra|].
          apply growth_neg; [done|done|by apply gain_pos|by apply damping_pos]. }
        assert (L2 : val s <= val (apply_stability powf ty s d x' days)).
        { destruct (apply_stability_val ty s d x' days Hs Hd Hx' Hy) as (p & Fp & Ep & He & _ & ->).
          rewrite <-(grown_0 s) at 1 by apply Hs. apply grown_mono; [destruct Hs; lra|].
          apply growth_pos; [lra|done|by apply gain_pos|by apply damping_pos]. }
        lra.
    - destruct (apply_stability_val ty s d x days Hs Hd Hx Hy) as (p & Fp & Ep & He & _ & ->).
      destruct (apply_stability_val ty s d x' days Hs Hd Hx' Hy) as (p' & Fp' & Ep' & _ & _ & ->).
      rewrite (gain_same ty days s p p') by (done || lra). apply grown_mono; [destruct Hs; lra|].
      apply growth_mono_p; [done|done|by apply gain_pos|by apply damping_pos].
  Qed.

  Lemma difficulty_val d b x : btw 1 10 d → btw 1 10 b → btw 1 5 x →
    val (update_difficulty d b x) = Rmin (Rmax (rnd (rnd (val f_0_16 * val b) +
      rnd (val (fsub f_1 f_0_16) * Rmin (Rmax (rnd (val d + rnd (rnd (rnd (3 - val x) / 4) * val f_1_05))) 1) 10))) 1) 10 ∧
    0 <= val (fsub f_1 f_0_16).
  Proof using.
    intros [Fd Hd] [Fb Hb] [Fs Hs]. unfold update_difficulty. cbv zeta. destruct grade_range_val as [Fg Hg].
    pose proof v_1_05 as H105. pose proof v_0_16 as H16.
    destruct (fsub_btw f_3 x (-2) 2) as [[F1 H1] E1]; [done|done|rp|rp|rewrite v_3; lra|].
    destruct (fdiv_btw (fsub f_3 x) grade_range (-1) 1) as [[F2 H2] E2]; [done|done|lra|rp|rp|rewrite Hg; lra|].
    destruct (fmul_btw (fdiv (fsub f_3 x) grade_range) f_1_05 (-2) 2) as [[F3 H3] E3]; [done|done|rp|rp|split; nra|].
    destruct (fadd_btw d (fmul (fdiv (fsub f_3 x) grade_range) f_1_05) (-1) 12) as [[F4 H4] E4]; [done|done|rp|rp|lra|].
    set (y := fadd d _) in *.
    destruct (fclamp_val y f_1 f_10) as [F5 E5]; [done|done|done|rewrite v_1, v_10; lra|].
    destruct (fclamp_btw y f_1 f_10) as [_ H5]; [done|done|done|rewrite v_1, v_10; lra|]. rewrite v_1, v_10 in H5.
    destruct (fmul_btw f_0_16 b 0 10) as [[F6 H6] E6]; [done|done|rp|rp|split; nra|].
    destruct (fsub_btw f_1 f_0_16 0 1) as [[F7 H7] E7]; [done|done|rp|rp|rewrite v_1; lra|].
    destruct (fmul_btw (fsub f_1 f_0_16) (fclamp y f_1 f_10) 0 10) as [[F8 H8] E8]; [done|done|rp|rp|split; nra|].
    destruct (fadd_btw (fmul f_0_16 b) (fmul (fsub f_1 f_0_16) (fclamp y f_1 f_10)) 0 20) as [[F9 H9] E9];
      [done|done|rp|rp|lra|].
    set (z := fadd (fmul f_0_16 b) _) in *.
    destruct (fclamp_val z f_1 f_10) as [F10 E10]; [done|done|done|rewrite v_1, v_10; lra|].
    split; [|lra]. rewrite E10, E9, E8, E6, E5, E4, E3, E2, E1, v_3, Hg, v_1, v_10. done.
  Qed.
  Lemma difficulty_better d b x x' : btw 1 10 d → btw 1 10 b → btw 1 5 x → btw 1 5 x' → val x <= val x' →
    val (update_difficulty d b x') <= val (update_difficulty d b x).
  Proof using.
    intros Hd Hb Hx Hx' H. destruct (difficulty_val d b x Hd Hb Hx) as [-> H0]. destruct (difficulty_val d b x' Hd Hb Hx') as [-> _].
    pose proof v_1_05 as H105.
    apply Rle_min_compat_r, Rle_max_compat_r, rnd_le, Rplus_le_compat_l, rnd_le, Rmult_le_compat_l; [done|].
    apply Rle_min_compat_r, Rle_max_compat_r, rnd_le, Rplus_le_compat_l, rnd_le, Rmult_le_compat_r; [lra|].
    apply rnd_le. assert (rnd (3 - val x') <= rnd (3 - val x)); [|lra]. apply rnd_le. lra.
  Qed.

  (** ** One more trial *)
  Lemma replay_cons ty base t l : replay powf ty base (t :: l) = replay_step powf ty (replay powf ty base l) t.
  Proof using. unfold replay. cbn [rev]. by rewrite fold_left_app. Qed.
  Lemma one_more ty base t l : btw 1 10 base → Forall graded l → graded t →
    compute_stability powf ty (t :: l) base = compute_stability powf ty l base ∨
    ∃ ts, compute_stability powf ty (t :: l) base =
      apply_stability powf ty (compute_stability powf ty l base) (m_difficulty (replay powf ty base l)) (e_val t) (days_between (e_ts t) ts).
  Proof using.
    intros Hb Hl Ht. unfold compute_stability. rewrite replay_cons. unfold replay_step.
    destruct (m_previous (replay powf ty base l)) as [ts|]; [right; by exists ts|by left].
  Qed.
  Lemma replay_btw ty base l : btw 1 10 base → Forall graded l →
    btw (/ 2) 730 (compute_stability powf ty l base) ∧ btw 1 10 (m_difficulty (replay powf ty base l)).
  Proof using Hp.
    intros Hb Hl. apply replay_ok; [done|done|]. eapply Forall_impl; [exact Hl|]. intros t. apply graded_btw.
  Qed.
  Lemma base_btw base : between f_1 base f_10 → btw 1 10 base.
  Proof using. by apply between_f; [done|done|apply v_1|apply v_10]. Qed.

  Lemma good_trial ty base t l : between f_1 base f_10 → Forall graded l → between f_3 (e_val t) f_5 →
    fle (compute_stability powf ty l base) (compute_stability powf ty (t :: l) base) = true.
  Proof using Hp.
    intros Hb%base_btw Hl Ht. assert (Hx : btw 3 5 (e_val t)) by (by apply (between_f f_3 _ f_5 3 5 eq_refl eq_refl v_3 v_5)).
    assert (Hg : btw 1 5 (e_val t)) by (eapply btw_weaken; [exact Hx|lra|lra]).
    destruct (replay_btw ty base l Hb Hl) as [Bs Bd].
    destruct (one_more ty base t l Hb Hl) as [E|[ts E]]; [by apply graded_btw|rewrite E..].
    - apply fle_true; [apply Bs|apply Bs|lra].
    - pose proof (days_between_btw (e_ts t) ts) as Hd.
      apply fle_true; [apply Bs|apply (apply_stability_btw powf Hp); done|]. apply apply_good; try done. apply Hx.
  Qed.
  Lemma poor_trial ty base t l : between f_1 base f_10 → Forall graded l → between f_1 (e_val t) f_3 →
    fle (compute_stability powf ty (t :: l) base) (compute_stability powf ty l base) = true.
  Proof using Hp.
    intros Hb%base_btw Hl Ht. assert (Hx : btw 1 3 (e_val t)) by (by apply (between_f f_1 _ f_3 1 3 eq_refl eq_refl v_1 v_3)).
    assert (Hg : btw 1 5 (e_val t)) by (eapply btw_weaken; [exact Hx|lra|lra]).
    destruct (replay_btw ty base l Hb Hl) as [Bs Bd].
    destruct (one_more ty base t l Hb Hl) as [E|[ts E]]; [by apply graded_btw|rewrite E..].
    - apply fle_true; [apply Bs|apply Bs|lra].
    - pose proof (days_between_btw (e_ts t) ts) as Hd.
      apply fle_true; [apply (apply_stability_btw powf Hp); done|apply Bs|]. apply apply_poor; try done. apply Hx.
  Qed.
  Lemma better_trial ty base t t' l : between f_1 base f_10 → Forall graded l → graded t → graded t' → e_ts t = e_ts t' →
    fle (e_val t) (e_val t') = true →
    fle (compute_stability powf ty (t :: l) base) (compute_stability powf ty (t' :: l) base) = true ∧
    fle (m_difficulty (replay powf ty base (t' :: l))) (m_difficulty (replay powf ty base (t :: l))) = true.
  Proof using Hp.
    intros Hb%base_btw Hl Ht%graded_btw Ht'%graded_btw Ets Hle. destruct (replay_btw ty base l Hb Hl) as [Bs Bd].
    apply fle_true in Hle; [|apply Ht|apply Ht'].
    unfold compute_stability in *. rewrite !replay_cons. unfold replay_step. rewrite <-Ets.
    destruct (m_previous (replay powf ty base l)) as [ts|]; cbn [m_stability m_difficulty].
    - pose proof (days_between_btw (e_ts t) ts) as Hd. assert (B5 : btw 1 10 f_5) by (split; [done|rewrite v_5; lra]). split.
      + apply fle_true; [by apply (apply_stability_btw powf Hp)|by apply (apply_stability_btw powf Hp)|by apply apply_better].
      + apply fle_true; [by apply update_difficulty_btw|by apply update_difficulty_btw|by apply difficulty_better].
    - split; (apply fle_true; [apply Bs || apply Bd..|lra]).
  Qed.

  (** ** Spacing *)
  Context (Hfall : power_falls powf).
  Lemma gain_mono ty d d' s p : btw 0 (bpow radix2 63) d → btw 0 (bpow radix2 63) d' → btw (/ 2) 730 s → val d <= val d' →
    val (spacing_gain powf ty d s p) <= val (spacing_gain powf ty d' s p).
  Proof using Hp Hfall.
    intros Hd Hd' Hs H. unfold spacing_gain. destruct (fle p fzero); [lra|].
    pose proof (retrievability_mono powf Hp Hfall ty d d' s Hd Hd' Hs H) as M.
    destruct (retrievability_btw powf Hp ty d s Hd Hs) as [Fr Hr]. destruct (retrievability_btw powf Hp ty d' s Hd' Hs) as [Fr' Hr'].
    pose proof v_0_65 as H65.
    destruct (fsub_btw f_1 (retrievability powf ty d s) 0 1) as [[F1 H1] E1]; [done|done|rp|rp|rewrite v_1; lra|].
    destruct (fmul_btw f_0_65 (fsub f_1 (retrievability powf ty d s)) 0 1) as [[F2 H2] E2]; [done|done|rp|rp|nra|].
    destruct (fadd_btw f_1 (fmul f_0_65 (fsub f_1 (retrievability powf ty d s))) 1 2) as [[F3 H3] E3]; [done|done|rp|rp|rewrite v_1; lra|].
    destruct (fsub_btw f_1 (retrievability powf ty d' s) 0 1) as [[F1' H1'] E1']; [done|done|rp|rp|rewrite v_1; lra|].
    destruct (fmul_btw f_0_65 (fsub f_1 (retrievability powf ty d' s)) 0 1) as [[F2' H2'] E2']; [done|done|rp|rp|nra|].
    destruct (fadd_btw f_1 (fmul f_0_65 (fsub f_1 (retrievability powf ty d' s))) 1 2) as [[F3' H3'] E3']; [done|done|rp|rp|rewrite v_1; lra|].
    destruct (fadd_btw f_1 f_0_65 1 2) as [[F4 H4] _]; [done|done|rp|rp|rewrite v_1; lra|].
    destruct (fclamp_val (fadd f_1 (fmul f_0_65 (fsub f_1 (retrievability powf ty d s)))) f_1 (fadd f_1 f_0_65)) as [_ ->]; [done|done|done|rewrite v_1; lra|].
    destruct (fclamp_val (fadd f_1 (fmul f_0_65 (fsub f_1 (retrievability powf ty d' s)))) f_1 (fadd f_1 f_0_65)) as [_ ->]; [done|done|done|rewrite v_1; lra|].
    apply Rle_min_compat_r, Rle_max_compat_r. rewrite E3, E3', E2, E2', E1, E1'.
    apply rnd_le, Rplus_le_compat_l, rnd_le, Rmult_le_compat_l; [lra|]. apply rnd_le. lra.
  Qed.
  Lemma apply_later ty s d x days days' : btw (/ 2) 730 s → btw 1 10 d → btw 1 5 x → 3 <= val x → btw 0 (bpow radix2 63) days → btw 0 (bpow radix2 63) days' →
    val days <= val days' → val (apply_stability powf ty s d x days) <= val (apply_stability powf ty s d x days').
  Proof using Hp Hfall.
    intros Hs Hd Hx H3 Hy Hy' H.
    destruct (apply_stability_val ty s d x days Hs Hd Hx Hy) as (p & Fp & Ep & He & _ & ->).
    destruct (apply_stability_val ty s d x days' Hs Hd Hx Hy') as (p' & Fp' & Ep' & _ & _ & ->).
    pose proof (performance_mono _ _ H3) as P0. rewrite performance_3 in P0.
    assert (Hm : 0 <= Rmin (val days) 1 <= Rmin (val days') 1) by (split; [by apply damping_pos|by apply Rle_min_compat_r]).
    apply grown_mono; [destruct Hs; lra|].
    destruct (Rle_lt_dec (performance (val x)) 0) as [Hn|Hpos].
    - rewrite !gain_one by (done || lra). apply growth_mono_g; [done|done|lra|done].
    - rewrite (gain_same ty days' s p' p) by (done || lra). apply growth_mono_g; [done|done| |done].
      split; [by apply gain_pos|by apply gain_mono].
  Qed.
  Lemma later_trial ty base t t' l : between f_1 base f_10 → Forall graded l → between f_3 (e_val t) f_5 → e_val t' = e_val t →
    (e_ts t <= e_ts t')%Z →
    fle (compute_stability powf ty (t :: l) base) (compute_stability powf ty (t' :: l) base) = true.
  Proof using Hp Hfall.
    intros Hb%base_btw Hl Ht Ev Hts. assert (Hx : btw 3 5 (e_val t)) by (by apply (between_f f_3 _ f_5 3 5 eq_refl eq_refl v_3 v_5)).
    assert (Hg : btw 1 5 (e_val t)) by (eapply btw_weaken; [exact Hx|lra|lra]).
    destruct (replay_btw ty base l Hb Hl) as [Bs Bd]. unfold compute_stability in *. rewrite !replay_cons. unfold replay_step. rewrite Ev.
    destruct (m_previous (replay powf ty base l)) as [ts|]; cbn [m_stability m_difficulty].
    - pose proof (days_between_btw (e_ts t) ts) as Hd. pose proof (days_between_btw (e_ts t') ts) as Hd'.
      apply fle_true; [by apply (apply_stability_btw powf Hp)|by apply (apply_stability_btw powf Hp)|].
      apply apply_later; try done; [apply Hx|by apply days_mono].
    - apply fle_true; [apply Bs..|lra].
  Qed.
End memory.
