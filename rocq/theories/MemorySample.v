(** Histories in which a better grade lowers the score and a good trial raises the urgency. *)
From stdpp Require Import list strings.
From Coq Require Import ZArith Reals Lra Lia.
From Flocq Require Import Core.Core IEEE754.BinarySingleNaN.
From Verif Require Import F32 F32Real F32More Stores Scorer ScorerSpec ScorerProofs ScoreProofs PowerSample AverageProofs ScoreSample RewardProofs CurveProofs MemoryProofs MemoryMore.
Local Open Scope R_scope.

(** ** Bounds of the stability by another power function *)
Definition one (x y : f32) : f32 := f_1.
Lemma one_ok : power_ok one.
Proof. split; intros; split; done. Qed.

Lemma factor_sign s f : / 2 <= s → / 2 < limited (rnd (s * f)) → 0 <= f.
Proof.
  intros Hs H. destruct (Rle_lt_dec 0 f) as [|Hf]; [done|]. exfalso. assert (rnd (s * f) <= 0) by (apply rnd_neg; nra).
  unfold limited in H. rewrite Rmax_right in H by lra. rewrite Rmin_left in H by lra. lra.
Qed.

Section bounds.
  Context (powf : f32 → f32 → f32) (Hp : power_ok powf).

  Lemma gain_of_one ty days s p : btw 0 (bpow radix2 63) days → btw (/ 2) 730 s → val (spacing_gain one ty days s p) = 1.
  Proof using.
    intros Hd Hs. unfold spacing_gain. destruct (fle p fzero); [apply v_1|].
    assert (E : retrievability one ty days s = f_1) by (unfold retrievability, one; vm_compute; reflexivity). rewrite E.
    assert (E' : feq (fclamp (fadd f_1 (fmul f_0_65 (fsub f_1 f_1))) f_1 (fadd f_1 f_0_65)) f_1 = true) by (vm_compute; reflexivity).
    apply feq_true in E'; [|vm_compute; reflexivity|done]. by rewrite E', v_1.
  Qed.
  Lemma gain_least ty days s p : btw 0 (bpow radix2 63) days → btw (/ 2) 730 s → 1 <= val (spacing_gain powf ty days s p).
  Proof using Hp. intros Hd Hs. destruct (spacing_gain_btw powf Hp ty days s p Hd Hs). lra. Qed.

  Lemma step_low ty s s' d x days : btw (/ 2) 730 s → btw (/ 2) 730 s' → btw 1 10 d → btw 1 5 x → btw 0 (bpow radix2 63) days →
    val s <= val s' → / 2 < val (apply_stability one ty s d x days) →
    val (apply_stability one ty s d x days) <= val (apply_stability powf ty s' d x days).
  Proof using Hp.
    intros Hs Hs' Hd Hx Hy Hle.
    destruct (apply_stability_val one one_ok ty s d x days Hs Hd Hx Hy) as (p & Fp & Ep & He & _ & ->).
    destruct (apply_stability_val powf Hp ty s' d x days Hs' Hd Hx Hy) as (p' & Fp' & Ep' & _ & _ & ->).
    rewrite gain_of_one by done. set (G := growth_of _ _ 1 _). set (G' := growth_of _ _ (val _) _). intros HG.
    assert (HGG : G <= G').
    { unfold G, G'. destruct (Rle_lt_dec (performance (val x)) 0) as [Hn|Hpos].
      - rewrite gain_one by (done || lra). lra.
      - apply growth_mono_g; [lra|done|split; [lra|by apply gain_least]|split; [by apply damping_pos|lra]]. }
    unfold grown in *. destruct Hs as [_ Hs], Hs' as [_ Hs'].
    assert (H0 : 0 <= rnd (1 + G)) by (eapply factor_sign; [|exact HG]; lra).
    apply limited_mono, rnd_le. apply Rmult_le_compat; [lra|done|lra|]. apply rnd_le. lra.
  Qed.
  Lemma step_high ty s d x days : btw (/ 2) 730 s → btw 1 10 d → btw 1 3 x → btw 0 (bpow radix2 63) days →
    val (apply_stability powf ty s d x days) <= val (apply_stability one ty f_730 d x days).
  Proof using Hp.
    intros Hs Hd Hx3 Hy. assert (Hx : btw 1 5 x) by (eapply btw_weaken; [exact Hx3|lra|lra]).
    assert (B730 : btw (/ 2) 730 f_730) by (split; [done|rewrite v_730; lra]).
    destruct (apply_stability_val one one_ok ty f_730 d x days B730 Hd Hx Hy) as (p & Fp & Ep & He & _ & ->).
    destruct (apply_stability_val powf Hp ty s d x days Hs Hd Hx Hy) as (p' & Fp' & Ep' & _ & _ & ->).
    assert (Hn : performance (val x) <= 0) by (rewrite <-performance_3; apply performance_mono; apply Hx3).
    rewrite !gain_one by (done || lra). unfold grown. set (f := rnd (1 + _)). destruct Hs as [_ Hs]. rewrite v_730.
    destruct (Rle_lt_dec 0 f) as [Hf|Hf].
    - apply limited_mono, rnd_le. nra.
    - assert (rnd (val s * f) <= 0) by (apply rnd_neg; nra). assert (rnd (730 * f) <= 0) by (apply rnd_neg; nra).
      unfold limited. rewrite !Rmax_right by lra. lra.
  Qed.

  Lemma same_difficulty ty base l : m_difficulty (replay powf ty base l) = m_difficulty (replay one ty base l) ∧
    m_previous (replay powf ty base l) = m_previous (replay one ty base l).
  Proof using.
    induction l as [|t l [IH1 IH2]]; [done|]. rewrite !replay_cons. unfold replay_step. rewrite IH2.
    destruct (m_previous (replay one ty base l)); [|done]. split; [|done]. cbn [m_difficulty]. by rewrite IH1.
  Qed.
  Lemma stability_low ty base l : btw 1 10 base → Forall graded l →
    val (compute_stability one ty l base) <= val (compute_stability powf ty l base).
  Proof using Hp.
    intros Hb. induction l as [|t l IH]; intros HF; [unfold compute_stability, replay; cbn; lra|].
    inversion HF as [|? ? Ht HF']; subst. specialize (IH HF').
    destruct (replay_btw powf Hp ty base (t :: l) Hb HF) as [B1 _].
    destruct (replay_btw one one_ok ty base l Hb HF') as [B2 B3]. destruct (replay_btw powf Hp ty base l Hb HF') as [B4 _].
    destruct (same_difficulty ty base l) as [E1 E2]. unfold compute_stability in *. rewrite !replay_cons in *. unfold replay_step in *.
    rewrite E2 in *. destruct (m_previous (replay one ty base l)) as [ts|]; cbn [m_stability] in *; [|done]. rewrite E1 in *.
    set (days := days_between _ _) in *. set (new := apply_stability one _ _ _ _ _).
    destruct (Rle_lt_dec (val new) (/ 2)) as [Hle|Hlt]; [destruct B1 as [_ B1]; lra|].
    apply step_low; try done; [by apply graded_btw|apply days_between_btw].
  Qed.
  (** A poor trial brings the stability down to this, whatever it was. *)
  Lemma stability_high ty base t t0 l : btw 1 10 base → Forall graded (t0 :: l) → btw 1 3 (e_val t) → 
    val (compute_stability powf ty (t :: t0 :: l) base) <=
    val (apply_stability one ty f_730 (m_difficulty (replay one ty base (t0 :: l))) (e_val t) (days_between (e_ts t) (e_ts t0))).
  Proof using Hp.
    intros Hb HF Ht. destruct (replay_btw powf Hp ty base (t0 :: l) Hb HF) as [B1 B2].
    destruct (same_difficulty ty base (t0 :: l)) as [E1 _].
    assert (E : m_previous (replay powf ty base (t0 :: l)) = Some (e_ts t0)).
    { rewrite replay_cons. unfold replay_step. destruct (m_previous (replay powf ty base l)); reflexivity. }
    unfold compute_stability in *. rewrite replay_cons. unfold replay_step. rewrite E. cbn [m_stability]. rewrite <-E1.
    apply step_high; try done. apply days_between_btw.
  Qed.
End bounds.

(** ** The declarative curve *)
Lemma inr_9_22 : INR 9 / INR 22 = 9 / 22. Proof. simpl. lra. Qed.
Lemma inr_2_5 : INR 2 / INR 5 = 4 / 10. Proof. simpl. lra. Qed.
Section declarative.
  Context (powf : f32 → f32 → f32) (Hp : power_ok powf) (Hr : rounded_power powf).
  Lemma factor_declarative : 3012 / 10000 <= val (curve_factor powf Declarative) <= 3015 / 10000.
  Proof using Hp Hr.
    destruct (factor_val powf Hp Hr Declarative) as (_ & E & _).
    assert (B : 13013 / 10000 <= root Declarative <= 13014 / 10000).
    { unfold root, inverse_decay.
      assert (E' : Rpower (val f_0_9) (- (5 / 2)) = Rpower (/ val f_0_9) (5 / 2)).
      { unfold Rpower. rewrite ln_Rinv by (rewrite <-target_val; lra). f_equal. lra. }
      rewrite E'. assert (B : 111111 / 100000 <= / val f_0_9 <= 111112 / 100000).
      { rewrite <-target_val. split; [replace (111111 / 100000) with (/ (100000 / 111111)) by lra|replace (111112 / 100000) with (/ (100000 / 111112)) by lra]; apply Rinv_le_contravar; lra. }
      split.
      - apply (Rpower_below _ _ _ 5 2); [lra|simpl; lra|simpl; lra|lra|]. apply Rle_trans with ((111111 / 100000) ^ 5); [simpl; lra|].
        apply pow_incr. lra.
      - apply (Rpower_above _ _ _ 5 2); [lra|simpl; lra|simpl; lra|lra|]. apply Rle_trans with ((111112 / 100000) ^ 5); [|simpl; lra].
        apply pow_incr. lra. }
    pose proof (rel (root Declarative) ltac:(lra)) as E1. apply Rabs_le_inv in E1.
    pose proof (rel (rnd (root Declarative) - 1) ltac:(lra)) as E2. rewrite <-E in E2. apply Rabs_le_inv in E2. lra.
  Qed.
  Lemma decay_declarative : 4 / 10 <= - val (curve_decay Declarative) <= 9 / 22.
  Proof using. destruct (decay_val Declarative) as [_ H]. unfold inverse_decay in H. lra. Qed.

  Lemma forgets_less d s x : btw 0 (bpow radix2 63) d → btw (/ 2) 730 s → repr x → 1 <= x →
    (1 + 3016 / 10000 * val d / val s) * (1 + / 1000) <= x → / 1000 <= val d → val d / val s <= 1000 →
    ∀ b, 0 < b <= 1 → repr b → x ^ 9 <= / b ^ 22 → b <= val (retrievability powf Declarative d s).
  Proof using Hp Hr.
    intros Hd Hs Rx Hx Hb Hdl Hq b Hb0 Rb Hpow. destruct (retrievability_val powf Hp Hr Declarative d s Hd Hs) as (y & Hy & Ey & ->).
    pose proof factor_declarative as HF. pose proof decay_declarative as HD. set (c := val (curve_factor powf Declarative)) in *.
    destruct Hd as [_ Hd], Hs as [_ Hs]. assert (I : 0 < / val s) by (apply Rinv_0_lt_compat; lra).
    assert (Yx : y <= x).
    { rewrite Ey. apply rnd_le_repr; [done|].
      pose proof (rel (c * val d) ltac:(nra)) as E1. apply Rabs_le_inv in E1.
      assert (Q1 : rnd (c * val d) / val s <= 3016 / 10000 * val d / val s).
      { unfold Rdiv. apply Rmult_le_compat_r; [lra|]. nra. }
      assert (Q2 : 0 < val d / val s) by (apply Rdiv_lt_0_compat; lra).
      assert (Q3 : rnd (rnd (c * val d) / val s) <= (1 + / 1000) * (3016 / 10000 * val d / val s)).
      { apply Rle_trans with (rnd (3016 / 10000 * val d / val s)); [by apply rnd_le|].
        assert (S1 : / 1000000000 <= 3016 / 10000 * val d / val s).
        { assert (/ 730 <= / val s) by (apply Rinv_le_contravar; lra). unfold Rdiv. 
          apply Rle_trans with (3016 * / 10000 * / 1000 * / 730); [lra|]. apply Rmult_le_compat; lra. }
        pose proof (rel (3016 / 10000 * val d / val s) ltac:(lra)) as E2. apply Rabs_le_inv in E2. lra. }
      assert (0 < 3016 / 10000 * val d / val s) by (unfold Rdiv; apply Rmult_lt_0_compat; lra). lra. }
    apply rnd_ge; [done|]. replace (val (curve_decay Declarative)) with (- (- val (curve_decay Declarative))) by lra.
    rewrite Rpower_Ropp. replace b with (/ / b) by (rewrite Rinv_inv; lra).
    apply Rinv_le_contravar; [apply exp_pos|]. assert (0 < / b) by (apply Rinv_0_lt_compat; lra).
    apply (Rpower_above _ _ _ 9 22); [lra|rewrite inr_9_22; lra|simpl; lra|done|].
    apply Rle_trans with (x ^ 9); [apply pow_incr; lra|]. by rewrite pow_inv.
  Qed.
  Lemma forgets_more d s x : btw 0 (bpow radix2 63) d → btw (/ 2) 730 s → repr x → 1 <= x →
    x <= (1 + 3011 / 10000 * val d / val s) * (1 - / 1000) → / 1000 <= val d →
    ∀ b, 0 < b <= 1 → repr b → / b ^ 5 <= x ^ 2 → val (retrievability powf Declarative d s) <= b.
  Proof using Hp Hr.
    intros Hd Hs Rx Hx Hb Hdl b Hb0 Rb Hpow. destruct (retrievability_val powf Hp Hr Declarative d s Hd Hs) as (y & Hy & Ey & ->).
    pose proof factor_declarative as HF. pose proof decay_declarative as HD. set (c := val (curve_factor powf Declarative)) in *.
    destruct Hd as [_ Hd], Hs as [_ Hs]. assert (I : 0 < / val s) by (apply Rinv_0_lt_compat; lra).
    assert (Yx : x <= y).
    { rewrite Ey. apply rnd_ge; [done|].
      pose proof (rel (c * val d) ltac:(nra)) as E1. apply Rabs_le_inv in E1.
      assert (Q1 : 3011 / 10000 * val d / val s <= rnd (c * val d) / val s).
      { unfold Rdiv. apply Rmult_le_compat_r; [lra|]. nra. }
      assert (S1 : / 1000000000 <= 3011 / 10000 * val d / val s).
      { assert (/ 730 <= / val s) by (apply Rinv_le_contravar; lra). unfold Rdiv.
        apply Rle_trans with (3011 * / 10000 * / 1000 * / 730); [lra|]. apply Rmult_le_compat; lra. }
      assert (Q3 : (1 - / 1000) * (3011 / 10000 * val d / val s) <= rnd (rnd (c * val d) / val s)).
      { apply Rle_trans with (rnd (3011 / 10000 * val d / val s)); [|by apply rnd_le].
        pose proof (rel (3011 / 10000 * val d / val s) ltac:(lra)) as E2. apply Rabs_le_inv in E2. lra. }
      lra. }
    apply rnd_le_repr; [done|]. replace (val (curve_decay Declarative)) with (- (- val (curve_decay Declarative))) by lra.
    rewrite Rpower_Ropp. replace b with (/ / b) by (rewrite Rinv_inv; lra). assert (0 < / b) by (apply Rinv_0_lt_compat; lra).
    apply Rinv_le_contravar; [done|].
    apply (Rpower_below _ _ _ 2 5); [lra|rewrite inr_2_5; lra|simpl; lra|done|].
    rewrite pow_inv. apply Rle_trans with (x ^ 2); [done|apply pow_incr; lra].
  Qed.
End declarative.
