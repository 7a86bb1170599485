(** Proofs that the memory is what the documented formulas give, up to rounding. *)
From stdpp Require Import list strings.
From Coq Require Import ZArith Reals Lra Lia.
From Flocq Require Import Core.Core IEEE754.BinarySingleNaN.
From Verif Require Import F32 F32Real F32More Stores Scorer ScorerSpec ScorerProofs ScoreProofs PowerSample AverageProofs CurveProofs MemoryProofs ExactSpec.
Local Open Scope R_scope.

(** ** Rounding errors *)
Lemma rnd_opp r : rnd (- r) = - rnd r.
Proof. apply round_NE_opp. Qed.
Lemma close r b : Rabs r <= b → Rabs (rnd r - r) <= b / 16777216 + / 100000000000.
Proof.
  intros H. assert (P : ∀ r, 0 <= r <= b → Rabs (rnd r - r) <= b / 16777216 + / 100000000000).
  { clear r H. intros r H. destruct (Rle_lt_dec (/ 1099511627776) r) as [L|L].
    - pose proof (rel r L) as E. eapply Rle_trans; [exact E|]. lra.
    - assert (0 <= rnd r) by (apply rnd_ge; [rp|lra]).
      assert (rnd r <= / 1099511627776).
      { apply rnd_le_repr; [|lra]. replace (/ 1099511627776) with (bpow radix2 (-40)) by (simpl; lra). rp. }
      apply Rabs_le. lra. }
  destruct (Rle_lt_dec 0 r) as [L|L]; [apply P; rewrite Rabs_pos_eq in H; lra|].
  rewrite Rabs_left in H by done. specialize (P (- r) ltac:(lra)). rewrite rnd_opp in P.
  replace (rnd r - r) with (- (- rnd r - - r)) by lra. by rewrite Rabs_Ropp.
Qed.
Lemma mul_close x X y Y ex ey a b c : Rabs (x - X) <= ex → Rabs (y - Y) <= ey → Rabs X <= a → Rabs y <= b → Rabs (x * y) <= c →
  Rabs (rnd (x * y) - X * Y) <= b * ex + a * ey + c / 16777216 + / 100000000000.
Proof.
  intros Hx Hy HX Hb Hc. pose proof (close (x * y) c Hc) as H.
  replace (rnd (x * y) - X * Y) with ((rnd (x * y) - x * y) + ((x - X) * y + X * (y - Y))) by lra.
  eapply Rle_trans; [apply Rabs_triang|]. eapply Rle_trans; [apply Rplus_le_compat_l, Rabs_triang|]. rewrite !Rabs_mult.
  assert (Rabs (x - X) * Rabs y <= ex * b) by (apply Rmult_le_compat; try apply Rabs_pos; done).
  assert (Rabs X * Rabs (y - Y) <= a * ey) by (apply Rmult_le_compat; try apply Rabs_pos; done). lra.
Qed.
Lemma within_close lo hi x y e : Rabs (x - y) <= e → Rabs (within lo x hi - within lo y hi) <= e.
Proof. intros H. apply Rabs_le_inv in H. apply Rabs_le. unfold within, Rmin, Rmax. repeat destruct (Rle_dec _ _); lra. Qed.
Ltac ab := match goal with |- Rabs _ <= _ => apply Rabs_le; split; nra end.

(** ** The parts of a step *)
Lemma performance_close x : 1 <= x <= 5 → Rabs (performance x - ((x - 1) / 4 - 1 / 2)) <= 2 / 10000000.
Proof.
  intros H. unfold performance. pose proof (close (x - 1) 4 ltac:(ab)) as E1. apply Rabs_le_inv in E1. set (a := rnd (x - 1)) in *.
  assert (0 <= a <= 4) by (split; [apply rnd_ge; [rp|lra]|apply rnd_le_repr; [rp|lra]]). clearbody a.
  pose proof (close (a / 4) 1 ltac:(ab)) as E2. apply Rabs_le_inv in E2. set (b := rnd (a / 4)) in *.
  assert (0 <= b <= 1) by (split; [apply rnd_ge; [rp|lra]|apply rnd_le_repr; [rp|lra]]). clearbody b.
  pose proof (close (b - / 2) (/ 2) ltac:(ab)) as E3. apply Rabs_le_inv in E3. apply Rabs_le. lra.
Qed.
Lemma ease_close d : 1 <= d <= 10 → Rabs (ease d - (11 - d) / 5) <= 3 / 10000000.
Proof.
  intros H. unfold ease. pose proof (close (11 - d) 10 ltac:(ab)) as E1. apply Rabs_le_inv in E1. set (a := rnd (11 - d)) in *.
  assert (1 <= a <= 10) by (split; [apply rnd_ge; [rp|lra]|apply rnd_le_repr; [rp|lra]]). clearbody a.
  pose proof (close (a / 5) 2 ltac:(ab)) as E2. apply Rabs_le_inv in E2. apply Rabs_le. lra.
Qed.
Lemma spacing_val : Rabs (val f_0_65 - 65 / 100) <= / 10000000.
Proof. unfold f_0_65. rewrite lit_val. apply Rabs_le. simpl. lra. Qed.

Section exact.
  Context (powf : f32 → f32 → f32) (Hp : power_ok powf).

  Lemma gain_close ty days s p : btw 0 (bpow radix2 63) days → btw (/ 2) 730 s → fin p → 0 < val p →
    Rabs (val (spacing_gain powf ty days s p) - (1 + 65 / 100 * (1 - val (retrievability powf ty days s)))) <= 4 / 10000000.
  Proof using Hp.
    intros Hd Hs Fp P0. unfold spacing_gain.
    assert (E : fle p fzero = false) by (apply fle_false; [done|done|]; rewrite v_0; lra). rewrite E.
    destruct (retrievability_btw powf Hp ty days s Hd Hs) as [Fr Hr]. set (r := retrievability powf ty days s) in *. clearbody r.
    pose proof spacing_val as V65. pose proof v_0_65 as H65.
    destruct (fsub_btw f_1 r 0 1) as [[F1 H1] E1]; [done|done|rp|rp|rewrite v_1; lra|]. rewrite v_1 in E1.
    destruct (fmul_btw f_0_65 (fsub f_1 r) 0 1) as [[F2 H2] E2]; [done|done|rp|rp|nra|].
    destruct (fadd_btw f_1 (fmul f_0_65 (fsub f_1 r)) 1 2) as [[F3 H3] E3]; [done|done|rp|rp|rewrite v_1; lra|]. rewrite v_1 in E3.
    destruct (fadd_btw f_1 f_0_65 1 2) as [[F4 H4] E4]; [done|done|rp|rp|rewrite v_1; lra|]. rewrite v_1 in E4.
    destruct (fclamp_val (fadd f_1 (fmul f_0_65 (fsub f_1 r))) f_1 (fadd f_1 f_0_65)) as [_ ->]; [done|done|done|rewrite v_1; lra|].
    pose proof (close (1 - val r) 1 ltac:(ab)) as C1. rewrite <-E1 in C1.
    pose proof (mul_close (val f_0_65) (65 / 100) (val (fsub f_1 r)) (1 - val r) _ _ (65 / 100) 1 1 V65 C1 ltac:(ab) ltac:(ab) ltac:(ab)) as C2.
    rewrite <-E2 in C2. apply Rabs_le_inv in C2.
    pose proof (close (1 + val (fmul f_0_65 (fsub f_1 r))) 2 ltac:(ab)) as C3. rewrite <-E3 in C3. apply Rabs_le_inv in C3.
    pose proof (close (1 + val f_0_65) 2 ltac:(ab)) as C4. rewrite <-E4 in C4. apply Rabs_le_inv in C4. apply Rabs_le_inv in V65.
    assert (M : val (fadd f_1 (fmul f_0_65 (fsub f_1 r))) <= val (fadd f_1 f_0_65)).
    { rewrite E3, E4. apply rnd_le. assert (val (fmul f_0_65 (fsub f_1 r)) <= val f_0_65); [|lra].
      rewrite E2. apply rnd_le_repr; [by apply repr_val|]. nra. }
    rewrite v_1, Rmax_left, Rmin_left by lra. apply Rabs_le. lra.
  Qed.

  Lemma growth_close p P e E g G m : Rabs (p - P) <= 2 / 10000000 → Rabs (e - E) <= 3 / 10000000 → Rabs (g - G) <= 4 / 10000000 →
    Rabs p <= / 2 → Rabs P <= / 2 → 0 <= e <= 2 → 0 <= E <= 2 → 1 <= g <= 2 → 1 <= G <= 2 → 0 <= m <= 1 →
    Rabs (growth_of p e g m - 5 / 2 * P * E * G * m) <= 6 / 1000000 ∧ Rabs (growth_of p e g m) <= 8.
  Proof using.
    intros H1 H2 H3 Bp BP Be BE Bg BG Bm. unfold growth_of. apply Rabs_le_inv in Bp, BP.
    assert (Q : ∀ x, Rabs (x - x) <= 0) by (intros x; rewrite Rminus_diag_eq, Rabs_R0 by done; lra).
    pose proof (mul_close (5 / 2) (5 / 2) p P _ _ (5 / 2) (/ 2) (5 / 4) (Q _) H1 ltac:(ab) ltac:(ab) ltac:(ab)) as C1.
    assert (B1 : -2 <= rnd (5 / 2 * p) <= 2) by (split; [apply rnd_ge; [rp|lra]|apply rnd_le_repr; [rp|lra]]).
    set (a := rnd (5 / 2 * p)) in *. clearbody a.
    pose proof (mul_close a (5 / 2 * P) e E _ _ (5 / 4) 2 4 C1 H2 ltac:(ab) ltac:(ab) ltac:(ab)) as C2.
    assert (B2 : -4 <= rnd (a * e) <= 4) by (split; [apply rnd_ge; [rp|nra]|apply rnd_le_repr; [rp|nra]]).
    set (b := rnd (a * e)) in *. clearbody b.
    assert (BB : Rabs (5 / 2 * P * E) <= 5 / 2) by ab.
    pose proof (mul_close b (5 / 2 * P * E) g G _ _ (5 / 2) 2 8 C2 H3 BB ltac:(ab) ltac:(ab)) as C3.
    assert (B3 : -8 <= rnd (b * g) <= 8) by (split; [apply rnd_ge; [rp|nra]|apply rnd_le_repr; [rp|nra]]).
    set (c := rnd (b * g)) in *. clearbody c. apply Rabs_le_inv in BB.
    assert (BC : Rabs (5 / 2 * P * E * G) <= 5) by ab.
    pose proof (mul_close c (5 / 2 * P * E * G) m m _ 0 5 1 8 C3 (Q m) BC ltac:(ab) ltac:(ab)) as C4.
    assert (B4 : -8 <= rnd (c * m) <= 8) by (split; [apply rnd_ge; [rp|nra]|apply rnd_le_repr; [rp|nra]]).
    split; [eapply Rle_trans; [exact C4|]; lra|]. apply Rabs_le. lra.
  Qed.

  Lemma stability_close ty s d x days : btw (/ 2) 730 s → btw 1 10 d → btw 1 5 x → btw 0 (bpow radix2 63) days →
    Rabs (val (apply_stability powf ty s d x days) -
      exact_stability (val s) (val d) (val x) (val (retrievability powf ty days s)) (val days)) <= val s / 100000.
  Proof using Hp.
    intros Hs Hd Hx Hy. destruct (apply_stability_val powf Hp ty s d x days Hs Hd Hx Hy) as (p & Fp & Ep & He & _ & ->).
    unfold exact_stability, grown. cbv zeta. change (limited ?x) with (within (/ 2) x 730). apply within_close.
    pose proof (performance_close _ (proj2 Hx)) as CP. pose proof (ease_close _ (proj2 Hd)) as CE. rewrite <-Ep in *.
    assert (BP : -2 / 4 <= val p <= / 2).
    { rewrite Ep. unfold performance. destruct Hx as [_ Hx].
      assert (0 <= rnd (val x - 1) <= 4) by (split; [apply rnd_ge; [rp|lra]|apply rnd_le_repr; [rp|lra]]).
      assert (0 <= rnd (rnd (val x - 1) / 4) <= 1) by (split; [apply rnd_ge; [rp|lra]|apply rnd_le_repr; [rp|lra]]).
      replace (-2 / 4) with (- / 2) by lra. split; [apply rnd_ge; [rp|lra]|apply rnd_le_repr; [rp|lra]]. }
    assert (BE : 0 <= ease (val d) <= 2).
    { split; [done|]. unfold ease. destruct Hd as [_ Hd]. assert (rnd (11 - val d) <= 10) by (apply rnd_le_repr; [rp|lra]).
      apply rnd_le_repr; [rp|lra]. }
    destruct (spacing_gain_btw powf Hp ty days s p Hy Hs) as [Fg Hg].
    destruct (retrievability_btw powf Hp ty days s Hy Hs) as [Fr Hr].
    assert (Bm : 0 <= Rmin (val days) 1 <= 1) by (split; [by apply damping_pos|apply Rmin_r]).
    set (P := (val x - 1) / 4 - 1 / 2) in *. set (E := (11 - val d) / 5) in *. set (m := Rmin (val days) 1) in *.
    set (g := val (spacing_gain powf ty days s p)) in *. set (r := val (retrievability powf ty days s)) in *.
    set (G := if Rlt_dec 3 (val x) then 1 + 65 / 100 * (1 - r) else 1).
    assert (BG : 1 <= G <= 2) by (unfold G; destruct (Rlt_dec 3 (val x)); lra).
    assert (BPP : Rabs P <= / 2) by (unfold P; destruct Hx as [_ Hx]; apply Rabs_le; lra).
    assert (BEE : 0 <= E <= 2) by (unfold E; destruct Hd as [_ Hd]; lra).
    assert (CG : Rabs (growth_of (val p) (ease (val d)) g m - 5 / 2 * P * E * G * m) <= 7 / 1000000 ∧ Rabs (growth_of (val p) (ease (val d)) g m) <= 8).
    { destruct (Rlt_dec 0 (val p)) as [Pp|Pp].
      - assert (X3 : 3 < val x).
        { destruct (Rlt_dec 3 (val x)) as [|N]; [done|]. exfalso. assert (val p <= 0); [|lra].
          rewrite Ep, <-performance_3. apply performance_mono. lra. }
        destruct (growth_close (val p) P (ease (val d)) E g G m) as [C1 C2]; try done; [|apply Rabs_le; lra|split; [lra|done]].
        unfold G. destruct (Rlt_dec 3 (val x)) as [_|]; [|lra]. by apply gain_close.
      - assert (Eg : g = 1) by (apply gain_one; [done|lra]).
        destruct (Rlt_dec 3 (val x)) as [X3|X3].
        + assert (P0 : val p = 0).
          { apply Rle_antisym; [lra|]. rewrite Ep, <-performance_3. apply performance_mono. lra. }
          rewrite P0 in *. unfold growth_of. rewrite Rmult_0_r, rnd_0, Rmult_0_l, rnd_0, Rmult_0_l, rnd_0, Rmult_0_l, rnd_0, Rabs_R0.
          split; [|lra]. rewrite Rminus_0_l, Rabs_Ropp. rewrite Rminus_0_l, Rabs_Ropp in CP.
          rewrite !Rabs_mult. rewrite (Rabs_pos_eq (5 / 2)), (Rabs_pos_eq E), (Rabs_pos_eq G), (Rabs_pos_eq m) by lra.
          pose proof (Rabs_pos P) as AP. set (A := Rabs P) in *. clearbody A.
          assert (0 <= A * E <= 4 / 10000000) by nra. assert (0 <= A * E * G <= 8 / 10000000) by nra.
          assert (0 <= A * E * G * m <= 8 / 10000000) by nra. nra.
        + destruct (growth_close (val p) P (ease (val d)) E g G m) as [C1 C2]; try done; [|apply Rabs_le; lra|split; [lra|done]].
          unfold G. destruct (Rlt_dec 3 (val x)) as [|_]; [lra|]. rewrite Eg, Rminus_diag_eq, Rabs_R0 by done. lra. }
    destruct CG as [C1 C2]. set (f := growth_of _ _ _ _) in *. clearbody f. set (F := 5 / 2 * P * E * G * m) in *. clearbody F.
    apply Rabs_le_inv in C1, C2. pose proof (close (1 + f) 9 ltac:(ab)) as C3. apply Rabs_le_inv in C3.
    set (h := rnd (1 + f)) in *. assert (B1 : -9 <= h <= 9) by (split; [apply rnd_ge; [rp|lra]|apply rnd_le_repr; [rp|lra]]). clearbody h.
    destruct Hs as [Fs Hs]. pose proof (close (val s * h) (9 * val s) ltac:(ab)) as C4. apply Rabs_le_inv in C4. apply Rabs_le.
    assert (val s * (h - (1 + F)) <= val s * (9 / 1000000)) by (apply Rmult_le_compat_l; lra).
    assert (val s * - (9 / 1000000) <= val s * (h - (1 + F))) by (apply Rmult_le_compat_l; lra). split; lra.
  Qed.
  Lemma difficulty_close d x : btw 1 10 d → btw 1 5 x →
    Rabs (val (update_difficulty d f_5 x) - exact_difficulty (val d) (val x)) <= / 100000.
  Proof using.
    intros [Fd Hd] [Fx Hx]. unfold update_difficulty, exact_difficulty. cbv zeta. destruct grade_range_val as [Fg Hg].
    assert (V105 : Rabs (val f_1_05 - 105 / 100) <= / 10000000) by (unfold f_1_05; rewrite lit_val; apply Rabs_le; simpl; lra).
    assert (V16 : Rabs (val f_0_16 - 16 / 100) <= / 10000000) by (unfold f_0_16; rewrite lit_val; apply Rabs_le; simpl; lra).
    pose proof V105 as W105. pose proof V16 as W16. apply Rabs_le_inv in W105, W16.
    assert (Q : ∀ x, Rabs (x - x) <= 0) by (intros y; rewrite Rminus_diag_eq, Rabs_R0 by done; lra).
    destruct (fsub_btw f_3 x (-2) 2) as [[F1 H1] E1]; [done|done|rp|rp|rewrite v_3; lra|]. rewrite v_3 in E1.
    pose proof (close (3 - val x) 2 ltac:(ab)) as C1. rewrite <-E1 in C1. apply Rabs_le_inv in C1. clear E1.
    set (a := fsub f_3 x) in *. clearbody a.
    destruct (fdiv_btw a grade_range (-1) 1) as [[F2 H2] E2]; [done|done|lra|rp|rp|rewrite Hg; lra|]. rewrite Hg in E2.
    pose proof (close (val a / 4) 1 ltac:(ab)) as C2. rewrite <-E2 in C2. apply Rabs_le_inv in C2. clear E2.
    set (b := fdiv a grade_range) in *. clearbody b.
    destruct (fmul_btw b f_1_05 (-2) 2) as [[F3 H3] E3]; [done|done|rp|rp|nra|].
    assert (C2' : Rabs (val b - (3 - val x) / 4) <= 2 / 10000000) by (apply Rabs_le; lra).
    pose proof (mul_close (val b) ((3 - val x) / 4) (val f_1_05) (105 / 100) _ _ (/ 2) 2 2 C2' V105 ltac:(ab) ltac:(ab) ltac:(ab)) as C3.
    rewrite <-E3 in C3. apply Rabs_le_inv in C3. clear E3. set (c := fmul b f_1_05) in *. clearbody c.
    destruct (fadd_btw d c (-1) 12) as [[F4 H4] E4]; [done|done|rp|rp|lra|].
    pose proof (close (val d + val c) 12 ltac:(ab)) as C4. rewrite <-E4 in C4. apply Rabs_le_inv in C4. clear E4.
    set (e := fadd d c) in *. clearbody e.
    destruct (fclamp_val e f_1 f_10) as [F5 E5]; [done|done|done|rewrite v_1, v_10; lra|]. rewrite v_1, v_10 in E5.
    change (Rmin (Rmax (val e) 1) 10) with (within 1 (val e) 10) in E5.
    assert (C5 : Rabs (val (fclamp e f_1 f_10) - within 1 (val d + (3 - val x) / 4 * (105 / 100)) 10) <= 2 / 1000000).
    { rewrite E5. apply within_close. apply Rabs_le. lra. }
    assert (B5 : 1 <= val (fclamp e f_1 f_10) <= 10) by (rewrite E5; unfold within, Rmin, Rmax; repeat destruct (Rle_dec _ _); lra).
    assert (B5' : 1 <= within 1 (val d + (3 - val x) / 4 * (105 / 100)) 10 <= 10) by (unfold within, Rmin, Rmax; repeat destruct (Rle_dec _ _); lra).
    set (g := fclamp e f_1 f_10) in *. clearbody g. set (X := within 1 (val d + (3 - val x) / 4 * (105 / 100)) 10) in *. clearbody X.
    destruct (fmul_btw f_0_16 f_5 0 1) as [[F6 H6] E6]; [done|done|rp|rp|rewrite v_5; lra|]. rewrite v_5 in E6.
    pose proof (mul_close (val f_0_16) (16 / 100) 5 5 _ 0 1 5 1 V16 (Q 5) ltac:(ab) ltac:(ab) ltac:(ab)) as C6. rewrite <-E6 in C6. clear E6.
    destruct (fsub_btw f_1 f_0_16 0 1) as [[F7 H7] E7]; [done|done|rp|rp|rewrite v_1; lra|]. rewrite v_1 in E7.
    pose proof (close (1 - val f_0_16) 1 ltac:(ab)) as C7. rewrite <-E7 in C7. apply Rabs_le_inv in C7. clear E7.
    set (h := fsub f_1 f_0_16) in *. clearbody h. assert (C7' : Rabs (val h - 84 / 100) <= 2 / 10000000) by (apply Rabs_le; lra).
    destruct (fmul_btw h g 0 10) as [[F8 H8] E8]; [done|done|rp|rp|nra|].
    pose proof (mul_close (val h) (84 / 100) (val g) X _ _ 1 10 10 C7' C5 ltac:(ab) ltac:(ab) ltac:(ab)) as C8. rewrite <-E8 in C8. clear E8.
    apply Rabs_le_inv in C6, C8. set (i := fmul f_0_16 f_5) in *. set (j := fmul h g) in *. clearbody i j.
    destruct (fadd_btw i j 0 11) as [[F9 H9] E9]; [done|done|rp|rp|lra|].
    pose proof (close (val i + val j) 11 ltac:(ab)) as C9. rewrite <-E9 in C9. apply Rabs_le_inv in C9.
    destruct (fclamp_val (fadd i j) f_1 f_10) as [_ ->]; [done|done|done|rewrite v_1, v_10; lra|]. rewrite v_1, v_10.
    change (Rmin (Rmax (val (fadd i j)) 1) 10) with (within 1 (val (fadd i j)) 10). apply within_close, Rabs_le. lra.
  Qed.
End exact.
