(** Proofs about the weights of candidates. *)
From stdpp Require Import list.
From Coq Require Import ZArith Reals Lra Lia.
From Flocq Require Import Core.Core IEEE754.BinarySingleNaN.
From Verif Require Import F32 F32Real F32More Stores Scorer ScorerSpec ScorerProofs Batch WeightSpec.
Local Open Scope R_scope.

(** ** Numbers of moderate size *)
Definition size (n : Z) (x : f32) : Prop := btw (- IZR n) (IZR n) x.
Lemma add_size a b x y : size a x → size b y → (0 <= a + b <= 16777216)%Z →
  size (a + b) (fadd x y) ∧ val (fadd x y) = rnd (val x + val y).
Proof.
  intros [F1 B1] [F2 B2] H. apply fadd_btw; try done.
  - apply repr_opp, repr_Z. lia.
  - apply repr_Z. lia.
  - rewrite plus_IZR. lra.
Qed.
Lemma sub_size a b x y : size a x → size b y → (0 <= a + b <= 16777216)%Z →
  size (a + b) (fsub x y) ∧ val (fsub x y) = rnd (val x - val y).
Proof.
  intros [F1 B1] [F2 B2] H. apply fsub_btw; try done.
  - apply repr_opp, repr_Z. lia.
  - apply repr_Z. lia.
  - rewrite plus_IZR. lra.
Qed.
(** A product with a factor in [0, b]. *)
Lemma mul_size a b k x : fin k → 0 <= val k <= IZR b → size a x → (0 <= a)%Z → (0 <= b * a <= 16777216)%Z →
  size (b * a) (fmul k x) ∧ val (fmul k x) = rnd (val k * val x).
Proof.
  intros Fk Bk [F B] Ha H. apply fmul_btw; try done.
  - apply repr_opp, repr_Z. lia.
  - apply repr_Z. lia.
  - rewrite mult_IZR. pose proof (IZR_le 0 a ltac:(lia)). nra.
Qed.
Lemma neg_size a x : size a x → size a (fneg x).
Proof. intros [F B]. split; [by apply fneg_fin|]. rewrite fneg_val. lra. Qed.

Lemma add_rises a b x y x' y' : (0 <= a + b <= 16777216)%Z → size a x → size b y → size a x' → size b y' →
  val x <= val x' → val y <= val y' → size (a + b) (fadd x y) ∧ size (a + b) (fadd x' y') ∧ val (fadd x y) <= val (fadd x' y').
Proof.
  intros H S1 S2 S3 S4 L1 L2. destruct (add_size a b x y S1 S2 H) as [Z1 ->]. destruct (add_size a b x' y' S3 S4 H) as [Z2 ->].
  split; [done|]. split; [done|]. apply rnd_le. lra.
Qed.
Lemma sub_rises a b x y x' y' : (0 <= a + b <= 16777216)%Z → size a x → size b y → size a x' → size b y' →
  val x <= val x' → val y' <= val y → size (a + b) (fsub x y) ∧ size (a + b) (fsub x' y') ∧ val (fsub x y) <= val (fsub x' y').
Proof.
  intros H S1 S2 S3 S4 L1 L2. destruct (sub_size a b x y S1 S2 H) as [Z1 ->]. destruct (sub_size a b x' y' S3 S4 H) as [Z2 ->].
  split; [done|]. split; [done|]. apply rnd_le. lra.
Qed.
Lemma mul_rises a b k x x' : fin k → 0 <= val k <= IZR b → (0 <= a)%Z → (0 <= b * a <= 16777216)%Z → size a x → size a x' →
  val x <= val x' → size (b * a) (fmul k x) ∧ size (b * a) (fmul k x') ∧ val (fmul k x) <= val (fmul k x').
Proof.
  intros Fk Bk Ha H S1 S2 L. destruct (mul_size a b k x Fk Bk S1 Ha H) as [Z1 ->]. destruct (mul_size a b k x' Fk Bk S2 Ha H) as [Z2 ->].
  split; [done|]. split; [done|]. apply rnd_le. nra.
Qed.

(** ** The logarithm of the cost *)
Definition log_cost (m : libm) (c : candidate) : f32 :=
  let x := fsub fzero (fmul f_0_7 (m_ln_1p m (depth c))) in
  let x := fsub x (fmul f_0_9 (m_ln_1p m (encompasses_weight c))) in
  let x := fadd x (fmul f_0_6 (m_ln_1p m (encompassed_weight c))) in
  let x := fadd x (fmul f_2 (m_ln_1p m (f_of_nat (frequency c)))) in
  let x := if dead_end c then fsub x f_1 else x in
  match velocity c with
  | None => x
  | Some v =>
      let x := fadd x (fmul f_0_5 (fneg (m_ln_1p m v))) in
      if flt (fabs v) f_0_2 then
        if fge (exercise_score c) f_4 then fadd x f_1 else fsub x f_0_7
      else x
  end.
Lemma cost_log m c : candidate_cost m c = fclamp (m_exp m (log_cost m c)) f_0_05 f_100.
Proof. done. Qed.

Lemma amount_above x : amount x → flt (fneg f_1) x = true.
Proof.
  intros [F H]. apply flt_true; [done|done|]. apply fle_true in H; [|done|done].
  rewrite fneg_val. unfold f_1. rewrite lit_val. simpl. rewrite v_0 in H. lra.
Qed.
Lemma frequency_amount n : (Z.of_nat n < 18446744073709551616)%Z → amount (f_of_nat n).
Proof.
  intros H. unfold f_of_nat. destruct (f_of_Z_btw (Z.of_nat n) 64) as [F B]; [lia|lia|]. split; [done|]. apply fle_true; [done|done|]. rewrite v_0. lra.
Qed.
Section moves.
  Context (m : libm) (Hm : libm_ok m).

  Lemma ln_size x : fin x → flt (fneg f_1) x = true → size 100 (m_ln_1p m x).
  Proof using Hm. intros F H. destruct (ln_range m Hm x F H) as [F' B]. split; [done|]. lra. Qed.
  Lemma ln_moves x y : fin x → fin y → flt (fneg f_1) x = true → fle x y = true →
    size 100 (m_ln_1p m x) ∧ size 100 (m_ln_1p m y) ∧ val (m_ln_1p m x) <= val (m_ln_1p m y).
  Proof using Hm.
    intros Fx Fy Hx Hxy. assert (Hy : flt (fneg f_1) y = true).
    { apply flt_true; [done|done|]. apply flt_true in Hx; [|done|done]. apply fle_true in Hxy; [|done|done]. lra. }
    pose proof (ln_size x Fx Hx) as S1. pose proof (ln_size y Fy Hy) as S2. split; [done|]. split; [done|].
    apply fle_true; [apply S1|apply S2|by apply (ln_rises m Hm)].
  Qed.
  Definition above (c : candidate) : Prop := ∀ v, velocity c = Some v → flt (fneg f_1) v = true.
  (** A factor in [0, 2] times the logarithms. *)
  Lemma term_moves k x y : fin k → 0 <= val k <= 2 → fin x → fin y → flt (fneg f_1) x = true → fle x y = true →
    size 200 (fmul k (m_ln_1p m x)) ∧ size 200 (fmul k (m_ln_1p m y)) ∧ val (fmul k (m_ln_1p m x)) <= val (fmul k (m_ln_1p m y)).
  Proof using Hm.
    intros Fk Bk Fx Fy Hx Hxy. destruct (ln_moves x y Fx Fy Hx Hxy) as (S1 & S2 & L).
    apply (mul_rises 100 2); try done.
  Qed.

  Lemma log_cost_falls c c' : plain_candidate c → plain_candidate c' → above c → as_good c c' →
    fin (log_cost m c) ∧ fin (log_cost m c') ∧ val (log_cost m c') <= val (log_cost m c).
  Proof using Hm.
    intros P P' Ab G.
    assert (K07 : fin f_0_7 ∧ 0 <= val f_0_7 <= 2) by (split; [done|unfold f_0_7; rewrite lit_val; simpl; lra]).
    assert (K09 : fin f_0_9 ∧ 0 <= val f_0_9 <= 2) by (split; [done|unfold f_0_9; rewrite lit_val; simpl; lra]).
    assert (K06 : fin f_0_6 ∧ 0 <= val f_0_6 <= 2) by (split; [done|unfold f_0_6; rewrite lit_val; simpl; lra]).
    assert (K2 : fin f_2 ∧ 0 <= val f_2 <= 2) by (split; [done|unfold f_2; rewrite lit_val; simpl; lra]).
    assert (K05 : fin f_0_5 ∧ 0 <= val f_0_5 <= 2) by (split; [done|unfold f_0_5; rewrite lit_val; simpl; lra]).
    assert (S1 : size 1 f_1) by (split; [done|unfold f_1; rewrite lit_val; simpl; lra]).
    assert (S07 : size 1 f_0_7) by (split; [done|unfold f_0_7; rewrite lit_val; simpl; lra]).
    assert (S0 : size 0 fzero) by (split; [done|rewrite v_0; lra]).
    destruct (term_moves f_0_7 (depth c) (depth c')) as (A1 & A2 & A3);
      [apply K07|apply K07|apply (pc_depth c P)|apply (pc_depth c' P')|apply amount_above, P|apply G|].
    destruct (sub_rises 0 200 fzero (fmul f_0_7 (m_ln_1p m (depth c'))) fzero (fmul f_0_7 (m_ln_1p m (depth c))))
      as (X1 & X2 & X3); try done; try lra.
    destruct (term_moves f_0_9 (encompasses_weight c) (encompasses_weight c')) as (B1 & B2 & B3);
      [apply K09|apply K09|apply (pc_encompasses c P)|apply (pc_encompasses c' P')|apply amount_above, P|apply G|].
    destruct (sub_rises 200 200 _ (fmul f_0_9 (m_ln_1p m (encompasses_weight c'))) _ (fmul f_0_9 (m_ln_1p m (encompasses_weight c))) ltac:(lia) X1 B2 X2 B1 X3 B3)
      as (Y1 & Y2 & Y3).
    destruct (term_moves f_0_6 (encompassed_weight c') (encompassed_weight c)) as (C1 & C2 & C3);
      [apply K06|apply K06|apply (pc_encompassed c' P')|apply (pc_encompassed c P)|apply amount_above, P'|apply G|].
    destruct (add_rises 400 200 _ _ _ _ ltac:(lia) Y1 C1 Y2 C2 Y3 C3) as (Z1 & Z2 & Z3).
    pose proof (frequency_amount _ (pc_frequency c P)) as Fr. pose proof (frequency_amount _ (pc_frequency c' P')) as Fr'.
    destruct (term_moves f_2 (f_of_nat (frequency c')) (f_of_nat (frequency c))) as (D1 & D2 & D3);
      [apply K2|apply K2|apply Fr'|apply Fr|apply amount_above, Fr'| |].
    { apply fle_true; [apply Fr'|apply Fr|]. apply f_of_Z_le; [| |pose proof (ag_frequency c c' G); lia].
      - pose proof (pc_frequency c' P'). lia.
      - pose proof (pc_frequency c P). lia. }
    destruct (add_rises 600 200 _ _ _ _ ltac:(lia) Z1 D1 Z2 D2 Z3 D3) as (W1 & W2 & W3).
    unfold log_cost. cbv zeta.
    set (w := fadd (fadd (fsub (fsub fzero (fmul f_0_7 (m_ln_1p m (depth c)))) _) _) _) in *.
    set (w' := fadd (fadd (fsub (fsub fzero (fmul f_0_7 (m_ln_1p m (depth c')))) _) _) _) in *.
    change (600 + 200)%Z with 800%Z in *.
    assert (E : size 801 (if dead_end c then fsub w f_1 else w) ∧ size 801 (if dead_end c' then fsub w' f_1 else w') ∧
      val (if dead_end c' then fsub w' f_1 else w') <= val (if dead_end c then fsub w f_1 else w)).
    { destruct (sub_rises 800 1 w' f_1 w f_1 ltac:(lia) W1 S1 W2 S1 W3 ltac:(lra)) as (U1 & U2 & U3).
      assert (size 801 w) by (eapply btw_weaken; [exact W2|lra|lra]).
      assert (size 801 w') by (eapply btw_weaken; [exact W1|lra|lra]).
      pose proof (ag_dead_end c c' G) as Hd. destruct (dead_end c) eqn:E1; [rewrite (Hd eq_refl); done|].
      destruct (dead_end c') eqn:E2; [|done]. split; [done|]. split; [done|].
      destruct (sub_size 800 1 w' f_1 W1 S1 ltac:(lia)) as [_ ->]. eapply Rle_trans; [|exact W3].
      apply rnd_le_repr; [apply repr_val, W1|]. unfold f_1. rewrite lit_val. simpl. lra. }
    set (e := if dead_end c then fsub w f_1 else w) in *. set (e' := if dead_end c' then fsub w' f_1 else w') in *.
    destruct E as (E1 & E2 & E3).
    pose proof (ag_velocity c c' G) as Hv. pose proof (ag_stagnant c c' G) as Hs. pose proof (ag_known c c' G) as Hk.
    pose proof (pc_velocity c P) as Pv. pose proof (pc_velocity c' P') as Pv'.
    unfold stagnant, known_well in *.
    destruct (velocity c) as [v|] eqn:Ev, (velocity c') as [v'|]; try done; [|split; [apply E1|]; split; [apply E2|done]].
    pose proof (Pv v eq_refl) as Fv. pose proof (Pv' v' eq_refl) as Fv'. pose proof (Ab v Ev) as Av.
    destruct (ln_moves v v' Fv Fv' Av Hv) as (L1 & L2 & L3).
    destruct (mul_rises 100 2 f_0_5 (fneg (m_ln_1p m v')) (fneg (m_ln_1p m v))) as (M1 & M2 & M3);
      [apply K05|apply K05|lia|lia|by apply neg_size|by apply neg_size|rewrite !fneg_val; lra|].
    destruct (add_rises 801 200 _ _ _ _ ltac:(lia) E2 M1 E1 M2 E3 M3) as (N1 & N2 & N3).
    rewrite <-Hs. destruct (flt (fabs v) f_0_2) eqn:St; [|split; [apply N2|]; split; [apply N1|done]].
    change (801 + 200)%Z with 1001%Z in *.
    destruct (add_rises 1001 1 _ _ _ _ ltac:(lia) N1 S1 N2 S1 N3 ltac:(lra)) as (Q1 & Q2 & Q3).
    destruct (sub_rises 1001 1 _ _ _ _ ltac:(lia) N1 S07 N2 S07 N3 ltac:(lra)) as (R1 & R2 & R3).
    destruct (fge (exercise_score c') f_4) eqn:K'; [rewrite (Hk eq_refl eq_refl); split; [apply Q2|]; split; [apply Q1|done]|].
    destruct (fge (exercise_score c) f_4) eqn:K; [|split; [apply R2|]; split; [apply R1|done]].
    split; [apply Q2|]. split; [apply R1|].
    destruct (sub_size 1001 1 _ f_0_7 N2 S07 ltac:(lia)) as [_ V1]. destruct (add_size 1001 1 _ f_1 N2 S1 ltac:(lia)) as [_ V2].
    eapply Rle_trans; [exact R3|]. rewrite V1, V2. apply rnd_le. unfold f_0_7, f_1. rewrite !lit_val. simpl. lra.
  Qed.

  (** ** Costs and weights *)
  Lemma clamp_falls x y : fle fzero x = true → fle x y = true →
    between f_0_05 (fclamp x f_0_05 f_100) f_100 ∧ between f_0_05 (fclamp y f_0_05 f_100) f_100 ∧
    fle (fclamp x f_0_05 f_100) (fclamp y f_0_05 f_100) = true.
  Proof using.
    intros Hx Hxy.
    assert (Hl : val f_0_05 <= val f_100) by (unfold f_0_05, f_100; rewrite !lit_val; simpl; lra).
    assert (C : ∀ z, fin z → between f_0_05 (fclamp z f_0_05 f_100) f_100).
    { intros z Fz. apply fle_btw; [done|done|]. by apply fclamp_btw. }
    assert (I : between f_0_05 (fclamp (B754_infinity false) f_0_05 f_100) f_100) by done.
    assert (Fx : fin x ∨ x = B754_infinity false).
    { destruct x as [s|[]| |s mx ex Hx']; try done; [by left|by right|by left]. }
    assert (Fy : fin y ∨ y = B754_infinity false).
    { destruct Fx as [Fx| ->].
      - destruct y as [s|[]| |s my ey Hy']; try (by left); try (by right); exfalso; by destruct x as [|[]| |[]].
      - right. destruct y as [[]|[]| |[] my ey Hy']; done. }
    destruct Fy as [Fy| ->].
    - destruct Fx as [Fx| ->]; [|exfalso; by destruct y as [[]|[]| |[] ? ? ?]].
      split; [by apply C|]. split; [by apply C|]. apply fle_true; [by apply fclamp_btw|by apply fclamp_btw|].
      destruct (fclamp_val x f_0_05 f_100) as [_ ->]; [done..|]. destruct (fclamp_val y f_0_05 f_100) as [_ ->]; [done..|].
      apply fle_true in Hxy; [|done|done]. unfold Rmin, Rmax. repeat destruct (Rle_dec _ _); lra.
    - destruct Fx as [Fx| ->]; [|done]. split; [by apply C|]. split; [done|]. apply (C x Fx).
  Qed.
  Lemma cost_falls_above c c' : plain_candidate c → plain_candidate c' → above c → as_good c c' →
    between f_0_05 (candidate_cost m c) f_100 ∧ between f_0_05 (candidate_cost m c') f_100 ∧
    fle (candidate_cost m c') (candidate_cost m c) = true.
  Proof using Hm.
    intros P P' A G. rewrite !cost_log. destruct (log_cost_falls c c' P P' A G) as (F & F' & L).
    destruct (clamp_falls (m_exp m (log_cost m c')) (m_exp m (log_cost m c))) as (B & B' & H); [| |done].
    - by apply (exp_positive m Hm).
    - apply (exp_rises m Hm); [done|done|]. by apply fle_true.
  Qed.

  Lemma as_good_refl c : plain_candidate c → as_good c c.
  Proof using.
    intros P. assert (R : ∀ x, fin x → fle x x = true) by (intros x Fx; apply fle_true; [done|done|lra]).
    assert (Fu : fin (urgency c)) by (pose proof (pc_urgency c P) as [H1 H2]; by apply (fle_fin _ fzero f_1)).
    constructor; [by apply R|apply R, (pc_depth c P)|apply R, (pc_encompasses c P)|apply R, (pc_encompassed c P)|done|done| |done|done].
    pose proof (pc_velocity c P) as Pv. destruct (velocity c) as [v|]; [|done]. by apply R, Pv.
  Qed.

  Lemma above_good c c' : plain_candidate c → plain_candidate c' → as_good c c' → above c → above c'.
  Proof using.
    intros P P' G A v' E'. pose proof (ag_velocity c c' G) as V. rewrite E' in V. destruct (velocity c) as [v|] eqn:E; [|done].
    pose proof (A v E) as L. pose proof (pc_velocity c P v E) as F. pose proof (pc_velocity c' P' v' E') as F'.
    apply flt_true; [done|done|]. apply flt_true in L; [|done|done]. apply fle_true in V; [|done|done]. lra.
  Qed.
  (** At the pole. *)
  Lemma cost_pole c v : plain_candidate c → velocity c = Some v → feq v (fneg f_1) = true → candidate_cost m c = f_100.
  Proof using Hm.
    intros P Hv E. pose proof (pc_velocity c P v Hv) as Fv.
    set (c0 := Candidate (exercise_id c) (lesson_id c) (course_id c) (depth c) (exercise_score c) (frequency c) (urgency c) None (dead_end c)
      (encompasses_weight c) (encompassed_weight c)).
    assert (P0 : plain_candidate c0) by (constructor; try apply P; done).
    destruct (log_cost_falls c0 c0 P0 P0 ltac:(done) (as_good_refl c0 P0)) as [F0 _].
    assert (L : log_cost m c = (let x := fadd (log_cost m c0) (fmul f_0_5 (fneg (m_ln_1p m v))) in
      if flt (fabs v) f_0_2 then if fge (exercise_score c) f_4 then fadd x f_1 else fsub x f_0_7 else x)).
    { unfold log_cost. rewrite Hv. done. }
    rewrite (ln_pole m Hm v E) in L. cbv zeta in L.
    assert (I : fadd (log_cost m c0) (fmul f_0_5 (fneg (B754_infinity true))) = B754_infinity false).
    { revert F0. generalize (log_cost m c0). intros [[]|[]| |[] ? ? ?]; done. }
    rewrite I in L. assert (L' : log_cost m c = B754_infinity false).
    { rewrite L. destruct (flt (fabs v) f_0_2); [|done]. by destruct (fge (exercise_score c) f_4). }
    rewrite cost_log, L', (exp_pole m Hm). done.
  Qed.
  Lemma cost_range c : plain_candidate c → falls_slowly c → between f_0_05 (candidate_cost m c) f_100.
  Proof using Hm.
    intros P S. destruct (velocity c) as [v|] eqn:E.
    2: { apply (cost_falls_above c c P P); [by intros v' E'; rewrite E in E'|by apply as_good_refl]. }
    pose proof (S v E) as L. pose proof (pc_velocity c P v E) as F. destruct (flt (fneg f_1) v) eqn:H.
    - apply (cost_falls_above c c P P); [|by apply as_good_refl]. intros v' E'. rewrite E in E'. by injection E' as <-.
    - rewrite (cost_pole c v P E); [done|]. apply feq_true; [done|done|].
      apply fle_true in L; [|done|done]. apply flt_false in H; [|done|done]. lra.
  Qed.
  Lemma falls_slowly_good c c' : plain_candidate c → plain_candidate c' → as_good c c' → falls_slowly c → falls_slowly c'.
  Proof using.
    intros P P' G A v' E'. pose proof (ag_velocity c c' G) as V. rewrite E' in V. destruct (velocity c) as [v|] eqn:E; [|done].
    pose proof (A v E) as L. pose proof (pc_velocity c P v E) as F. pose proof (pc_velocity c' P' v' E') as F'.
    apply fle_true; [done|done|]. apply fle_true in L; [|done|done]. apply fle_true in V; [|done|done]. lra.
  Qed.
  Lemma cost_falls c c' : plain_candidate c → plain_candidate c' → falls_slowly c → as_good c c' →
    between f_0_05 (candidate_cost m c) f_100 ∧ between f_0_05 (candidate_cost m c') f_100 ∧
    fle (candidate_cost m c') (candidate_cost m c) = true.
  Proof using Hm.
    intros P P' S G. pose proof (falls_slowly_good c c' P P' G S) as S'.
    split; [by apply cost_range|]. split; [by apply cost_range|].
    destruct (velocity c) as [v|] eqn:E; [|by apply cost_falls_above; try done; intros v' E'; rewrite E in E'].
    destruct (flt (fneg f_1) v) eqn:H.
    - apply cost_falls_above; try done. intros v' E'. rewrite E in E'. by injection E' as <-.
    - rewrite (cost_pole c v P E); [by apply cost_range|].
      pose proof (S v E) as L. pose proof (pc_velocity c P v E) as F. apply feq_true; [done|done|].
      apply fle_true in L; [|done|done]. apply flt_false in H; [|done|done]. lra.
  Qed.

  Lemma divide u k : fin u → fin k → 0 <= val u <= 1 → / 8 <= val k → btw 0 8 (fdiv u k) ∧ val (fdiv u k) = rnd (val u / val k).
  Proof using.
    intros Hu Hk Bu Bk. apply fdiv_btw; [done|done|lra|apply (repr_Z 0); lia|apply (repr_Z 8); lia|]. split.
    - apply Rmult_le_reg_r with (val k); [lra|]. unfold Rdiv. rewrite Rmult_assoc, Rinv_l by lra. lra.
    - apply Rmult_le_reg_r with (val k); [lra|]. unfold Rdiv. rewrite Rmult_assoc, Rinv_l by lra. lra.
  Qed.
  Lemma val_0_2 : / 8 <= val f_0_2.
  Proof using. unfold f_0_2. rewrite lit_val. simpl. lra. Qed.
  Lemma val_1 : val f_1 = 1.
  Proof using. unfold f_1. rewrite lit_val. simpl. lra. Qed.
  Lemma val_10 : val f_10 = 10.
  Proof using. unfold f_10. rewrite lit_val. simpl. lra. Qed.

  Lemma weight_rises_slowly c c' : plain_candidate c → plain_candidate c' → falls_slowly c → as_good c c' →
    fle (candidate_weight m c) (candidate_weight m c') = true.
  Proof using Hm.
    intros P P' S G. destruct (cost_falls c c' P P' S G) as (B & B' & L). unfold candidate_weight.
    pose proof (sqrt_range m Hm _ B) as Q. pose proof (sqrt_range m Hm _ B') as Q'. pose proof (sqrt_rises m Hm _ _ B' B L) as R.
    set (q := m_sqrt m (candidate_cost m c)) in *. set (q' := m_sqrt m (candidate_cost m c')) in *.
    apply fle_btw in Q as [Fq Bq]; [|done|done]. apply fle_btw in Q' as [Fq' Bq']; [|done|done].
    apply fle_true in R; [|done|done].
    destruct (proj1 (fle_btw _ fzero f_1 eq_refl eq_refl) (pc_urgency c P)) as [Fu Bu].
    destruct (proj1 (fle_btw _ fzero f_1 eq_refl eq_refl) (pc_urgency c' P')) as [Fu' Bu'].
    pose proof val_0_2 as Lo. rewrite v_0, val_1 in *.
    destruct (divide (urgency c) q) as [[F1 B1] E1]; [done|done|lra..|].
    destruct (divide (urgency c') q') as [[F2 B2] E2]; [done|done|lra..|].
    pose proof (ag_urgency c c' G) as Gu.
    destruct (fmax_val (fdiv (urgency c) q) f_0_05) as [Fm Em]; [done|done|].
    destruct (fmax_val (fdiv (urgency c') q') f_0_05) as [Fm' Em']; [done|done|].
    apply fle_true; [done|done|]. rewrite Em, Em'.
    assert (val (fdiv (urgency c) q) <= val (fdiv (urgency c') q')); [|unfold Rmax; repeat destruct (Rle_dec _ _); lra].
    rewrite E1, E2. apply rnd_le. apply fle_true in Gu; [|done|done].
    apply Rle_trans with (val (urgency c') / val q).
    - apply Rmult_le_compat_r; [|done]. left. apply Rinv_0_lt_compat. lra.
    - apply Rmult_le_compat_l; [lra|]. apply Rinv_le; lra.
  Qed.

  Lemma weight_range c : plain_candidate c → falls_slowly c →
    fle (fdiv (urgency c) f_10) (candidate_weight m c) = true ∧
    fle (candidate_weight m c) (fmax (fdiv (urgency c) f_0_2) f_0_05) = true.
  Proof using Hm.
    intros P S. pose proof (cost_range c P S) as B. unfold candidate_weight.
    pose proof (sqrt_range m Hm _ B) as Q. set (q := m_sqrt m (candidate_cost m c)) in *.
    destruct (proj1 (fle_btw _ f_0_2 f_10 eq_refl eq_refl) Q) as [Fq Bq].
    destruct (proj1 (fle_btw _ fzero f_1 eq_refl eq_refl) (pc_urgency c P)) as [Fu Bu].
    pose proof val_0_2 as Lo. rewrite v_0, val_1, val_10 in *.
    destruct (divide (urgency c) q) as [[F1 B1] E1]; [done|done|lra..|].
    destruct (divide (urgency c) f_10) as [[F2 B2] E2]; [done|done|lra|rewrite val_10; lra|].
    destruct (divide (urgency c) f_0_2) as [[F3 B3] E3]; [done|done|lra..|].
    destruct (fmax_val (fdiv (urgency c) q) f_0_05) as [Fm Em]; [done|done|].
    destruct (fmax_val (fdiv (urgency c) f_0_2) f_0_05) as [Fm' Em']; [done|done|].
    assert (I1 : val (fdiv (urgency c) f_10) <= val (fdiv (urgency c) q)).
    { rewrite E1, E2. apply rnd_le. apply Rmult_le_compat_l; [lra|]. apply Rinv_le; rewrite ?val_10; lra. }
    assert (I2 : val (fdiv (urgency c) q) <= val (fdiv (urgency c) f_0_2)).
    { rewrite E1, E3. apply rnd_le. apply Rmult_le_compat_l; [lra|]. apply Rinv_le; lra. }
    split; (apply fle_true; [done|done|]); rewrite ?Em, ?Em'; unfold Rmax; repeat destruct (Rle_dec _ _); lra.
  Qed.

  (** ** Grades that fall fast *)
  Lemma nan_is x : fis_nan x = true → x = fnan.
  Proof using. by destruct x. Qed.
  Lemma weight_lost c v : velocity c = Some v → flt v (fneg f_1) = true → candidate_weight m c = f_0_05.
  Proof using Hm.
    intros Hv Hlt. pose proof (nan_is _ (ln_undefined m Hm v Hlt)) as Hn.
    assert (E : ∀ x, fadd x (fmul f_0_5 (fneg fnan)) = fnan) by (intros x; by destruct x).
    assert (L : log_cost m c = fnan).
    { unfold log_cost. rewrite Hv, Hn. cbv zeta. rewrite E. destruct (flt (fabs v) f_0_2); [|done]. by destruct (fge (exercise_score c) f_4). }
    unfold candidate_weight. rewrite cost_log, L.
    rewrite (nan_is _ (exp_undefined m Hm fnan eq_refl)). change (fclamp fnan f_0_05 f_100) with fnan.
    rewrite (nan_is _ (sqrt_undefined m Hm fnan eq_refl)). by destruct (urgency c).
  Qed.
  Lemma weight_floor c : fle f_0_05 (candidate_weight m c) = true.
  Proof using.
    unfold candidate_weight, fmax. set (x := fdiv _ _). destruct (fis_nan x) eqn:En; [done|]. change (fis_nan f_0_05) with false. cbv iota.
    destruct (flt x f_0_05) eqn:El; [done|]. destruct x as [[]|[]| |[] mx ex Hx]; try done.
    apply fle_true; [done|done|]. by apply flt_false in El.
  Qed.
  Lemma weight_rises c c' : plain_candidate c → plain_candidate c' → as_good c c' →
    fle (candidate_weight m c) (candidate_weight m c') = true.
  Proof using Hm.
    intros P P' G. destruct (velocity c) as [v|] eqn:E; [|by apply weight_rises_slowly; try done; intros v' E'; rewrite E in E'].
    pose proof (pc_velocity c P v E) as F. destruct (fle (fneg f_1) v) eqn:H.
    - apply weight_rises_slowly; try done. intros v' E'. rewrite E in E'. by injection E' as <-.
    - rewrite (weight_lost c v E); [apply weight_floor|]. apply flt_true; [done|done|]. by apply fle_false in H.
  Qed.
End moves.
