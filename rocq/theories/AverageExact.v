(** Proof that the average of the grades is what the documented weights give, up to rounding. *)
From stdpp Require Import list strings.
From Coq Require Import ZArith Reals Lra Lia.
From Flocq Require Import Core.Core IEEE754.BinarySingleNaN.
From Verif Require Import F32 F32Real F32More Stores Scorer ScorerSpec ScorerProofs ScoreProofs PowerSample AverageProofs CurveProofs MemoryProofs ExactSpec MemoryExact CurveExact.
Local Open Scope R_scope.

(** ** Sums *)
Lemma total_nil : total [] = 0. Proof. reflexivity. Qed.
Lemma total_cons x l : total (x :: l) = x + total l. Proof. reflexivity. Qed.
Lemma total_app l k : total (l ++ k) = total l + total k.
Proof. induction l as [|x l IH]; [cbn [app]; rewrite total_nil; lra|]. cbn [app]. rewrite !total_cons, IH. lra. Qed.
Lemma total_diff l k e : Forall2 (λ x y, Rabs (x - y) <= e) l k → Rabs (total l - total k) <= INR (length l) * e.
Proof.
  induction 1 as [|x y l k H _ IH]; [rewrite total_nil, Rminus_diag_eq, Rabs_R0 by done; cbn; lra|].
  rewrite !total_cons. cbn [length]. rewrite S_INR.
  replace (x + total l - (y + total k)) with ((x - y) + (total l - total k)) by lra.
  eapply Rle_trans; [apply Rabs_triang|]. lra.
Qed.
Lemma total_least l c : Forall (λ x, c <= x) l → INR (length l) * c <= total l.
Proof. intros H. induction H as [|x l Hx _ IH]; [rewrite total_nil; cbn; lra|]. rewrite total_cons. cbn [length]. rewrite S_INR. lra. Qed.

Definition reals (l : list (f32 * f32)) : list (R * R) := (λ p, (val p.1, val p.2)) <$> l.
Definition products (l : list (R * R)) : list R := (λ p, p.1 * p.2) <$> l.
Definition fair (wv : f32 * f32) : Prop := btw 0 1 wv.1 ∧ btw (-5) 5 wv.2.
Lemma products_bound l : Forall (λ p : R * R, 0 <= p.1 ∧ Rabs p.2 <= 5) l → Rabs (total (products l)) <= 5 * total (fst <$> l).
Proof.
  intros H. induction H as [|x l [H1 H2] _ IH]; [unfold products; cbn [fmap list_fmap]; rewrite total_nil, Rabs_R0; lra|].
  unfold products in *. rewrite !fmap_cons, !total_cons. eapply Rle_trans; [apply Rabs_triang|].
  rewrite Rabs_mult, (Rabs_pos_eq x.1) by done. nra.
Qed.

Lemma sums_close l : Forall fair l → (length l <= 1000)%nat →
  let acc := fold_left add_weighted l (fzero, fzero) in
  let n := INR (length l) in let W := total (fst <$> reals l) in
  fin acc.1 ∧ fin acc.2 ∧ 0 <= W <= n ∧ n <= 1000 ∧
  Rabs (val acc.1 - total (products (reals l))) <= n * (W / 1000000 + / 10000000000) ∧
  Rabs (val acc.2 - W) <= n * (W / 1000000 + / 10000000000).
Proof.
  induction l as [|[w v] l IH] using rev_ind; intros HF Hn.
  { intros acc n W. unfold acc, n, W. cbn [fold_left fst snd length reals products fmap list_fmap INR]. unfold products, reals. cbn [fmap list_fmap].
    rewrite total_nil, v_0, Rminus_diag_eq, Rabs_R0 by done. repeat split; try done; lra. }
  apply Forall_app in HF as [HF [Hx _]%Forall_cons]. rewrite app_length in Hn. cbn [length] in Hn.
  destruct (IH HF ltac:(lia)) as (F1 & F2 & HW & Hk & E1 & E2). clear IH. cbv zeta in *.
  rewrite fold_left_app. cbn [fold_left]. set (acc := fold_left add_weighted l (fzero, fzero)) in *. unfold add_weighted. cbn [fst snd].
  rewrite app_length. cbn [length]. rewrite plus_INR. change (INR 1) with 1.
  assert (B0 : Rabs (total (products (reals l))) <= 5 * total (fst <$> reals l)).
  { apply products_bound. apply Forall_fmap. eapply Forall_impl; [exact HF|]. intros p [[_ P1] [_ P2]]. cbn. split; [lra|]. apply Rabs_le. lra. }
  assert (Er : reals (l ++ [(w, v)]) = reals l ++ [(val w, val v)]) by (unfold reals; by rewrite fmap_app). rewrite Er.
  assert (Ew : total (fst <$> reals l ++ [(val w, val v)]) = total (fst <$> reals l) + val w).
  { rewrite fmap_app, total_app. cbn [fmap list_fmap fst]. rewrite total_cons, total_nil. lra. }
  assert (Ep : total (products (reals l ++ [(val w, val v)])) = total (products (reals l)) + val w * val v).
  { unfold products. rewrite fmap_app, total_app. cbn [fmap list_fmap fst snd]. rewrite total_cons, total_nil. lra. }
  rewrite Ew, Ep. clear Er Ew Ep. destruct Hx as [[Fw Hw] [Fv Hv]]. cbn [fst snd] in *.
  assert (Hk' : INR (length l) <= 999) by (rewrite INR_IZR_INZ; apply IZR_le; lia). assert (H0 : 0 <= INR (length l)) by apply pos_INR.
  set (n := INR (length l)) in *. clearbody n. set (W := total (fst <$> reals l)) in *. clearbody W.
  set (S := total _) in *. clearbody S.
  assert (En : n * (W / 1000000 + / 10000000000) <= W / 1000 + / 10000000) by nra.
  apply Rabs_le_inv in E1 as E1', E2 as E2', B0.
  assert (Hvw : -5 * val w <= val w * val v <= 5 * val w) by nra.
  destruct (fmul_btw w v (-5) 5) as [[Ft Ht] Et]; [done|done|rp|rp|nra|].
  pose proof (close (val w * val v) (5 * val w) ltac:(apply Rabs_le; lra)) as C1. rewrite <-Et in C1. apply Rabs_le_inv in C1.
  destruct (fadd_btw acc.1 (fmul w v) (-6000) 6000) as [[Fa Ha] Ea]; [done|done|rp|rp|lra|].
  pose proof (close (val acc.1 + val (fmul w v)) (5001 / 1000 * (W + val w) + 2 / 10000000) ltac:(apply Rabs_le; lra)) as C2.
  rewrite <-Ea in C2. apply Rabs_le_inv in C2.
  destruct (fadd_btw acc.2 w (-6000) 6000) as [[Fb Hb] Eb]; [done|done|rp|rp|lra|].
  pose proof (close (val acc.2 + val w) (5001 / 1000 * (W + val w) + 2 / 10000000) ltac:(apply Rabs_le; lra)) as C3.
  rewrite <-Eb in C3. apply Rabs_le_inv in C3.
  assert (K : n * (W / 1000000 + / 10000000000) <= n * ((W + val w) / 1000000 + / 10000000000)) by (apply Rmult_le_compat_l; lra).
  repeat split; try done; try lra; apply Rabs_le; lra.
Qed.

Lemma ratio_close l : Forall fair l → (0 < length l <= 1000)%nat → / 20 <= total (fst <$> reals l) →
  let acc := fold_left add_weighted l (fzero, fzero) in
  btw (-6) 6 (ratio acc) ∧ Rabs (val (ratio acc) - mean (reals l)) <= INR (length l) / 100000.
Proof.
  intros HF Hn HW acc. destruct (sums_close l HF ltac:(lia)) as (F1 & F2 & _ & Hk & E1 & E2). cbv zeta in *. fold acc in F1, F2, E1, E2.
  assert (B0 : Rabs (total (products (reals l))) <= 5 * total (fst <$> reals l)).
  { apply products_bound. apply Forall_fmap. eapply Forall_impl; [exact HF|]. intros p [[_ P1] [_ P2]]. cbn. split; [lra|]. apply Rabs_le. lra. }
  assert (H1 : 1 <= INR (length l)) by (rewrite INR_IZR_INZ; apply IZR_le; lia).
  unfold mean. fold (products (reals l)). set (n := INR (length l)) in *. clearbody n. set (W := total (fst <$> reals l)) in *. clearbody W.
  set (S := total _) in *. clearbody S. apply Rabs_le_inv in E1, E2, B0.
  assert (En : n * (W / 1000000 + / 10000000000) <= n * (W * (1002 / 1000000000))) by (apply Rmult_le_compat_l; lra).
  assert (En2 : n * (W * (1002 / 1000000000)) <= W * (11 / 10000)) by nra.
  unfold ratio. set (N := val acc.1) in *. set (D := val acc.2) in *.
  assert (HD : W * (99 / 100) <= D) by lra. assert (ID : 0 < / D) by (apply Rinv_0_lt_compat; lra).
  set (q := S / W). assert (Sq : S = q * W) by (unfold q; field; lra).
  assert (Bq : -5 <= q <= 5).
  { unfold q, Rdiv. assert (IW : 0 < / W) by (apply Rinv_0_lt_compat; lra). assert (W * / W = 1) by (apply Rinv_r; lra). split; nra. }
  clearbody q. subst S.
  assert (Eq : Rabs (N / D - q) <= n * (7 / 1000000)).
  { apply Rabs_le. set (h := n * (W * (1002 / 1000000000))) in *.
    assert (Hh : 6 * h <= n * (7 / 1000000) * D).
    { unfold h. apply Rle_trans with (n * (7 / 1000000) * (W * (99 / 100))); [nra|]. apply Rmult_le_compat_l; [lra|done]. }
    assert (Hc : - (6 * h) <= N - q * D <= 6 * h) by (split; nra).
    assert (En3 : N / D - q = (N - q * D) * / D) by (unfold Rdiv; field; lra). rewrite En3. assert (DI : D * / D = 1) by (apply Rinv_r; lra).
    assert (Hx : n * (7 / 1000000) * D * / D = n * (7 / 1000000)) by (rewrite Rmult_assoc, DI; lra).
    split.
    - replace (- (n * (7 / 1000000))) with (- (n * (7 / 1000000) * D) * / D) by (rewrite <-Hx at 2; ring). apply Rmult_le_compat_r; lra.
    - rewrite <-Hx. apply Rmult_le_compat_r; lra. }
  apply Rabs_le_inv in Eq. destruct (fdiv_btw acc.1 acc.2 (-6) 6) as [B Ed]; [done|done|fold D; lra|rp|rp|fold N D; lra|].
  split; [done|]. rewrite Ed. fold N D. pose proof (close (N / D) 6 ltac:(apply Rabs_le; lra)) as C. apply Rabs_le_inv in C. apply Rabs_le. lra.
Qed.

(** Other weights *)
Lemma mean_weights l l' : Forall2 (λ p p' : R * R, p.2 = p'.2 ∧ Rabs p.2 <= 5 ∧ 9 / 100 <= p.1 ∧ 9 / 100 <= p'.1 ∧ Rabs (p.1 - p'.1) <= / 100000) l l' → l ≠ [] →
  Rabs (mean l - mean l') <= 12 / 10000.
Proof.
  intros HF Hne. assert (Hn : 1 <= INR (length l)).
  { destruct l; [done|]. cbn [length]. rewrite S_INR. pose proof (pos_INR (length l)). lra. }
  assert (Hl : length l = length l') by (by eapply Forall2_length).
  assert (D1 : Rabs (total (fst <$> l) - total (fst <$> l')) <= INR (length l) * / 100000).
  { rewrite <-(fmap_length fst l). apply total_diff. apply Forall2_fmap. eapply Forall2_impl; [exact HF|]. intros p p' H. apply H. }
  assert (D2 : Rabs (total (products l) - total (products l')) <= INR (length l) * (5 * / 100000)).
  { rewrite <-(fmap_length (λ p : R * R, p.1 * p.2) l). apply total_diff. apply Forall2_fmap. eapply Forall2_impl; [exact HF|].
    intros p p' (E & H1 & _ & _ & H2). rewrite <-E. replace (p.1 * p.2 - p'.1 * p.2) with (p.2 * (p.1 - p'.1)) by ring. rewrite Rabs_mult.
    apply Rmult_le_compat; try apply Rabs_pos; done. }
  assert (W1 : INR (length l) * (9 / 100) <= total (fst <$> l)).
  { rewrite <-(fmap_length fst l). apply total_least, Forall_fmap, Forall_lookup_2. intros i p Hi. destruct (Forall2_lookup_l _ _ _ _ _ HF Hi) as (p' & _ & H). apply H. }
  assert (W2 : INR (length l) * (9 / 100) <= total (fst <$> l')).
  { rewrite Hl, <-(fmap_length fst l'). apply total_least, Forall_fmap, Forall_lookup_2. intros i p Hi. destruct (Forall2_lookup_r _ _ _ _ _ HF Hi) as (p' & _ & H). apply H. }
  assert (B : Rabs (total (products l')) <= 5 * total (fst <$> l')).
  { apply products_bound, Forall_lookup_2. intros i p Hi. destruct (Forall2_lookup_r _ _ _ _ _ HF Hi) as (p' & _ & E & H1 & _ & H2 & _).
    split; [lra|]. by rewrite <-E. }
  unfold mean. fold (products l) (products l'). set (n := INR (length l)) in *. clearbody n.
  set (W := total (fst <$> l)) in *. set (W' := total (fst <$> l')) in *. set (S := total (products l)) in *. set (S' := total (products l')) in *.
  clearbody W W' S S'. apply Rabs_le_inv in D1, D2, B.
  set (q := S' / W'). assert (Sq : S' = q * W') by (unfold q; field; lra).
  assert (Bq : -5 <= q <= 5).
  { unfold q, Rdiv. assert (IW : 0 < / W') by (apply Rinv_0_lt_compat; lra). assert (W' * / W' = 1) by (apply Rinv_r; lra). split; nra. }
  clearbody q. subst S'. assert (IW : 0 < / W) by (apply Rinv_0_lt_compat; lra). assert (DI : W * / W = 1) by (apply Rinv_r; lra).
  replace (S / W - q) with ((S - q * W) * / W) by (field; lra).
  assert (Hc : - (n * (10 * / 100000)) <= S - q * W <= n * (10 * / 100000)) by (split; nra).
  apply Rabs_le. split.
  - replace (- (12 / 10000)) with (- (12 / 10000 * W) * / W) by (replace (- (12 / 10000 * W) * / W) with (- (12 / 10000 * (W * / W))) by ring; rewrite DI; lra).
    apply Rmult_le_compat_r; lra.
  - replace (12 / 10000) with (12 / 10000 * W * / W) by (rewrite Rmult_assoc, DI; lra). apply Rmult_le_compat_r; lra.
Qed.

(** ** The weights *)
Lemma exp_mean a b : a <= b → exp b - exp a <= (b - a) * exp b.
Proof.
  intros H. pose proof (exp_ineq1_le (a - b)) as E. replace (exp a) with (exp b * exp (a - b)) by (rewrite <-exp_plus; f_equal; ring).
  pose proof (exp_pos b). nra.
Qed.
(** x * exp (- x * p) is bounded. *)
Lemma fades_out x p : 0 <= x → / 25 <= p → 0 <= x * exp (- x * p) <= 25.
Proof.
  intros Hx Hp. pose proof (exp_pos (- x * p)) as P. split; [nra|].
  pose proof (exp_ineq1_le (x * p)) as E. assert (I : exp (- x * p) * exp (x * p) = 1) by (rewrite <-exp_plus, <-exp_0; f_equal; ring).
  assert (exp (- x * p) * (x * p) <= 1) by (rewrite <-I; apply Rmult_le_compat_l; lra). nra.
Qed.
Lemma ln_95 : / 25 <= - ln (95 / 100) <= / 10 ∧ / 25 <= - ln (val f_0_95) <= / 10 ∧ Rabs (ln (val f_0_95) - ln (95 / 100)) <= 6 / 100000000.
Proof.
  assert (V : val f_0_95 = 15938355 / 16777216) by (unfold f_0_95; rewrite lit_val; simpl; lra). rewrite V.
  assert (B : ∀ x, 94 / 100 <= x <= 96 / 100 → / 25 <= - ln x <= / 10).
  { intros x Hx. split.
    - pose proof (exp_ineq1_le (ln x)) as E. rewrite exp_ln in E by lra. lra.
    - pose proof (exp_ineq1_le (- ln x)) as E. rewrite exp_Ropp, exp_ln in E by lra.
      assert (/ x <= 110 / 100) by (replace (110 / 100) with (/ (100 / 110)) by lra; apply Rinv_le_contravar; lra). lra. }
  split; [apply B; lra|]. split; [apply B; lra|].
  set (e := 15938355 / 16777216 / (95 / 100) - 1). assert (Ee : 15938355 / 16777216 = 95 / 100 * (1 + e)) by (unfold e; lra).
  assert (He : Rabs e <= 3 / 100000000) by (unfold e; apply Rabs_le; lra). apply Rabs_le_inv in He as He'.
  rewrite Ee, ln_mult by lra. replace (ln (95 / 100) + ln (1 + e) - ln (95 / 100)) with (ln (1 + e)) by ring.
  eapply Rle_trans; [apply ln_near; lra|lra].
Qed.
Lemma decay_near x X : 0 <= x → 0 <= X → Rabs (x - X) <= X / 1000000 →
  Rabs (Rpower (val f_0_95) x - Rpower (95 / 100) X) <= 7 / 1000000.
Proof.
  intros Hx HX Hc. destruct ln_95 as (B1 & B2 & B3). unfold Rpower. apply Rabs_le_inv in B3, Hc.
  set (p := - ln (val f_0_95)) in *. set (q := - ln (95 / 100)) in *.
  replace (x * ln (val f_0_95)) with (- x * p) by (unfold p; ring). replace (X * ln (95 / 100)) with (- X * q) by (unfold q; ring).
  assert (Hd : Rabs (x * p - X * q) <= X * (2 / 10000000)).
  { replace (x * p - X * q) with ((x - X) * p + X * (p - q)) by ring. assert (PQ : - (6 / 100000000) <= p - q <= 6 / 100000000) by (unfold p, q; lra).
    apply Rabs_le. split; nra. }
  apply Rabs_le_inv in Hd.
  pose proof (fades_out X q HX (proj1 B1)) as FX. pose proof (fades_out x p Hx (proj1 B2)) as Fx.
  pose proof (exp_pos (- X * q)). pose proof (exp_pos (- x * p)).
  destruct (Rle_lt_dec (x * p) (X * q)) as [L|L].
  - assert (M : exp (- x * p) - exp (- X * q) <= (X * q - x * p) * exp (- x * p)).
    { replace (X * q - x * p) with (- x * p - - X * q) by ring. apply exp_mean. lra. }
    assert (exp (- X * q) <= exp (- x * p)) by (apply exp_le; lra). 
    assert (X <= x * (1001 / 1000)) by lra. apply Rabs_le. split; [lra|].
    apply Rle_trans with (X * (2 / 10000000) * exp (- x * p)); [eapply Rle_trans; [exact M|apply Rmult_le_compat_r; lra]|]. nra.
  - assert (M : exp (- X * q) - exp (- x * p) <= (x * p - X * q) * exp (- X * q)).
    { replace (x * p - X * q) with (- X * q - - x * p) by ring. apply exp_mean. lra. }
    assert (exp (- x * p) <= exp (- X * q)) by (apply exp_le; lra). apply Rabs_le. split; [|lra].
    assert (exp (- X * q) - exp (- x * p) <= X * (2 / 10000000) * exp (- X * q)); [eapply Rle_trans; [exact M|apply Rmult_le_compat_r; lra]|]. nra.
Qed.

Section weights.
  Context (powf : f32 → f32 → f32) (Hp : power_ok powf) (Hr : rounded_power powf).
  Lemma weight_close x X : fin x → 0 <= val x → 0 <= X → Rabs (val x - X) <= X / 1000000 →
    Rabs (val (decay_weight powf x) - weight_after X) <= / 100000.
  Proof using Hp Hr.
    intros Fx Hx HX Hc. pose proof (decay_near (val x) X Hx HX Hc) as H. apply Rabs_le_inv in H. destruct ln_95 as (_ & B2 & _).
    assert (V : val f_0_95 = 15938355 / 16777216) by (unfold f_0_95; rewrite lit_val; simpl; lra).
    assert (P : 0 < Rpower (val f_0_95) (val x) <= 1).
    { unfold Rpower. split; [apply exp_pos|]. rewrite <-exp_0. apply exp_le. nra. }
    destruct (Hr f_0_95 x eq_refl Fx) as [F1 V1]; [lra|lra|]. unfold decay_weight, weight_after.
    destruct (fmax_val (powf f_0_95 x) f_0_1 F1) as [_ ->]; [done|]. rewrite V1.
    pose proof (close (Rpower (val f_0_95) (val x)) 1 ltac:(apply Rabs_le; lra)) as C. apply Rabs_le_inv in C.
    assert (V01 : Rabs (val f_0_1 - / 10) <= / 100000000) by (unfold f_0_1; rewrite lit_val; apply Rabs_le; simpl; lra).
    apply Rabs_le_inv in V01. apply Rabs_le. unfold Rmax. repeat destruct (Rle_dec _ _); lra.
  Qed.
End weights.

(** ** Times *)
Lemma no_overflow a b : (Z.abs a <= 4611686018427387903)%Z → (Z.abs b <= 4611686018427387903)%Z →
  saturating_sub a b = (a - b)%Z ∧ (Z.abs (a - b) <= 2 ^ 63)%Z.
Proof. intros Ha Hb. unfold saturating_sub, i64_min, i64_max. change (2 ^ 63)%Z with 9223372036854775808%Z. lia. Qed.
Lemma quotient_close r c : 0 < c <= 100000 → 0 <= r → r = 0 ∨ / 1000 <= r → Rabs (rnd (r / c) - r / c) <= r / c / 16000000.
Proof.
  intros Hc H0 [->|H].
  - replace (0 / c) with 0 by (unfold Rdiv; lra). rewrite rnd_0, Rminus_diag_eq, Rabs_R0 by done. lra.
  - assert (I : / 100000 <= / c) by (apply Rinv_le_contravar; lra).
    assert (L : / 1000 * / 100000 <= r / c) by (unfold Rdiv; apply Rmult_le_compat; lra).
    pose proof (rel (r / c) ltac:(lra)) as E. eapply Rle_trans; [exact E|]. lra.
Qed.
Lemma seconds_close z : (Z.abs z <= 2 ^ 63)%Z → (0 <= z)%Z → 
  fin (fdiv (f_of_Z z) f_86400) ∧ 0 <= val (fdiv (f_of_Z z) f_86400) <= 9223372036854775808 ∧
  Rabs (val (fdiv (f_of_Z z) f_86400) - IZR z / 86400) <= IZR z / 86400 / 4000000 ∧
  (val (fdiv (f_of_Z z) f_86400) = 0 ∨ / 1000000 <= val (fdiv (f_of_Z z) f_86400)).
Proof.
  intros Hz Z0. destruct (f_of_Z_rnd z) as [F V]; [lia|].
  assert (Hn : 0 <= IZR z) by (by apply IZR_le). assert (Hu : IZR z <= 9223372036854775808) by (apply IZR_le; lia).
  assert (R63 : repr 9223372036854775808) by (change 9223372036854775808 with (IZR (2 ^ 63)); rewrite <-(bp 63 (2 ^ 63)) by lia; rp).
  assert (Hz0 : IZR z = 0 ∨ 1 <= IZR z) by (destruct (Z.eq_dec z 0) as [->|]; [by left|right; apply IZR_le; lia]).
  assert (B : 0 <= val (f_of_Z z) <= 9223372036854775808) by (rewrite V; split; [by apply rnd_pos|by apply rnd_le_repr]).
  destruct (fdiv_btw (f_of_Z z) f_86400 0 9223372036854775808) as [[Fd Hd] Ed]; [done|done|rewrite v_86400; lra|rp|done|rewrite v_86400; lra|].
  split; [done|]. split; [done|]. rewrite v_86400 in Ed.
  destruct Hz0 as [E0|H1].
  - assert (E : val (f_of_Z z) = 0) by (by rewrite V, E0, rnd_0).
    rewrite Ed, E, E0. replace (0 / 86400) with 0 by lra. rewrite rnd_0, Rminus_diag_eq, Rabs_R0 by done. split; [lra|by left].
  - pose proof (rel (IZR z) ltac:(lra)) as E1. rewrite <-V in E1. apply Rabs_le_inv in E1.
    pose proof (rel (val (f_of_Z z) / 86400) ltac:(lra)) as E2. rewrite <-Ed in E2. apply Rabs_le_inv in E2.
    split; [apply Rabs_le; lra|]. right. lra.
Qed.
Lemma days_close a b : (Z.abs a <= 4611686018427387903)%Z → (Z.abs b <= 4611686018427387903)%Z → (b <= a)%Z →
  fin (days_between a b) ∧ Rabs (val (days_between a b) - IZR (a - b) / 86400) <= IZR (a - b) / 86400 / 1000000.
Proof.
  intros Ha Hb Hab. destruct (no_overflow a b Ha Hb) as [E Hz]. unfold days_between. rewrite E.
  destruct (seconds_close (a - b) Hz ltac:(lia)) as (F & B & C & _). destruct (fmax_val _ fzero F) as [Fm ->]; [done|]. split; [done|].
  rewrite v_0, Rmax_left by lra. eapply Rle_trans; [exact C|]. assert (0 <= IZR (a - b)) by (apply IZR_le; lia). lra.
Qed.
Lemma weeks_close a b : (Z.abs a <= 4611686018427387903)%Z → (Z.abs b <= 4611686018427387903)%Z →
  fin (elapsed_weeks a b) ∧ 0 <= val (elapsed_weeks a b) ∧ Rabs (val (elapsed_weeks a b) - weeks a b) <= weeks a b / 1000000.
Proof.
  intros Ha Hb. destruct (no_overflow a b Ha Hb) as [E Hz]. unfold elapsed_weeks, weeks. rewrite E.
  destruct (Z.le_gt_cases 0 (a - b)) as [P|P].
  - destruct (seconds_close (a - b) Hz P) as (F & B & C & D). set (d := fdiv (f_of_Z (a - b)) f_86400) in *.
    assert (R63 : repr 9223372036854775808) by (change 9223372036854775808 with (IZR (2 ^ 63)); rewrite <-(bp 63 (2 ^ 63)) by lia; rp).
    destruct (fdiv_btw d f_7 0 9223372036854775808) as [[Fd Hd] Ed]; [done|done|rewrite v_7; lra|rp|done|rewrite v_7; lra|]. rewrite v_7 in Ed.
    destruct (fmax_val (fdiv d f_7) fzero Fd) as [Fm ->]; [done|]. split; [done|]. rewrite v_0, Rmax_left by lra. split; [lra|].
    assert (0 <= IZR (a - b)) by (by apply IZR_le). rewrite Rmax_left by lra. apply Rabs_le_inv in C.
    assert (C2 : Rabs (rnd (val d / 7) - val d / 7) <= val d / 7 / 16000000).
    { destruct D as [D|D].
      - rewrite D. replace (0 / 7) with 0 by lra. rewrite rnd_0, Rminus_diag_eq, Rabs_R0 by done. lra.
      - pose proof (rel (val d / 7) ltac:(lra)) as E2. eapply Rle_trans; [exact E2|]. lra. }
    rewrite <-Ed in C2. apply Rabs_le_inv in C2. apply Rabs_le. lra.
  - destruct (f_of_Z_rnd (a - b)) as [F V]; [lia|].
    assert (R63 : repr 9223372036854775808) by (change 9223372036854775808 with (IZR (2 ^ 63)); rewrite <-(bp 63 (2 ^ 63)) by lia; rp).
    assert (N : IZR (a - b) <= 0) by (apply IZR_le; lia). assert (N' : -9223372036854775808 <= IZR (a - b)) by (apply IZR_le; lia).
    assert (B : -9223372036854775808 <= val (f_of_Z (a - b)) <= 0) by (rewrite V; split; [apply rnd_ge; [by apply (repr_opp 9223372036854775808)|done]|by apply rnd_neg]).
    destruct (fdiv_btw (f_of_Z (a - b)) f_86400 (-9223372036854775808) 0) as [[F1 H1] _]; [done|done|rewrite v_86400; lra|by apply (repr_opp 9223372036854775808)|rp|rewrite v_86400; lra|].
    destruct (fdiv_btw (fdiv (f_of_Z (a - b)) f_86400) f_7 (-9223372036854775808) 0) as [[F2 H2] _]; [done|done|rewrite v_7; lra|by apply (repr_opp 9223372036854775808)|rp|rewrite v_7; lra|].
    destruct (fmax_val _ fzero F2) as [Fm ->]; [done|]. split; [done|]. rewrite v_0, !Rmax_right by lra. split; [lra|].
    rewrite Rminus_diag_eq, Rabs_R0 by done. lra.
Qed.

(** ** The average *)
Section average.
  Context (powf : f32 → f32 → f32) (Hp : power_ok powf) (Hr : rounded_power powf).

  Lemma good_fair l : Forall good_weight l → Forall fair l.
  Proof using. intros H. eapply Forall_impl; [exact H|]. intros p [P1 P2]. pose proof v_0_1. split; [|done]. eapply btw_weaken; [exact P1|lra|lra]. Qed.
  Lemma enough_weight l : l ≠ [] → Forall good_weight l → / 20 <= total (fst <$> reals l).
  Proof using.
    intros Hne H. pose proof v_0_1 as V. eapply Rle_trans; [|apply (total_least _ (/ 20))].
    - assert (1 <= INR (length (fst <$> reals l))); [|lra]. unfold reals. rewrite !fmap_length. destruct l; [done|].
      cbn [length]. rewrite S_INR. pose proof (pos_INR (length l)). lra.
    - apply Forall_fmap. unfold reals. apply Forall_fmap. eapply Forall_impl; [exact H|]. intros p [[_ P] _]. cbn. lra.
  Qed.
  Lemma weights_near (l : list (f32 * f32)) (m : list (R * R)) : l ≠ [] → (length l <= 1000)%nat → Forall good_weight l →
    Forall2 (λ p q, val p.2 = q.2 ∧ / 10 <= q.1 ∧ Rabs (val p.1 - q.1) <= / 100000) l m →
    btw (-6) 6 (ratio (fold_left add_weighted l (fzero, fzero))) ∧
    Rabs (val (ratio (fold_left add_weighted l (fzero, fzero))) - mean m) <= INR (length l) / 100000 + 12 / 10000.
  Proof using.
    intros Hne Hn HG HF. assert (0 < length l)%nat by (destruct l; [done|cbn; lia]).
    destruct (ratio_close l) as [B C]; [by apply good_fair|lia|by apply enough_weight|]. cbv zeta in *. split; [done|].
    assert (M : Rabs (mean (reals l) - mean m) <= 12 / 10000).
    { apply mean_weights; [|unfold reals; by destruct l]. unfold reals. apply Forall2_fmap_l.
      apply Forall2_same_length_lookup. split; [by eapply Forall2_length|]. intros i p q Hi Hj.
      eapply Forall2_lookup_lr in HF as (E & Q & D); [|exact Hi|exact Hj]. eapply Forall_lookup_1 in HG as [[_ P1] [_ P2]]; [|exact Hi].
      pose proof v_0_1 as V. assert (V01 : Rabs (val f_0_1 - / 10) <= / 100000000) by (unfold f_0_1; rewrite lit_val; apply Rabs_le; simpl; lra).
      apply Rabs_le_inv in V01. change (val p.2 = q.2 ∧ Rabs (val p.2) <= 5 ∧ 9 / 100 <= val p.1 ∧ 9 / 100 <= q.1 ∧ Rabs (val p.1 - q.1) <= / 100000).
      split; [done|]. split; [apply Rabs_le; lra|]. split; [lra|]. split; [lra|done]. }
    set (x := val (ratio _)) in *. replace (x - mean m) with ((x - mean (reals l)) + (mean (reals l) - mean m)) by ring.
    eapply Rle_trans; [apply Rabs_triang|]. lra.
  Qed.
  Lemma weight_after_least x : / 10 <= weight_after x. Proof using. unfold weight_after. apply Rmax_r. Qed.

  Lemma position_near l : (length l <= 1000)%nat →
    Forall2 (λ (p : f32 * f32) (q : R * R), val p.2 = q.2 ∧ / 10 <= q.1 ∧ Rabs (val p.1 - q.1) <= / 100000)
      (position_weighted powf l) (imap (λ i t, (weight_after (INR i), val (e_val t))) l).
  Proof using Hp Hr.
    intros Hn. unfold position_weighted. apply Forall2_same_length_lookup. split; [by rewrite !imap_length|]. intros i p q Hi Hj.
    rewrite list_lookup_imap in Hi. rewrite list_lookup_imap in Hj. apply fmap_Some in Hi as (x & Hx & ->). apply fmap_Some in Hj as (y & Hy & ->).
    assert (Hlt : (i < length l)%nat) by (by eapply lookup_lt_Some). simplify_eq. cbn [fst snd].
    split; [done|]. split; [apply weight_after_least|]. unfold f_of_nat. destruct (f_of_Z_val (Z.of_nat i)) as [Fi Vi]; [lia|].
    apply weight_close; [done|done|done|rewrite Vi; apply IZR_le; lia|apply pos_INR|].
    rewrite Vi, <-INR_IZR_INZ, Rminus_diag_eq, Rabs_R0 by done. pose proof (pos_INR i). lra.
  Qed.
  Lemma average_close l : Forall (λ t : trial, btw (-5) 5 (e_val t)) l → (length l <= 1000)%nat →
    Forall (λ t : trial, (Z.abs (e_ts t) <= 4611686018427387903)%Z) l →
    btw (-12) 12 (compute_weighted_avg powf l) ∧ Rabs (val (compute_weighted_avg powf l) - exact_average l) <= INR (length l) / 90000 + 13 / 10000.
  Proof using Hp Hr.
    intros HB Hn HT. destruct l as [|t0 l0].
    { split; [split; [done|]; cbn [compute_weighted_avg]; rewrite v_0; lra|]. cbn [compute_weighted_avg length INR]. unfold exact_average, time_average, position_average, mean. cbn [imap fmap list_fmap].
      rewrite v_0, total_nil. replace (0 - _) with 0 by (unfold Rdiv; ring). rewrite Rabs_R0. lra. }
    unfold compute_weighted_avg, exact_average, time_average. set (l := t0 :: l0) in *.
    assert (T0 : (Z.abs (e_ts t0) <= 4611686018427387903)%Z) by (by inversion HT).
    destruct (weights_near (time_weighted powf (e_ts t0) l) ((λ t, (weight_after (weeks (e_ts t0) (e_ts t)), val (e_val t))) <$> l)) as [[F1 B1] C1].
    { done. } { unfold time_weighted. by rewrite fmap_length. } { by apply time_weighted_ok. }
    { unfold time_weighted. apply Forall2_fmap, Forall_Forall2_diag. eapply Forall_impl; [exact HT|]. intros t Ht. cbn [fst snd].
      split; [done|]. split; [apply weight_after_least|]. destruct (weeks_close (e_ts t0) (e_ts t) T0 Ht) as (Fw & Pw & Cw).
      apply weight_close; try done. unfold weeks. apply Rmax_r. }
    destruct (weights_near (position_weighted powf l) (imap (λ i t, (weight_after (INR i), val (e_val t))) l)) as [[F2 B2] C2].
    { done. } { unfold position_weighted. by rewrite imap_length. } { by apply position_weighted_ok. }
    { by apply position_near. }
    assert (L1 : length (time_weighted powf (e_ts t0) l) = length l) by (unfold time_weighted; by rewrite fmap_length).
    assert (L2 : length (position_weighted powf l) = length l) by (unfold position_weighted; by rewrite imap_length).
    rewrite L1 in C1. rewrite L2 in C2. fold (position_average l) in C2. clear L1 L2.
    set (t := ratio (fold_left add_weighted (time_weighted powf (e_ts t0) l) (fzero, fzero))) in *.
    set (q := ratio (fold_left add_weighted (position_weighted powf l) (fzero, fzero))) in *. clearbody t q.
    set (T := mean _) in *. set (Q := position_average l) in *. clearbody T Q.
    assert (H1 : 1 <= INR (length l) <= 1000).
    { rewrite INR_IZR_INZ. split; apply IZR_le; unfold l in *; cbn [length] in *; lia. }
    set (n := INR (length l)) in *. clearbody n.
    assert (V8 : Rabs (val f_0_8 - 8 / 10) <= / 10000000) by (unfold f_0_8; rewrite lit_val; apply Rabs_le; simpl; lra).
    assert (V2 : Rabs (val f_0_2 - 2 / 10) <= / 10000000) by (unfold f_0_2; rewrite lit_val; apply Rabs_le; simpl; lra).
    apply Rabs_le_inv in V8 as W8, V2 as W2, C1 as D1, C2 as D2.
    destruct (fmul_btw f_0_8 t (-6) 6) as [[F3 B3] E3]; [done|done|rp|rp|nra|].
    destruct (fmul_btw f_0_2 q (-6) 6) as [[F4 B4] E4]; [done|done|rp|rp|nra|].
    destruct (fadd_btw (fmul f_0_8 t) (fmul f_0_2 q) (-12) 12) as [[F5 B5] E5]; [done|done|rp|rp|lra|]. split; [by split|].
    pose proof (mul_close (val f_0_8) (8 / 10) (val t) T _ _ (8 / 10) 6 6 V8 C1 ltac:(ab) ltac:(ab) ltac:(ab)) as G1. rewrite <-E3 in G1. apply Rabs_le_inv in G1.
    pose proof (mul_close (val f_0_2) (2 / 10) (val q) Q _ _ (2 / 10) 6 6 V2 C2 ltac:(ab) ltac:(ab) ltac:(ab)) as G2. rewrite <-E4 in G2. apply Rabs_le_inv in G2.
    pose proof (close (val (fmul f_0_8 t) + val (fmul f_0_2 q)) 12 ltac:(ab)) as G3. rewrite <-E5 in G3. apply Rabs_le_inv in G3.
    apply Rabs_le. lra.
  Qed.
End average.
