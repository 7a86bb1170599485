(** A student with proper probabilities always has a score. *)
From stdpp Require Import gmap strings list.
From Coq Require Import ZArith Lia Reals Lra.
From Flocq Require Import Core.Core IEEE754.BinarySingleNaN.
From Verif Require Import F32 F32Real Graph Library Options Benchmark BenchSpec.
Local Open Scope bool_scope.
Local Open Scope R_scope.
Local Notation "x ≤ y" := (Rle x y) : R_scope.
Local Notation "x ≤ y ≤ z" := (x <= y ∧ y <= z) : R_scope.
Local Notation "x ≤ y < z" := (x <= y ∧ y < z) : R_scope.

Ltac lits := rewrite ?lit_val; simpl; try lra.
Lemma val_0 : val fzero = 0. Proof. done. Qed.
Lemma fin_0 : fin fzero. Proof. done. Qed.
Lemma val_1 : val f_1 = 1. Proof. unfold f_1. lits. Qed.
Lemma fin_1 : fin f_1. Proof. done. Qed.

(** ** Sums *)
Lemma fadd_inv x y : fin (fadd x y) → fin x ∧ fin y ∧ val (fadd x y) = rnd (val x + val y).
Proof.
  intros H.
  assert (Hx : fin x). { destruct x as [?|[]| |], y as [?|[]| |]; try reflexivity; discriminate H. }
  assert (Hy : fin y). { destruct x as [?|[]| |], y as [?|[]| |]; try reflexivity; discriminate H. }
  split; [done|]. split; [done|].
  pose proof (Bplus_correct 24 128 eq_refl eq_refl mode_NE x y Hx Hy) as E.
  destruct (Rlt_bool _ _); [exact (proj1 E)|]. destruct E as [E _].
  unfold fin, fadd in H. destruct (Bplus mode_NE x y); cbn in E; try done.
  all: by destruct (Bsign x).
Qed.
Lemma fadd_grows x y : fin (fadd x y) → 0 ≤ val x → 0 ≤ val y → val x ≤ val (fadd x y) ∧ val y ≤ val (fadd x y).
Proof.
  intros H Hx Hy. destruct (fadd_inv x y H) as (_ & _ & ->).
  split; [rewrite <- (rnd_val x) at 1|rewrite <- (rnd_val y) at 1]; apply rnd_le; lra.
Qed.
Lemma fle_0_fin x : fin x → (fle fzero x = true ↔ 0 ≤ val x).
Proof. intros H. by rewrite fle_true. Qed.
Lemma fold_inv l acc : fin (fold_left fadd l acc) → 0 ≤ val acc → Forall (λ x, fle fzero x = true) l →
  fin acc ∧ val acc ≤ val (fold_left fadd l acc) ∧ Forall (λ x, fin x ∧ 0 ≤ val x ≤ val (fold_left fadd l acc)) l.
Proof.
  revert acc. induction l as [|x l IH]; intros acc H Ha Hl; cbn in *.
  { split; [done|]. split; [lra|done]. }
  apply Forall_cons in Hl as [Hx Hl].
  assert (H1 : fin (fadd acc x)).
  { clear Hx IH Ha Hl. revert H. generalize (fadd acc x). induction l as [|y l IH]; intros a H; cbn in *; [done|].
    apply IH in H. exact (proj1 (fadd_inv _ _ H)). }
  destruct (fadd_inv _ _ H1) as (Ha' & Hx' & E). apply fle_0_fin in Hx; [|done].
  destruct (fadd_grows _ _ H1 Ha Hx) as [G1 G2].
  destruct (IH (fadd acc x) H ltac:(lra) Hl) as (_ & F1 & F2).
  split; [done|]. split; [lra|]. constructor; [split; [done|lra]|done].
Qed.
(** Small numbers have a small sum. *)
Lemma small_float k : (0 ≤ k ≤ 64)%Z → ∃ h : f32, fin h ∧ val h = IZR k * / 8.
Proof.
  intros Hk. destruct (float_exists k (-3)) as (h & Hh & E); [lia|lia|]. exists h. split; [done|]. rewrite E. simpl. lra.
Qed.
Lemma fold_small l acc k : (0 ≤ k)%Z → (k + Z.of_nat (length l) ≤ 64)%Z → fin acc → 0 ≤ val acc ≤ IZR k * / 8 →
  Forall (λ x, fin x ∧ 0 ≤ val x ≤ / 8) l →
  val (fold_left fadd l acc) ≤ IZR (k + Z.of_nat (length l)) * / 8.
Proof.
  revert acc k. induction l as [|x l IH]; intros acc k H0 Hk Hf Ha Hl; cbn [fold_left length] in *.
  { rewrite Z.add_0_r. lra. }
  apply Forall_cons in Hl as [[Hx1 Hx2] Hl].
  destruct (small_float (k + 1)) as (h & Hh & Eh); [lia|]. rewrite plus_IZR in Eh.
  destruct (fadd_between acc x fzero h Hf Hx1) as (F1 & F2 & F3); [rewrite val_0; lra|]. rewrite val_0 in F3.
  replace (k + Z.of_nat (S (length l)))%Z with ((k + 1) + Z.of_nat (length l))%Z by lia.
  apply IH; [lia|lia|done| |done]. rewrite plus_IZR. lra.
Qed.

(** ** What verified probabilities are *)
Definition usual (x : f32) : Prop := fin x ∧ 0 ≤ val x ≤ 2.
Lemma verified p : five_probabilities p → verify_probs p = true → Forall usual p ∧ ∃ i x, p !! i = Some x ∧ / 8 ≤ val x.
Proof.
  intros [Hn Hp] H. unfold verify_probs in H.
  set (sm := fsum p) in *.
  assert (Fs : fin sm).
  { destruct sm as [?|[]| |]; done. }
  assert (Hs : 0 ≤ val sm).
  { unfold sm, fsum in *. apply (fold_inv p (B754_zero true)) in Fs as (_ & Hs & _); [|by right|done]. exact Hs. }
  assert (Fd : fin (fsub sm f_1) ∧ val (fsub sm f_1) = rnd (val sm - 1)).
  { destruct (Rle_dec (val sm) 1) as [L|L].
    - destruct (fsub_between sm f_1 (fneg f_1) fzero Fs fin_1) as (F1 & F2 & _); [rewrite fneg_val, val_1, val_0; lra|]. by rewrite val_1 in F2.
    - destruct (fsub_between sm f_1 (fneg f_1) sm Fs fin_1) as (F1 & F2 & _); [rewrite fneg_val, val_1; lra|]. by rewrite val_1 in F2. }
  destruct Fd as [Fd Ed].
  apply flt_true in H; [|by apply fabs_fin|done]. rewrite fabs_val, Ed in H.
  assert (E4 : val f_1e_4 < / 4). { unfold f_1e_4. lits. }
  assert (Hh : ∃ q : f32, val q = / 4).
  { destruct (small_float 2) as (q & _ & E); [lia|]. exists q. lra. }
  destruct Hh as [q Eq].
  assert (B : 3/4 ≤ val sm ≤ 5/4).
  { split; apply Rnot_lt_le; intros L.
    - assert (G : rnd (val sm - 1) ≤ - / 4).
      { rewrite <- Eq, <- fneg_val, <- (rnd_val (fneg q)). apply rnd_le. rewrite fneg_val. lra. }
      rewrite Rabs_left in H; lra.
    - assert (G : / 4 ≤ rnd (val sm - 1)).
      { rewrite <- Eq. rewrite <- (rnd_val q). apply rnd_le. lra. }
      rewrite Rabs_pos_eq in H; lra. }
  assert (All : Forall (λ x, fin x ∧ 0 ≤ val x ≤ val sm) p).
  { unfold sm, fsum in *. apply (fold_inv p (B754_zero true)) in Fs as (_ & _ & Ha); [exact Ha|by right|done]. }
  split.
  { eapply Forall_impl; [exact All|]. intros x [? ?]. split; [done|]. lra. }
  destruct (decide (Exists (λ x, flt x (lit false 8388608 (-26) eq_refl) = false) p)) as [Ex|Nx].
  - apply Exists_exists in Ex as (x & Hx & L). apply elem_of_list_lookup in Hx as [i Hi]. exists i, x. split; [done|].
    rewrite Forall_lookup in All. destruct (All _ _ Hi) as [Fx _]. apply flt_false in L; [|done..].
    rewrite lit_val in L. simpl in L. lra.
  - exfalso. apply not_Exists_Forall in Nx; [|intros x; apply _].
    assert (Sm : Forall (λ x, fin x ∧ 0 ≤ val x ≤ / 8) p).
    { rewrite Forall_lookup in All, Nx |- *. intros i x Hi. destruct (All _ _ Hi) as [Fx Vx]. specialize (Nx _ _ Hi). cbn beta in Nx.
      apply not_false_iff_true in Nx. apply flt_true in Nx; [|done..]. rewrite lit_val in Nx. simpl in Nx. split; [done|lra]. }
    pose proof (fold_small p (B754_zero true) 0 ltac:(lia) ltac:(rewrite Hn; lia) eq_refl ltac:(cbn; lra) Sm) as L.
    rewrite Hn in L. change (fold_left fadd p (B754_zero true)) with sm in L. change (0 + Z.of_nat 5)%Z with 5%Z in L. lra.
Qed.

(** ** The weight of the stable probabilities *)
Lemma f_of_count z : counted z → fin (f_of_Z z) ∧ val (f_of_Z z) = rnd (IZR z) ∧ 0 ≤ val (f_of_Z z) ≤ IZR (2 ^ 32) ∧ ((1 ≤ z)%Z → 1 ≤ val (f_of_Z z)).
Proof.
  intros [H0 H1]. unfold f_of_Z.
  pose proof (binary_normalize_correct 24 128 eq_refl eq_refl mode_NE z 0 false) as H. cbv zeta in H.
  assert (E0 : F2R (Float radix2 z 0) = IZR z) by (unfold F2R; simpl; lra). rewrite E0 in H.
  destruct (float_exists 1 32) as (h & Fh & Eh); [lia|lia|].
  assert (Eh' : val h = IZR (2 ^ 32)) by (rewrite Eh; simpl; lra).
  assert (B : val fzero ≤ IZR z ≤ val h).
  { rewrite val_0, Eh'. split; apply IZR_le; lia. }
  rewrite (rnd_in_range fzero h) in H by exact B. destruct H as (E & F & _).
  change (val (f_of_Z z) = rnd (IZR z)) in E. unfold f_of_Z in E.
  split; [exact F|]. split; [exact E|]. rewrite E.
  destruct (rnd_between fzero h _ B) as [B1 B2]. rewrite val_0 in B1. rewrite Eh' in B2. split; [split; done|].
  intros L. rewrite <- val_1, <- (rnd_val f_1). apply rnd_le. rewrite val_1. by apply IZR_le.
Qed.
Lemma fmin_1 x : fis_nan x = true ∨ fgt x f_1 = true → fmin x f_1 = f_1.
Proof. intros [H|H]; unfold fmin; [by rewrite H|]. destruct (fis_nan x); [done|]. cbn. unfold fgt in H. unfold flt. by rewrite H. Qed.
Lemma negative_val m e H : val (B754_finite true m e H) < 0.
Proof. unfold val. simpl. by apply F2R_lt_0. Qed.
Lemma weight_between x trial : counted trial → counted (before_stable x) →
  fin (stable_weight x trial) ∧ 0 ≤ val (stable_weight x trial) ≤ 1.
Proof.
  intros Ht Hb. unfold stable_weight.
  destruct (f_of_count trial Ht) as (F1 & _ & V1 & _).
  destruct (f_of_count (before_stable x) Hb) as (F2 & _ & V2 & P2).
  destruct (decide (before_stable x = 0)%Z) as [Z0|Nz].
  - rewrite Z0. destruct (decide (trial = 0)%Z) as [T0|T0].
    + rewrite T0. replace (fdiv (f_of_Z 0) (f_of_Z 0)) with (B754_nan : f32) by done. rewrite fmin_1 by by left. rewrite val_1. split; [done|lra].
    + rewrite fmin_1; [rewrite val_1; split; [done|lra]|]. right.
      destruct (f_of_count trial Ht) as (_ & _ & _ & P1). specialize (P1 ltac:(destruct Ht; lia)).
      destruct (f_of_Z trial) as [?|?| |[] m e Hm]; [cbn in P1; lra|done|done| |done].
      exfalso. pose proof (negative_val m e Hm). lra.
  - specialize (P2 ltac:(destruct Hb; lia)).
    destruct (float_exists 1 32) as (h & Fh & Eh); [lia|lia|].
    assert (Eh' : val h = IZR (2 ^ 32)) by (rewrite Eh; simpl; lra).
    assert (Hi : / val (f_of_Z (before_stable x)) ≤ 1).
    { rewrite <- Rinv_1. apply Rinv_le; lra. }
    assert (Hp : 0 < / val (f_of_Z (before_stable x))) by (apply Rinv_0_lt_compat; lra).
    destruct (fdiv_between (f_of_Z trial) (f_of_Z (before_stable x)) fzero h F1 F2) as (F & E & B); [lra| |].
    { rewrite val_0, Eh'. unfold Rdiv. nra. }
    rewrite val_0 in B. unfold fmin. rewrite !fin_not_nan by done. destruct (flt _ _) eqn:L.
    + rewrite val_1. split; [done|lra].
    + apply flt_false in L; [|done..]. rewrite val_1 in L. split; [done|lra].
Qed.
Lemma weight_end x trial : counted trial → counted (before_stable x) → (before_stable x ≤ trial)%Z → val (stable_weight x trial) = 1.
Proof.
  intros Ht Hb Hge. destruct (weight_between x trial Ht Hb) as [Fw Vw]. revert Fw Vw. unfold stable_weight.
  destruct (f_of_count trial Ht) as (F1 & E1 & V1 & P1).
  destruct (f_of_count (before_stable x) Hb) as (F2 & E2 & V2 & P2).
  destruct (decide (before_stable x = 0)%Z) as [Z0|Nz].
  - rewrite Z0. destruct (decide (trial = 0)%Z) as [T0|T0].
    + rewrite T0. replace (fdiv (f_of_Z 0) (f_of_Z 0)) with (B754_nan : f32) by done. intros _ _. rewrite fmin_1 by by left. by rewrite val_1.
    + intros _ _. rewrite fmin_1; [by rewrite val_1|]. right.
      specialize (P1 ltac:(destruct Ht; lia)).
      destruct (f_of_Z trial) as [?|?| |[] m e Hm]; [cbn in P1; lra|done|done| |done].
      exfalso. pose proof (negative_val m e Hm). lra.
  - specialize (P2 ltac:(destruct Hb; lia)).
    assert (L : val (f_of_Z (before_stable x)) ≤ val (f_of_Z trial)).
    { rewrite E1, E2. apply rnd_le. by apply IZR_le. }
    destruct (float_exists 1 32) as (h & Fh & Eh); [lia|lia|].
    assert (Eh' : val h = IZR (2 ^ 32)) by (rewrite Eh; simpl; lra).
    assert (Hi : / val (f_of_Z (before_stable x)) ≤ 1).
    { rewrite <- Rinv_1. apply Rinv_le; lra. }
    assert (Hp : 0 < / val (f_of_Z (before_stable x))) by (apply Rinv_0_lt_compat; lra).
    destruct (fdiv_between (f_of_Z trial) (f_of_Z (before_stable x)) f_1 h F1 F2) as (F & E & B); [lra| |].
    { rewrite val_1, Eh'. split; [|unfold Rdiv; nra].
      apply Rmult_le_reg_r with (val (f_of_Z (before_stable x))); [lra|]. unfold Rdiv. rewrite Rmult_assoc, Rinv_l by lra. lra. }
    rewrite val_1 in B. intros Fw Vw. revert Vw. unfold fmin. rewrite !fin_not_nan by done. destruct (flt _ _) eqn:L'.
    + by rewrite val_1.
    + lra.
Qed.
Lemma weight_start x : counted (before_stable x) → (0 < before_stable x)%Z → val (stable_weight x 0) = 0.
Proof.
  intros Hb Hp. unfold stable_weight.
  destruct (f_of_count (before_stable x) Hb) as (F2 & E2 & V2 & P2). specialize (P2 ltac:(lia)).
  replace (f_of_Z 0) with fzero by done.
  destruct (fdiv_between fzero (f_of_Z (before_stable x)) fzero fzero fin_0 F2) as (F & E & B); [lra| |].
  { rewrite val_0. unfold Rdiv. lra. }
  rewrite val_0 in B. unfold fmin. rewrite !fin_not_nan by done. destruct (flt _ _) eqn:L'; [|lra].
  apply flt_true in L'; [|done..]. rewrite val_1 in L'. lra.
Qed.
(** One minus the weight. *)
Lemma rest_between w : fin w → 0 ≤ val w ≤ 1 → fin (fsub f_1 w) ∧ 0 ≤ val (fsub f_1 w) ≤ 1 ∧ (val w ≤ / 2 → / 2 ≤ val (fsub f_1 w)) ∧
  (val w = 0 → val (fsub f_1 w) = 1) ∧ (val w = 1 → val (fsub f_1 w) = 0).
Proof.
  intros Fw Vw. destruct (fsub_between f_1 w fzero f_1 fin_1 Fw) as (F & E & B); [rewrite val_0, val_1; lra|].
  rewrite val_0, val_1 in B. rewrite val_1 in E. split; [done|]. split; [done|]. split; [|split].
  - intros L. destruct (small_float 4) as (h & _ & Eh); [lia|]. rewrite E. replace (/ 2) with (val h) by lra. rewrite <- (rnd_val h). apply rnd_le. lra.
  - intros L. rewrite E, L, Rminus_0_r. rewrite <- val_1. apply rnd_val.
  - intros L. rewrite E, L, Rminus_diag_eq by done. rewrite <- val_0. apply rnd_val.
Qed.

(** ** The interpolated probabilities *)
Definition mix (w a b : f32) : f32 := fadd (fmul a (fsub f_1 w)) (fmul b w).
Lemma mix_ok w a b : fin w → 0 ≤ val w ≤ 1 → usual a → usual b →
  fin (mix w a b) ∧ 0 ≤ val (mix w a b) ≤ 4 ∧
  (val w ≤ / 2 → / 8 ≤ val a → 0 < val (mix w a b)) ∧ (/ 2 ≤ val w → / 8 ≤ val b → 0 < val (mix w a b)) ∧
  (val w = 0 → val (mix w a b) = val a) ∧ (val w = 1 → val (mix w a b) = val b).
Proof.
  intros Fw Vw [Fa Va] [Fb Vb]. destruct (rest_between w Fw Vw) as (Fr & Vr & R1 & R2 & R3).
  destruct (small_float 16) as (two & F2 & E2); [lia|]. destruct (small_float 32) as (four & F4 & E4); [lia|].
  destruct (fmul_between a (fsub f_1 w) fzero two Fa Fr) as (Fm1 & Em1 & Bm1); [rewrite val_0; nra|].
  destruct (fmul_between b w fzero two Fb Fw) as (Fm2 & Em2 & Bm2); [rewrite val_0; nra|].
  rewrite val_0 in Bm1, Bm2.
  destruct (fadd_between _ _ fzero four Fm1 Fm2) as (Fs & Es & Bs); [rewrite val_0; lra|]. rewrite val_0 in Bs. unfold mix.
  destruct (fadd_grows _ _ Fs ltac:(lra) ltac:(lra)) as [G1 G2].
  destruct (float_exists 1 (-4)) as (q & Fq & Eq); [lia|lia|]. simpl in Eq.
  split; [done|]. split; [lra|]. split; [|split; [|split]].
  - intros L La. assert (val q ≤ val (fmul a (fsub f_1 w))); [|lra]. rewrite Em1, <- (rnd_val q). apply rnd_le. specialize (R1 L). rewrite Eq. nra.
  - intros L Lb. assert (val q ≤ val (fmul b w)); [|lra]. rewrite Em2, <- (rnd_val q). apply rnd_le. rewrite Eq. nra.
  - intros L. rewrite Es, Em1, Em2, (R2 L), L, Rmult_1_r, Rmult_0_r, rnd_val. rewrite <- val_0, rnd_val, val_0, Rplus_0_r. apply rnd_val.
  - intros L. rewrite Es, Em1, Em2, (R3 L), L, Rmult_1_r, Rmult_0_r, rnd_val. rewrite <- val_0, rnd_val, val_0, Rplus_0_l. apply rnd_val.
Qed.
Lemma performance_mix x trial : performance x trial = zip_with (mix (stable_weight x trial)) (initial x) (stable x).
Proof. done. Qed.
Definition proper (x : profile) : Prop :=
  five_probabilities (initial x) ∧ five_probabilities (stable x) ∧ verify_profile x = true ∧ counted (before_stable x).
Lemma performance_ok x trial : proper x → counted trial →
  length (performance x trial) = 5%nat ∧ Forall (λ y, fin y ∧ 0 ≤ val y ≤ 4) (performance x trial) ∧ Exists (λ y, 0 < val y) (performance x trial).
Proof.
  intros (Hi & Hs & Hv & Hb) Ht. unfold verify_profile in Hv. apply andb_true_iff in Hv as [V1 V2].
  destruct (verified _ Hi V1) as (U1 & i & a & Ea & La). destruct (verified _ Hs V2) as (U2 & j & b & Eb & Lb).
  destruct (weight_between x trial Ht Hb) as [Fw Vw]. set (w := stable_weight x trial) in *.
  rewrite performance_mix. fold w. destruct Hi as [Ni _], Hs as [Ns _].
  split; [rewrite zip_with_length; lia|]. rewrite Forall_lookup in U1, U2.
  split.
  - apply Forall_lookup. intros k y Hk. apply lookup_zip_with_Some in Hk as (c & d & -> & Hc & Hd).
    destruct (mix_ok w c d Fw Vw (U1 _ _ Hc) (U2 _ _ Hd)) as (F & V & _). done.
  - apply Exists_exists. destruct (Rle_dec (val w) (/ 2)) as [L|L].
    + destruct (lookup_lt_is_Some_2 (stable x) i) as [d Hd]; [rewrite Ns, <- Ni; by eapply lookup_lt_Some|].
      exists (mix w a d). split.
      * apply elem_of_list_lookup. exists i. apply lookup_zip_with_Some. by exists a, d.
      * destruct (mix_ok w a d Fw Vw (U1 _ _ Ea) (U2 _ _ Hd)) as (_ & _ & P & _). by apply P.
    + destruct (lookup_lt_is_Some_2 (initial x) j) as [c Hc]; [rewrite Ni, <- Ns; by eapply lookup_lt_Some|].
      exists (mix w c b). split.
      * apply elem_of_list_lookup. exists j. apply lookup_zip_with_Some. by exists c, b.
      * destruct (mix_ok w c b Fw Vw (U1 _ _ Hc) (U2 _ _ Eb)) as (_ & _ & _ & P & _). apply P; [lra|done].
Qed.
Lemma performance_ends x trial : proper x → counted trial →
  ((before_stable x ≤ trial)%Z → Forall2 (λ a b, feq a b = true) (performance x trial) (stable x)) ∧
  (trial = 0%Z → (0 < before_stable x)%Z → Forall2 (λ a b, feq a b = true) (performance x trial) (initial x)).
Proof.
  intros (Hi & Hs & Hv & Hb) Ht. unfold verify_profile in Hv. apply andb_true_iff in Hv as [V1 V2].
  destruct (verified _ Hi V1) as (U1 & _). destruct (verified _ Hs V2) as (U2 & _).
  destruct (weight_between x trial Ht Hb) as [Fw Vw]. destruct Hi as [Ni _], Hs as [Ns _].
  rewrite performance_mix. rewrite Forall_lookup in U1, U2.
  split.
  - intros L. pose proof (weight_end x trial Ht Hb L) as W. apply Forall2_same_length_lookup_2; [rewrite zip_with_length; lia|].
    intros k y d Hk Hd. apply lookup_zip_with_Some in Hk as (c & d' & -> & Hc & Hd'). assert (d' = d) as -> by congruence.
    destruct (mix_ok _ c d Fw Vw (U1 _ _ Hc) (U2 _ _ Hd)) as (F & _ & _ & _ & _ & E). apply feq_true; [done|by apply (U2 _ _ Hd)|]. by apply E.
  - intros -> L. pose proof (weight_start x Hb L) as W. apply Forall2_same_length_lookup_2; [rewrite zip_with_length; lia|].
    intros k y c Hk Hc. apply lookup_zip_with_Some in Hk as (c' & d & -> & Hc' & Hd). assert (c' = c) as -> by congruence.
    destruct (mix_ok _ c d Fw Vw (U1 _ _ Hc) (U2 _ _ Hd)) as (F & _ & _ & _ & E & _). apply feq_true; [done|by apply (U1 _ _ Hc)|]. by apply E.
Qed.

(** ** Drawing *)
Lemma cumulative_ok l t k : (Z.of_nat (length l) + k ≤ 16)%Z → (0 ≤ k)%Z → fin t → 0 ≤ val t ≤ 4 * IZR k → Forall (λ y, fin y ∧ 0 ≤ val y ≤ 4) l →
  ∃ cs tot, cumulative t l = Some (cs, tot) ∧ length cs = length l ∧ fin tot ∧ val t ≤ val tot ∧ Forall (λ y, val y ≤ val tot) l ∧
    Forall (λ c, fin c ∧ val t ≤ val c) cs ∧
    ∀ u, fin u → val t ≤ val u < val tot → ∃ n y, length (List.filter (λ c, fle c u) cs) = S n ∧ l !! n = Some y ∧ 0 < val y.
Proof.
  revert t k. induction l as [|w l IH]; intros t k Hk H0 Ft Vt Hl.
  { exists [], t. split; [done|]. split; [done|]. split; [done|]. split; [lra|]. split; [done|]. split; [done|]. intros u _ ?. lra. }
  apply Forall_cons in Hl as [[Fw Vw] Hl]. cbn [length] in Hk.
  destruct (float_exists (4 * (k + 1)) 0) as (h & Fh & Eh); [lia|lia|]. simpl in Eh. rewrite Rmult_1_r, mult_IZR, plus_IZR in Eh.
  destruct (fadd_between t w fzero h Ft Fw) as (Fs & Es & Bs); [rewrite val_0; lra|]. rewrite val_0 in Bs.
  destruct (fadd_grows t w Fs ltac:(lra) ltac:(lra)) as [G1 G2].
  destruct (IH (fadd t w) (k + 1)%Z ltac:(lia) ltac:(lia) Fs ltac:(rewrite plus_IZR; lra) Hl) as (cs & tot & E & Hn & Ftot & Gt & All & Ge & Pick).
  exists (t :: cs), tot. cbn [cumulative]. replace (fge w fzero) with true by (symmetry; apply (fle_0_fin w); [done|lra]).
  rewrite E. cbn. split; [done|]. split; [by rewrite Hn|]. split; [done|]. split; [lra|].
  split; [constructor; [lra|done]|]. split.
  { constructor; [split; [done|lra]|]. eapply Forall_impl; [exact Ge|]. intros c [? ?]. split; [done|lra]. }
  intros u Fu Vu. replace (fle t u) with true by (symmetry; apply fle_true; [done..|lra]). cbn [length].
  destruct (Rle_dec (val (fadd t w)) (val u)) as [L|L].
  - destruct (Pick u Fu ltac:(lra)) as (n & y & En & Hy & Py). exists (S n), y. by rewrite En.
  - exists 0%nat, w. split; [|split; [done|]].
    + f_equal. assert (Hf : List.filter (λ c, fle c u) cs = []).
      { clear - Ge Fu L. induction cs as [|c cs IH]; [done|]. apply Forall_cons in Ge as [[Fc Vc] Ge]. cbn.
        replace (fle c u) with false by (symmetry; apply fle_false; [done..|lra]). by apply IH. }
      by rewrite Hf.
    + destruct (Rle_lt_or_eq_dec 0 (val w)) as [|Z0]; [lra|done|]. exfalso.
      rewrite <- Z0, Rplus_0_r, rnd_val in Es. lra.
Qed.
Lemma weighted_ok l : (0 < length l ≤ 8)%nat → Forall (λ y, fin y ∧ 0 ≤ val y ≤ 4) l → Exists (λ y, 0 < val y) l →
  ∃ cs tot, weighted_index l = Some (cs, tot) ∧ S (length cs) = length l ∧ flt fzero tot = true ∧
    ∀ u, fle fzero u = true → flt u tot = true → ∃ y, l !! sample_index cs u = Some y ∧ flt fzero y = true.
Proof.
  intros Hn Hl Hx. destruct l as [|w l]; [cbn in Hn; lia|]. pose proof Hl as Hl'. apply Forall_cons in Hl as [[Fw Vw] Hl].
  destruct (cumulative_ok l w 1 ltac:(cbn in Hn; lia) ltac:(lia) Fw ltac:(lra) Hl) as (cs & tot & E & Hc & Ft & Gt & All & Ge & Pick).
  assert (Pt : 0 < val tot).
  { apply Exists_cons in Hx as [Hx|Hx]; [lra|]. apply Exists_exists in Hx as (y & Hy & Py). rewrite Forall_forall in All. specialize (All y Hy). cbn in All. lra. }
  exists cs, tot. split; [|split; [cbn; by rewrite Hc|split; [by apply flt_true|]]].
  - cbn [weighted_index]. replace (fge w fzero) with true by (symmetry; apply (fle_0_fin w); [done|lra]). rewrite E. cbn [mbind option_bind snd].
    replace (feq tot fzero) with false.
    2:{ symmetry. destruct (feq tot fzero) eqn:Z0; [|done]. apply feq_true in Z0; [|done..]. rewrite val_0 in Z0. lra. }
    replace (flt tot (B754_infinity false)) with true; [done|]. destruct tot as [?|?| |[]]; done.
  - intros u U0 U1. assert (Fu : fin u).
    { destruct u as [?|[]| |]; try done. destruct tot as [?|[]| |[]]; done. }
    apply fle_true in U0; [|done..]. apply flt_true in U1; [|done..]. rewrite val_0 in U0. unfold sample_index.
    destruct (Rle_dec (val w) (val u)) as [L|L].
    + destruct (Pick u Fu ltac:(lra)) as (n & y & En & Hy & Py). exists y. rewrite En. split; [done|].
      apply flt_true; [done| |done]. rewrite Forall_lookup in Hl. by apply (Hl _ _ Hy).
    + exists w. split; [|apply flt_true; [done..|rewrite val_0; lra]].
      assert (Hf : List.filter (λ c, fle c u) cs = []).
      { clear - Ge Fu L. induction cs as [|c cs IH]; [done|]. apply Forall_cons in Ge as [[Fc Vc] Ge]. cbn.
        replace (fle c u) with false by (symmetry; apply fle_false; [done..|lra]). by apply IH. }
      by rewrite Hf.
Qed.
Theorem draws x trial u pick : proper x → counted trial → picks_below pick →
  ∃ s, get_score x trial u pick = Some s ∧
    ((s = Two ∧ flt u (lapse_rate x) = true ∧ (before_stable x < trial)%Z) ∨
     ∃ p, performance x trial !! score_place s = Some p ∧ flt fzero p = true).
Proof.
  intros Hx Ht Hp. unfold get_score. destruct (flt u (lapse_rate x) && (before_stable x <? trial)%Z) eqn:L.
  { apply andb_true_iff in L as [L1 L2]. exists Two. split; [done|]. left. split; [done|]. split; [done|]. by apply Z.ltb_lt. }
  destruct (performance_ok x trial Hx Ht) as (Hn & Hl & He).
  destruct (weighted_ok (performance x trial) ltac:(lia) Hl He) as (cs & tot & E & Hc & Pt & Pick).
  rewrite E. cbn [mbind option_bind fst snd]. destruct (Hp tot Pt) as [U0 U1]. destruct (Pick _ U0 U1) as (y & Hy & Py).
  assert (Lt : (sample_index cs (pick tot) < 5)%nat) by (rewrite <- Hn; by eapply lookup_lt_Some).
  destruct (sample_index cs (pick tot)) as [|[|[|[|[|k]]]]]; [..|lia].
  all: eexists; split; [reflexivity|]; right; by exists y.
Qed.
