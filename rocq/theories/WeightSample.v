(** The correctly rounded functions meet what is assumed of the math library, and a student
    whose grades fall within an hour. *)
From stdpp Require Import list strings.
From Coq Require Import ZArith Reals Lra Lia.
From Flocq Require Import Core.Core IEEE754.BinarySingleNaN.
From Verif Require Import F32 F32Real F32More Stores Scorer ScorerSpec ScorerProofs PowerSample Batch WeightSpec WeightProofs Compute.
Local Open Scope R_scope.

Lemma of_real_far r : Rabs r <= bpow radix2 127 → fin (of_real r) ∧ val (of_real r) = rnd r.
Proof.
  intros Hr. unfold of_real.
  pose proof (binary_normalize_correct 24 128 eq_refl eq_refl mode_NE
    (round_mode mode_NE (scaled_mantissa radix2 (SpecFloat.fexp 24 128) r)) (cexp radix2 (SpecFloat.fexp 24 128) r) false) as H.
  cbv zeta in H. change (F2R (Float radix2 (round_mode mode_NE (scaled_mantissa radix2 (SpecFloat.fexp 24 128) r)) (cexp radix2 (SpecFloat.fexp 24 128) r)))
    with (rnd r) in H.
  assert (E : rnd (rnd r) = rnd r).
  { apply round_generic; [apply valid_rnd_N|]. apply generic_format_round; [apply valid_exp_f32|apply valid_rnd_N]. }
  rewrite E in H. rewrite Rlt_bool_true in H; [destruct H as (H1 & H2 & _); done|].
  apply Rle_lt_trans with (bpow radix2 127); [|apply bpow_lt; lia].
  apply abs_round_le_generic; [apply valid_exp_f32|apply valid_rnd_N| |done].
  apply generic_format_bpow. unfold SpecFloat.fexp, SpecFloat.emin. lia.
Qed.

Definition real_ln_1p (x : f32) : f32 :=
  if flt x (fneg f_1) then fnan
  else if is_finite x && flt (fneg f_1) x then of_real (ln (1 + val x)) else B754_infinity true.
Definition real_exp (x : f32) : f32 :=
  if negb (is_finite x) then match x with B754_infinity s => if s then fzero else x | _ => fnan end
  else if Rle_dec (exp (val x)) (bpow radix2 127) then of_real (exp (val x)) else B754_infinity false.
Definition real_sqrt (x : f32) : f32 := Bsqrt mode_NE x.
Definition real_libm : libm := Libm real_ln_1p real_exp real_sqrt.

Lemma ln_2_small : ln 2 <= 3 / 4.
Proof.
  assert (H : 9 / 8 <= exp (1 / 8)). { pose proof (exp_ineq1 (1 / 8) ltac:(lra)). lra. }
  assert (E : exp (3 / 4) = exp (1 / 8) ^ 6).
  { replace (3 / 4) with (1/8 + (1/8 + (1/8 + (1/8 + (1/8 + 1/8))))) by lra. rewrite !exp_plus. ring. }
  assert (2 <= exp (3 / 4)).
  { rewrite E. apply Rle_trans with ((9 / 8) ^ 6); [lra|]. apply pow_incr. lra. }
  rewrite <-(ln_exp (3 / 4)). apply ln_mono; lra.
Qed.
Lemma above_minus_one x : fin x → -1 < val x → bpow radix2 (-24) <= 1 + val x.
Proof.
  intros F H.
  assert (G : generic_format radix2 (SpecFloat.fexp 24 128) (-1)).
  { replace (-1) with (- bpow radix2 0) by (simpl; lra). apply generic_format_opp, generic_format_bpow.
    unfold SpecFloat.fexp, SpecFloat.emin. lia. }
  pose proof (succ_le_lt radix2 (SpecFloat.fexp 24 128) (-1) (val x) G (val_format x) H) as L.
  replace (-1) with (- bpow radix2 0) in L by (simpl; lra). rewrite succ_opp, pred_bpow in L.
  change (SpecFloat.fexp 24 128 0) with (-24)%Z in L. simpl (bpow radix2 0) in L. lra.
Qed.
Lemma ln_bounds x : fin x → -1 < val x → -18 <= ln (1 + val x) <= 97.
Proof.
  intros F H. pose proof (above_minus_one x F H) as L. pose proof (val_bound x) as U. pose proof ln_2_small as S.
  assert (P : ∀ e, ln (bpow radix2 e) = IZR e * ln 2).
  { intros e. rewrite bpow_powerRZ. rewrite powerRZ_Rpower by (simpl; lra). unfold Rpower. by rewrite ln_exp. }
  split.
  - apply Rle_trans with (ln (bpow radix2 (-24))); [rewrite P; lra|]. apply ln_mono; [apply bpow_gt_0|done].
  - apply Rle_trans with (ln (bpow radix2 129)); [|rewrite P; lra]. apply ln_mono; [pose proof (bpow_gt_0 radix2 (-24)); lra|].
    apply Rabs_def2 in U. assert (1 <= bpow radix2 128) by (apply (bpow_le radix2 0); lia).
    assert (E : bpow radix2 129 = bpow radix2 128 + bpow radix2 128).
    { change 129%Z with (128 + 1)%Z. rewrite bpow_plus. simpl (bpow radix2 1). lra. }
    lra.
Qed.

Lemma val_m1 : val (fneg f_1) = -1.
Proof. rewrite fneg_val. unfold f_1. rewrite lit_val. simpl. lra. Qed.
Lemma real_ln_at x : fin x → flt (fneg f_1) x = true → fin (real_ln_1p x) ∧ val (real_ln_1p x) = rnd (ln (1 + val x)).
Proof.
  intros F H. unfold real_ln_1p. pose proof H as L. apply flt_true in L; [|done|done]. rewrite val_m1 in L.
  assert (E : flt x (fneg f_1) = false) by (apply flt_false; [done|done|rewrite val_m1; lra]).
  rewrite E, H. unfold fin in F. rewrite F. simpl. apply of_real_far. pose proof (ln_bounds x F L).
  apply Rle_trans with 97; [apply Rabs_le; lra|]. apply Rle_trans with (bpow radix2 7); [simpl; lra|]. apply bpow_le. lia.
Qed.
Lemma real_exp_at x : fin x → exp (val x) <= bpow radix2 127 → fin (real_exp x) ∧ val (real_exp x) = rnd (exp (val x)).
Proof.
  intros F H. unfold real_exp. unfold fin in F. rewrite F. simpl negb. cbv iota. destruct (Rle_dec _ _) as [_|]; [|done]. apply of_real_far.
  rewrite Rabs_pos_eq; [done|]. left. apply exp_pos.
Qed.
Lemma real_exp_far x : fin x → bpow radix2 127 < exp (val x) → real_exp x = B754_infinity false.
Proof. intros F H. unfold real_exp. unfold fin in F. rewrite F. simpl negb. cbv iota. destruct (Rle_dec _ _) as [|_]; [lra|done]. Qed.
Lemma real_sqrt_at x : fin x → 0 < val x → fin (real_sqrt x) ∧ val (real_sqrt x) = rnd (sqrt (val x)).
Proof.
  intros F H. destruct (Bsqrt_correct 24 128 eq_refl eq_refl mode_NE x) as (V & Fs & _). split; [|exact V].
  unfold fin, real_sqrt. eapply eq_trans; [exact Fs|]. destruct x as [s|s| |[] mx ex Hx]; try done.
  exfalso. apply (Rlt_not_le _ _ H). apply Rlt_le. unfold val. simpl. by apply F2R_lt_0.
Qed.

Lemma real_libm_ok : libm_ok real_libm.
Proof.
  constructor; cbn [real_libm m_ln_1p m_exp m_sqrt].
  - intros x F H. destruct (real_ln_at x F H) as [F' ->]. split; [done|].
    apply flt_true in H; [|done|done]. rewrite val_m1 in H. pose proof (ln_bounds x F H).
    split; [apply rnd_ge; [apply (repr_Z (-20)); lia|lra]|apply rnd_le_repr; [apply (repr_Z 100); lia|lra]].
  - intros x y Fx Fy H L. assert (H' : flt (fneg f_1) y = true).
    { apply flt_true; [done|done|]. apply flt_true in H; [|done|done]. apply fle_true in L; [|done|done]. lra. }
    destruct (real_ln_at x Fx H) as [F1 V1]. destruct (real_ln_at y Fy H') as [F2 V2]. apply fle_true; [done|done|].
    rewrite V1, V2. apply rnd_le. apply flt_true in H; [|done|done]. apply fle_true in L; [|done|done]. rewrite val_m1 in H.
    apply ln_mono; lra.
  - intros x H. unfold real_ln_1p. by rewrite H.
  - intros x H. assert (F : fin x) by (by destruct x as [[]|[]| |[] ? ? ?]). pose proof H as E. apply feq_true in E; [|done|done]. unfold real_ln_1p.
    assert (E1 : flt x (fneg f_1) = false) by (apply flt_false; [done|done|lra]).
    assert (E2 : flt (fneg f_1) x = false) by (apply flt_false; [done|done|lra]). by rewrite E1, E2, andb_false_r.
  - intros x y Fx Fy L. apply fle_true in L; [|done|done]. pose proof (exp_le _ _ L) as Le.
    destruct (Rle_lt_dec (exp (val y)) (bpow radix2 127)) as [Hy|Hy].
    + destruct (real_exp_at x Fx) as [F1 V1]; [lra|]. destruct (real_exp_at y Fy Hy) as [F2 V2].
      apply fle_true; [done|done|]. rewrite V1, V2. by apply rnd_le.
    + rewrite (real_exp_far y Fy Hy). destruct (Rle_lt_dec (exp (val x)) (bpow radix2 127)) as [Hx|Hx].
      * destruct (real_exp_at x Fx Hx) as [F1 _]. revert F1. destruct (real_exp x) as [[]|[]| |[] ? ? ?]; done.
      * by rewrite (real_exp_far x Fx Hx).
  - intros x F. destruct (Rle_lt_dec (exp (val x)) (bpow radix2 127)) as [Hx|Hx]; [|by rewrite (real_exp_far x F Hx)].
    destruct (real_exp_at x F Hx) as [F1 V1]. apply fle_true; [done|done|]. rewrite v_0, V1.
    apply rnd_ge; [apply (repr_Z 0); lia|]. left. apply exp_pos.
  - done.
  - intros x H. by destruct x.
  - intros x [F B]%fle_btw; [|done|done].
    assert (B1 : / 25 <= val f_0_05) by (unfold f_0_05; rewrite lit_val; simpl; lra).
    assert (B2 : val f_100 = 100) by (unfold f_100; rewrite lit_val; simpl; lra).
    destruct (real_sqrt_at x F) as [Fs Vs]; [lra|]. apply fle_btw; [done|done|]. split; [done|]. rewrite Vs. split.
    + apply rnd_ge; [by apply repr_val|]. apply Rle_trans with (sqrt (val f_0_05)); [|apply sqrt_le_1_alt; lra].
      rewrite <-(sqrt_square (val f_0_2)); [|unfold f_0_2; rewrite lit_val; simpl; lra]. apply sqrt_le_1_alt.
      unfold f_0_2, f_0_05. rewrite !lit_val. simpl. lra.
    + apply rnd_le_repr; [by apply repr_val|]. rewrite <-(sqrt_square (val f_10)); [|rewrite val_10; lra]. apply sqrt_le_1_alt.
      rewrite val_10. lra.
  - intros x y [Fx Bx]%fle_btw [Fy By]%fle_btw L; [|done..]. apply fle_true in L; [|done|done].
    assert (B1 : / 25 <= val f_0_05) by (unfold f_0_05; rewrite lit_val; simpl; lra).
    destruct (real_sqrt_at x Fx) as [F1 V1]; [lra|]. destruct (real_sqrt_at y Fy) as [F2 V2]; [lra|].
    apply fle_true; [done|done|]. rewrite V1, V2. apply rnd_le. by apply sqrt_le_1_alt.
  - intros x H. by destruct x.
Qed.

(** ** A student whose grades fall *)
(** A good grade, and a bad one an hour later. *)
Definition fell : list trial := [Entry "a::b::c" f_1 3600%Z; Entry "a::b::c" f_5 0%Z].
Definition fell_candidate : candidate :=
  Candidate "a::b::c" "a::b" "a" f_1 f_2 0 f_1 (Scorer.velocity fell) false fzero fzero.
(** The same grades with a week between them. *)
Definition faded : list trial := [Entry "a::b::c" f_1 604800%Z; Entry "a::b::c" f_5 0%Z].
Definition faded_candidate : candidate :=
  Candidate "a::b::c" "a::b" "a" f_1 f_2 0 f_1 (Scorer.velocity faded) false fzero fzero.

(** What the velocity of some trials is compared with. *)
Definition velocity_is (P : f32 → bool) (trials : list trial) : bool :=
  match Scorer.velocity trials with Some v => P v | None => false end.
Lemma velocity_is_true P trials : velocity_is P trials = true → ∃ v, Scorer.velocity trials = Some v ∧ P v = true.
Proof. unfold velocity_is. destruct (Scorer.velocity trials) as [v|]; [|done]. by exists v. Qed.

Lemma graded_true l : forallb (λ t : trial, fle f_1 (e_val t) && fle (e_val t) f_5) l = true → Forall graded l.
Proof. intros H. apply Forall_forall. intros t Ht%elem_of_list_In. rewrite forallb_forall in H. by apply andb_prop, H. Qed.
Lemma fell_velocity : velocity_is (λ v, is_finite v && flt v (fneg f_1)) fell = true.
Proof. vm_compute. reflexivity. Qed.
Lemma faded_velocity : velocity_is (λ v, is_finite v && flt (fneg f_1) v && flt v (fneg f_0_2)) faded = true.
Proof. vm_compute. reflexivity. Qed.
Lemma fell_order : newest_first fell ∧ newest_first faded.
Proof. split; intros [|[|i]] [|[|j]] a b; simpl; try done; intros [= <-] [= <-] L; simpl in *; lia. Qed.

Lemma plain_at v d f w w' s e : (∀ x, v = Some x → fin x) → amount d → amount w → amount w' → (Z.of_nat f < 100)%Z →
  plain_candidate (Candidate "a::b::c" "a::b" "a" d s f f_1 v e w w').
Proof. intros. constructor; simpl; try done. lia. Qed.
Lemma amount_true x : is_finite x && fle fzero x = true → amount x.
Proof. by intros [? ?]%andb_prop. Qed.
Lemma fell_plain : plain_candidate fell_candidate ∧ plain_candidate faded_candidate.
Proof.
  split; (apply plain_at; [|by apply amount_true|by apply amount_true|by apply amount_true|simpl; lia]).
  - intros v E. destruct (velocity_is_true _ _ fell_velocity) as (v' & E' & H). rewrite E in E'. injection E' as <-. by apply andb_prop in H as [H _].
  - intros v E. destruct (velocity_is_true _ _ faded_velocity) as (v' & E' & H). rewrite E in E'. injection E' as <-.
    by apply andb_prop in H as [[H _]%andb_prop _].
Qed.
Lemma faded_slowly : falls_slowly faded_candidate.
Proof.
  intros v E. destruct (velocity_is_true _ _ faded_velocity) as (v' & E' & H). change (velocity faded_candidate) with (Scorer.velocity faded) in E. rewrite E in E'. injection E' as <-.
  apply andb_prop in H as [[F H]%andb_prop _]. apply fle_true; [done|done|]. apply flt_true in H; [|done|done]. lra.
Qed.

Lemma fell_lost : ∃ trials c, Forall graded trials ∧ newest_first trials ∧ plain_candidate c ∧ velocity c = Scorer.velocity trials ∧
  ∀ m, libm_ok m → flt (candidate_weight m c) (fdiv (urgency c) f_10) = true.
Proof.
  exists fell, fell_candidate. split; [apply graded_true; vm_compute; reflexivity|]. split; [apply fell_order|]. split; [apply fell_plain|]. split; [done|].
  intros m Hm. destruct (velocity_is_true _ _ fell_velocity) as (v & E & [_ H]%andb_prop).
  rewrite (weight_lost m Hm fell_candidate v E H). vm_compute. reflexivity.
Qed.

(** The same exercise two lessons deeper, covering another one and seen less often. *)
Definition deeper_candidate : candidate :=
  Candidate "a::b::c" "a::b" "a" f_3 f_2 0 f_1 (Scorer.velocity faded) true f_0_5 fzero.
Definition seen_candidate : candidate :=
  Candidate "a::b::c" "a::b" "a" f_1 f_2 2 f_1 (Scorer.velocity faded) false fzero f_0_5.
Lemma deeper_good : plain_candidate seen_candidate ∧ plain_candidate deeper_candidate ∧ as_good seen_candidate deeper_candidate.
Proof.
  assert (V : ∀ v, Scorer.velocity faded = Some v → fin v) by (intros v E; by apply (proj2 fell_plain)).
  split; [|split].
  - apply plain_at; [exact V|by apply amount_true|by apply amount_true|by apply amount_true|simpl; lia].
  - apply plain_at; [exact V|by apply amount_true|by apply amount_true|by apply amount_true|simpl; lia].
  - constructor; [done|done|done|done|simpl; lia|done| |done|done].
    change (match Scorer.velocity faded, Scorer.velocity faded with None, None => True | Some v, Some v' => fle v v' = true | _, _ => False end).
    destruct (Scorer.velocity faded) as [v|]; [|done]. pose proof (V v eq_refl) as F. apply fle_true; [done|done|lra].
Qed.
Lemma weight_nonvacuous : ∃ m c c', libm_ok m ∧ plain_candidate c ∧ plain_candidate c' ∧ falls_slowly c ∧ as_good c c' ∧ c ≠ c' ∧ stagnant c = false.
Proof.
  exists real_libm, seen_candidate, deeper_candidate. destruct deeper_good as (P & P' & G). split; [apply real_libm_ok|].
  split; [done|]. split; [done|]. split; [exact faded_slowly|]. split; [done|]. split; [by intros [= ? ?]|].
  unfold stagnant. change (velocity seen_candidate) with (Scorer.velocity faded).
  destruct (velocity_is_true (λ v, negb (flt (fabs v) f_0_2)) faded) as (v & E & H); [vm_compute; reflexivity|]. rewrite E. by apply negb_true_iff.
Qed.
