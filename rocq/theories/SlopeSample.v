(** The trend of an exercise as part of its score, and where it is not the slope of the grades. *)
From stdpp Require Import list strings.
From Coq Require Import ZArith Reals Lra Lia.
From Flocq Require Import Core.Core.
From Verif Require Import F32 F32Real F32More Stores Scorer ScorerSpec ScorerProofs ScoreProofs ExactSpec AverageExact OptionsSpec OptionsProofs WeightSample SlopeSpec SlopeProofs.
Local Open Scope R_scope.

Lemma score_velocity powf ty trials deltas now s : trials ≠ [] → score_exercise powf ty trials deltas now = Some s →
  newest_first trials ∧ sc_velocity s = velocity trials.
Proof.
  intros Hne H. unfold score_exercise in H. destruct trials as [|t0 l]; [done|]. destruct (out_of_order (t0 :: l)) eqn:O; [done|].
  injection H as <-. split; [|done]. by apply out_of_order_spec.
Qed.

Lemma slope_close powf ty trials deltas now s : score_exercise powf ty trials deltas now = Some s → Forall graded trials → Forall plain_time trials →
  (2 <= length trials <= 100)%nat → 60 / 86400 <= span trials →
  ∃ v, sc_velocity s = Some v ∧ fin v ∧
    Rabs (val v - least_squares (grade_points trials)) <= (Rabs (least_squares (grade_points trials)) + / span trials) * INR (length trials) ^ 2 / 50000.
Proof.
  intros H G P L S. apply score_velocity in H as [O ->]; [|by intros ->; simpl in L; lia]. by apply velocity_close.
Qed.

Lemma slope_direction powf ty trials deltas now s : score_exercise powf ty trials deltas now = Some s → Forall graded trials → Forall plain_time trials →
  (2 <= length trials <= 100)%nat → 60 / 86400 <= span trials →
  ∃ v, sc_velocity s = Some v ∧
    (INR (length trials) ^ 2 / 25000 <= least_squares (grade_points trials) * span trials → flt fzero v = true) ∧
    (INR (length trials) ^ 2 / 25000 <= - least_squares (grade_points trials) * span trials → flt v fzero = true).
Proof.
  intros H G P L S. destruct (slope_close _ _ _ _ _ _ H G P L S) as (v & E & F & B). exists v. split; [done|].
  assert (HN : 2 <= INR (length trials) <= 100) by (rewrite INR_IZR_INZ; split; apply IZR_le; lia).
  set (N := INR (length trials)) in *. set (T := span trials) in *. set (r := least_squares (grade_points trials)) in *. clearbody N T r.
  assert (T0 : 0 < T) by lra. assert (g0 : 0 < / T) by (by apply Rinv_0_lt_compat). assert (g1 : T * / T = 1) by (apply Rinv_r; lra).
  assert (N2 : 4 <= N ^ 2 <= 10000) by (simpl; nra).
  assert (C : ∀ a, N ^ 2 / 25000 <= a * T → (a + / T) * N ^ 2 / 50000 < a).
  { intros a Ha. assert (A : N ^ 2 / 25000 * / T <= a * T * / T) by (apply Rmult_le_compat_r; lra).
    replace (a * T * / T) with a in A by (field; lra). assert (0 < N ^ 2 / 25000 * / T) by (apply Rmult_lt_0_compat; lra).
    assert (a * N ^ 2 <= a * 10000) by (apply Rmult_le_compat_l; lra). lra. }
  apply Rabs_le_inv in B. split; intros Ha; specialize (C _ Ha).
  - apply flt_true; [done|done|]. rewrite v_0. rewrite Rabs_right in B by nra. lra.
  - apply flt_true; [done|done|]. rewrite v_0. rewrite Rabs_left in B by nra. lra.
Qed.

Lemma few_trials powf ty trials deltas now s : (length trials < 2)%nat → score_exercise powf ty trials deltas now = Some s → sc_velocity s = None.
Proof.
  intros L H. destruct trials as [|t [|t' l]]; [by injection H as <-| |simpl in L; lia]. by apply score_velocity in H as [_ ->].
Qed.

(** ** All trials at one moment *)
Lemma day_zero o e : e_ts e = o → day_of o e = fzero.
Proof.
  intros <-. unfold day_of, saturating_sub. replace (e_ts e - e_ts e)%Z with 0%Z by lia. reflexivity.
Qed.
Lemma zeros_sum (f : trial → f32) l : Forall (λ e, f e = fzero) l → fold_left fadd (f <$> l) fzero = fzero.
Proof. induction 1 as [|e l E _ IH]; [done|]. cbn [fmap list_fmap fold_left]. rewrite E. exact IH. Qed.
Lemma same_moment powf ty trials deltas now s o : (2 <= length trials <= 1000)%nat → Forall (λ t, e_ts t = o) trials →
  score_exercise powf ty trials deltas now = Some s → sc_velocity s = Some fzero.
Proof.
  intros L A H. apply score_velocity in H as [_ ->]; [|by intros ->; simpl in L; lia].
  destruct (exists_last (l := trials)) as (mid & z & E); [by intros ->; simpl in L; lia|].
  rewrite (velocity_eq trials z); [|lia|intros d; rewrite E; apply List.last_last].
  assert (Ez : e_ts z = o) by (rewrite E in A; apply Forall_app in A as [_ A]; by apply Forall_inv in A). rewrite Ez.
  rewrite (zeros_sum (day_of o)), (zeros_sum (λ e, fmul (day_of o e) (day_of o e))).
  2-3: eapply Forall_impl; [exact A|]; intros e Ee; cbv beta; by rewrite day_zero.
  destruct (f_of_nat_val (length trials) ltac:(lia)) as [Fn Vn].
  destruct (fmul_btw (f_of_nat (length trials)) fzero 0 0) as [[F1 W1] _]; [done|done|exists fzero; split; [done|apply v_0]|exists fzero; split; [done|apply v_0]|rewrite v_0; lra|].
  destruct (fsub_btw (fmul (f_of_nat (length trials)) fzero) (fmul fzero fzero) 0 0) as [[F2 W2] _];
    [done|done|exists fzero; split; [done|apply v_0]|exists fzero; split; [done|apply v_0]| |].
  { change (fmul fzero fzero) with fzero. rewrite v_0. lra. }
  replace (flt (fabs _) f_epsilon) with true; [done|]. symmetry. apply flt_true; [by apply fabs_fin|done|].
  rewrite fabs_val, val_epsilon. unfold tolerance. rewrite Rabs_right by lra. lra.
Qed.

(** ** Equal grades with a falling trend *)
Definition always_five : list trial := [Entry "a::b::c" f_5 3556%Z; Entry "a::b::c" f_5 2942%Z; Entry "a::b::c" f_5 0%Z].
Lemma always_falls : velocity_is (λ v, flt v fzero) always_five = true. Proof. vm_compute. reflexivity. Qed.
Lemma five_falls : ∃ trials, Forall (λ t : trial, e_val t = f_5) trials ∧ ∀ powf ty deltas now s,
  score_exercise powf ty trials deltas now = Some s → ∃ v, sc_velocity s = Some v ∧ flt v fzero = true.
Proof.
  exists always_five. split; [by repeat constructor|]. intros powf ty deltas now s H. apply score_velocity in H as [_ ->]; [|done].
  destruct (velocity_is_true _ _ always_falls) as (v & E & F). exists v. split; [exact E|exact F].
Qed.

(** ** A rise within half a minute *)
Definition quick : list trial := [Entry "a::b::c" f_5 20%Z; Entry "a::b::c" f_1 0%Z].
Lemma quick_flat : velocity_is (λ v, feq v fzero) quick = true. Proof. vm_compute. reflexivity. Qed.
Lemma quick_slope : least_squares (grade_points quick) = 17280.
Proof.
  unfold least_squares, average_of, grade_points, quick. cbn [fmap list_fmap fst snd length e_ts e_val total foldr].
  rewrite v_5, v_1. unfold total. simpl. field_simplify; [|try lra..]. all: try lra. 
Qed.
Lemma quick_unnoticed : ∃ trials, Forall graded trials ∧ least_squares (grade_points trials) = 17280 ∧ ∀ powf ty deltas now s,
  score_exercise powf ty trials deltas now = Some s → ∃ v, sc_velocity s = Some v ∧ feq v fzero = true.
Proof.
  exists quick. split; [apply graded_true; vm_compute; reflexivity|]. split; [apply quick_slope|]. intros powf ty deltas now s H.
  apply score_velocity in H as [_ ->]; [|done]. destruct (velocity_is_true _ _ quick_flat) as (v & E & F). exists v. split; [exact E|exact F].
Qed.

(** ** Three trials on three days *)
Definition three_days : list trial := [Entry "a::b::c" f_5 172800%Z; Entry "a::b::c" f_4 86400%Z; Entry "a::b::c" f_1 0%Z].
Lemma three_days_ok powf ty now : Forall graded three_days ∧ Forall plain_time three_days ∧ (2 <= length three_days <= 100)%nat ∧
  60 / 86400 <= span three_days ∧ INR (length three_days) ^ 2 / 25000 <= least_squares (grade_points three_days) * span three_days ∧
  ∃ s, score_exercise powf ty three_days [] now = Some s.
Proof.
  assert (Sp : span three_days = 2) by (unfold span, three_days; cbn [List.last e_ts]; replace (172800 - 0)%Z with 172800%Z by lia; lra).
  assert (E : least_squares (grade_points three_days) = 2).
  { unfold least_squares, average_of, grade_points, three_days. cbn [fmap list_fmap fst snd length e_ts e_val total foldr].
    rewrite v_5, v_4, v_1. unfold total. simpl. field_simplify; [|try lra..]. all: try lra. }
  split; [apply graded_true; vm_compute; reflexivity|]. split; [repeat constructor; unfold plain_time; simpl; lia|].
  split; [simpl; lia|]. rewrite Sp, E. split; [lra|]. split; [simpl; lra|]. eexists. reflexivity.
Qed.
Lemma falls_scored powf ty now : (∃ s, score_exercise powf ty always_five [] now = Some s) ∧ ∃ s, score_exercise powf ty quick [] now = Some s.
Proof. split; eexists; reflexivity. Qed.
