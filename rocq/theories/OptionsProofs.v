(** Proofs about mastery scores and options. *)
From stdpp Require Import base list.
From Coq Require Import Reals Lra ZArith.
From Flocq Require Import Core.Core IEEE754.BinarySingleNaN Sterbenz.
From Verif Require Import F32 F32Real F32Facts Options OptionsSpec Compute.
Local Open Scope R_scope.

(** ** The tolerance test *)
Lemma val_epsilon : val f_epsilon = tolerance.
Proof. unfold f_epsilon. rewrite lit_val. simpl. unfold tolerance. lra. Qed.
Lemma float_equals_nan_l y : float_equals fnan y = false.
Proof. now destruct y. Qed.

(** When the difference overflows, the result is infinite. *)
Lemma fsub_cases x y : fin x → fin y →
  (fin (fsub x y) ∧ val (fsub x y) = rnd (val x - val y)) ∨
  (is_finite (fsub x y) = false ∧ is_nan (fsub x y) = false ∧ bpow radix2 128 <= Rabs (rnd (val x - val y))).
Proof.
  intros Hx Hy. pose proof (Bminus_correct 24 128 eq_refl eq_refl mode_NE x y Hx Hy) as E.
  destruct (Rlt_bool_spec (Rabs (rnd (val x - val y))) (bpow radix2 128)) as [Hlt|Hge].
  - left. change (B2R x) with (val x) in E. change (B2R y) with (val y) in E.
    rewrite Rlt_bool_true in E by exact Hlt. destruct E as (E & Ef & _). split; [exact Ef|exact E].
  - right. change (B2R x) with (val x) in E. change (B2R y) with (val y) in E.
    rewrite Rlt_bool_false in E by exact Hge. destruct E as (E & _). unfold fsub.
    destruct (Bminus mode_NE x y); unfold binary_overflow in E; simpl in E; try discriminate.
    repeat split; auto.
Qed.

Lemma float_equals_fin x y : float_equals x y = true → fin y → fin x.
Proof.
  unfold float_equals. destruct x as [s|s| |s m e H]; destruct y as [s'|s'| |s' m' e' H']; try done;
  simpl; try (now intros). 
Qed.
Lemma float_equals_fin_both x y : float_equals x y = true → fin x ∧ fin y.
Proof.
  unfold float_equals. destruct x as [s|[]| |s m e H]; destruct y as [s'|[]| |s' m' e' H']; try done;
  simpl; try (now intros). 
Qed.
Lemma float_equals_sound x y : float_equals x y = true → Rabs (val x - val y) < tolerance.
Proof.
  intros E. destruct (float_equals_fin_both _ _ E) as [Hx Hy].
  unfold float_equals in E. destruct (fsub_cases x y Hx Hy) as [[Hf Hv]|(Hf & Hn & Hge)].
  - apply flt_true in E; [|now apply fabs_fin|easy].
    rewrite fabs_val, Hv, val_epsilon in E.
    destruct (Rlt_or_le (Rabs (val x - val y)) tolerance) as [|Hle]; [easy|].
    exfalso. apply (Rlt_not_le _ _ E).
    rewrite <-val_epsilon. rewrite <-val_epsilon in Hle.
    apply abs_round_ge_generic; [apply valid_exp_f32|apply valid_rnd_N|apply val_format|exact Hle].
  - exfalso. destruct (fsub x y); try done.
Qed.

(** Near a positive literal the difference is exact (Sterbenz), so the test is exact. *)
Lemma float_equals_complete x y : fin x → fin y → tolerance <= val y / 2 →
  Rabs (val x - val y) < tolerance → float_equals x y = true.
Proof.
  intros Hx Hy Hpos Hd.
  assert (Hf : generic_format radix2 (SpecFloat.fexp 24 128) (val x - val y)).
  { apply sterbenz; [apply valid_exp_f32|apply monotone_exp_f32|apply val_format|apply val_format|].
    unfold tolerance in *. apply Rabs_def2 in Hd. lra. }
  assert (Hr : rnd (val x - val y) = val x - val y).
  { apply round_generic; [apply valid_rnd_N|exact Hf]. }
  unfold float_equals. destruct (fsub_cases x y Hx Hy) as [[Hff Hv]|(_ & _ & Hge)].
  - apply flt_true; [now apply fabs_fin|easy|]. rewrite fabs_val, Hv, Hr, val_epsilon. exact Hd.
  - exfalso. rewrite Hr in Hge. unfold tolerance in Hd.
    assert (1 <= bpow radix2 128) by (apply (bpow_le radix2 0 128); lia). lra.
Qed.

(** ** C26 *)
Lemma float_score_val s : val (float_score s) = score_value s.
Proof. destruct s; unfold float_score; unfold f_1, f_2, f_3, f_4, f_5; rewrite lit_val; simpl; lra. Qed.
Lemma float_score_fin s : fin (float_score s).
Proof. by destruct s. Qed.
Lemma float_equals_score x s : float_equals x (float_score s) = true ↔
  fin x ∧ Rabs (val x - score_value s) < tolerance.
Proof.
  rewrite <-(float_score_val s). split.
  - intros H. split; [eapply float_equals_fin; [exact H|apply float_score_fin]|]. by apply float_equals_sound.
  - intros [Hx H]. apply float_equals_complete; [exact Hx|apply float_score_fin| |exact H].
    rewrite float_score_val. destruct s; simpl; unfold tolerance; lra.
Qed.
Lemma score_of_float_iff x s :
  score_of_float x = Some s ↔ fin x ∧ Rabs (val x - score_value s) < tolerance.
Proof.
  unfold score_of_float.
  change f_1 with (float_score One). change f_2 with (float_score Two).
  change f_3 with (float_score Three). change f_4 with (float_score Four).
  change f_5 with (float_score Five).
  assert (Huniq : ∀ s s', float_equals x (float_score s) = true →
    Rabs (val x - score_value s') < tolerance → s = s').
  { intros a b Ha Hb. apply float_equals_score in Ha as [_ Ha]. unfold tolerance in *.
    apply Rabs_def2 in Ha, Hb. destruct a, b; simpl in *; try reflexivity; lra. }
  destruct (float_equals x (float_score One)) eqn:E1;
  [|destruct (float_equals x (float_score Two)) eqn:E2;
  [|destruct (float_equals x (float_score Three)) eqn:E3;
  [|destruct (float_equals x (float_score Four)) eqn:E4;
  [|destruct (float_equals x (float_score Five)) eqn:E5]]]].
  1-5: split; [intros [= <-]; by apply float_equals_score|intros [_ H]; f_equal; eapply Huniq; eassumption].
  split; [discriminate|]. intros H. apply float_equals_score in H. destruct s; congruence.
Qed.
Lemma score_roundtrip s : score_of_float (float_score s) = Some s.
Proof.
  apply score_of_float_iff. split; [apply float_score_fin|].
  rewrite float_score_val, Rminus_eq_0, Rabs_R0. unfold tolerance. lra.
Qed.

(** ** C25 *)
Lemma val_fzero : val fzero = 0.
Proof. reflexivity. Qed.
Lemma val_f_5 : val f_5 = 5.
Proof. exact (float_score_val Five). Qed.

Lemma verify_fin o : verify_options o = true →
  Forall (λ w, fin (range_lo w) ∧ fin (range_hi w)) (windows o).
Proof.
  unfold verify_options. rewrite !andb_true_iff.
  intros [[[[[[[_ _] _] _] H0] H5] [[[H1 H2] H3] H4]] _].
  apply float_equals_fin_both in H0 as [? ?], H1 as [? ?], H2 as [? ?], H3 as [? ?], H4 as [? ?], H5 as [? ?].
  unfold windows. repeat constructor; assumption.
Qed.

(** Floats this close to 5 are 5. *)
Lemma near_five x : float_equals x f_5 = true → val x = 5.
Proof.
  intros H%float_equals_sound. rewrite val_f_5 in H. unfold tolerance in H. apply Rabs_def2 in H.
  pose proof (val_format x) as F. unfold generic_format in F.
  assert (Hc : cexp radix2 (SpecFloat.fexp 24 128) (val x) = (-21)%Z).
  { unfold cexp. rewrite (mag_unique_pos radix2 (val x) 3); [reflexivity|]. simpl. lra. }
  rewrite Hc in F. unfold F2R in F. simpl in F.
  set (n := Ztrunc (scaled_mantissa radix2 (SpecFloat.fexp 24 128) (val x))) in F.
  assert (n = 10485760%Z) as ->; [|lra].
  assert (10485759 < n < 10485761)%Z; [|lia].
  split; apply lt_IZR; lra.
Qed.

Lemma in_window_val w s : fin (range_lo w) → fin (range_hi w) → fin s →
  in_window w s = true ↔ 5 <= val (range_hi w) ∧ 5 <= val s ∨ val (range_lo w) <= val s < val (range_hi w).
Proof.
  intros Hl Hh Hs. unfold in_window. change (fge (range_hi w) f_5) with (fle f_5 (range_hi w)).
  change (fge s f_5) with (fle f_5 s).
  destruct (fle f_5 (range_hi w) && fle f_5 s) eqn:E.
  - apply andb_true_iff in E as [E1 E2]. apply fle_true in E1, E2; try done. rewrite val_f_5 in E1, E2.
    split; [|done]. intros _. by left.
  - rewrite andb_true_iff, fle_true, flt_true by done. split; [by right|].
    intros [[H1 H2]|H]; [|done]. exfalso. rewrite <-val_f_5 in H1, H2.
    apply fle_true in H1, H2; try done. rewrite H1, H2 in E. done.
Qed.
Lemma not_in_window_val w s : fin (range_lo w) → fin (range_hi w) → fin s →
  in_window w s = false ↔ ¬ (5 <= val (range_hi w) ∧ 5 <= val s ∨ val (range_lo w) <= val s < val (range_hi w)).
Proof.
  intros. rewrite <-in_window_val by done. by destruct (in_window w s).
Qed.

Lemma exactly_one_window o s : verify_options o = true → exact_windows o → score_in_range s →
  length (windows_of o s) = 1%nat.
Proof.
  intros Hv He [Hs0 Hs5]. pose proof (verify_fin o Hv) as Hf.
  assert (H5 : val (range_hi (mastered_window o)) = 5).
  { apply near_five. unfold verify_options in Hv. rewrite !andb_true_iff in Hv. tauto. }
  destruct (fle_between s fzero f_5) as [Hs [Hlo Hhi]]; try done.
  rewrite val_fzero in Hlo. rewrite val_f_5 in Hhi. clear Hs0 Hs5.
  destruct He as (E0 & E1 & E2 & E3 & E4 & Hle & Hlt).
  unfold windows in Hf, Hle. unfold windows in Hlt. simpl in Hlt.
  rewrite !Forall_cons in Hf. rewrite !Forall_cons in Hle. rewrite !Forall_cons in Hlt.
  destruct Hf as ([? ?] & [? ?] & [? ?] & [? ?] & [? ?] & _).
  destruct Hle as (L1 & L2 & L3 & L4 & L5 & _). destruct Hlt as (T1 & T2 & T3 & T4 & _).
  apply fle_true in E0, L1, L2, L3, L4, L5; try done. apply feq_true in E1, E2, E3, E4; try done.
  apply flt_true in T1, T2, T3, T4; try done. rewrite val_f_5 in T1, T2, T3, T4. rewrite val_fzero in E0.
  unfold windows_of, windows.
  assert (Hin : ∀ w l, in_window w s = true → length (filter (λ w, in_window w s = true) (w :: l)) =
    S (length (filter (λ w, in_window w s = true) l))).
  { intros w l Hw. rewrite filter_cons. by rewrite decide_True by done. }
  assert (Hout : ∀ w l, in_window w s = false → length (filter (λ w, in_window w s = true) (w :: l)) =
    length (filter (λ w, in_window w s = true) l)).
  { intros w l Hw. rewrite filter_cons. rewrite decide_False; [done|]. by rewrite Hw. }
  destruct (Rlt_or_le (val s) (val (range_hi (new_window o)))) as [C1|C1].
  { rewrite Hin by (apply in_window_val; try done; lra).
    rewrite !Hout by (apply not_in_window_val; try done; lra). done. }
  destruct (Rlt_or_le (val s) (val (range_hi (target_window o)))) as [C2|C2].
  { rewrite Hout by (apply not_in_window_val; try done; lra).
    rewrite Hin by (apply in_window_val; try done; lra).
    rewrite !Hout by (apply not_in_window_val; try done; lra). done. }
  destruct (Rlt_or_le (val s) (val (range_hi (current_window o)))) as [C3|C3].
  { do 2 rewrite Hout by (apply not_in_window_val; try done; lra).
    rewrite Hin by (apply in_window_val; try done; lra).
    rewrite !Hout by (apply not_in_window_val; try done; lra). done. }
  destruct (Rlt_or_le (val s) (val (range_hi (easy_window o)))) as [C4|C4].
  { do 3 rewrite Hout by (apply not_in_window_val; try done; lra).
    rewrite Hin by (apply in_window_val; try done; lra).
    rewrite !Hout by (apply not_in_window_val; try done; lra). done. }
  do 4 rewrite Hout by (apply not_in_window_val; try done; lra).
  rewrite Hin by (apply in_window_val; try done; destruct (Rlt_or_le (val s) 5); lra). done.
Qed.

(** The defaults. *)
Lemma default_verified : verify_options default_options = true.
Proof. vm_compute. reflexivity. Qed.
Lemma default_exact : exact_windows default_options.
Proof.
  assert (E : forallb (λ w, fle (range_lo w) (range_hi w)) (windows default_options) = true ∧
    forallb (λ w, flt (range_hi w) f_5) (take 4 (windows default_options)) = true)
    by (split; vm_compute; reflexivity).
  destruct E as [E1 E2].
  do 5 (split; [vm_compute; reflexivity|]). split.
  - apply Forall_forall. intros w Hw. rewrite forallb_forall in E1. apply E1. by apply elem_of_list_In.
  - apply Forall_forall. intros w Hw. rewrite forallb_forall in E2. apply E2. by apply elem_of_list_In.
Qed.
(** Any batch size but 0 is accepted in the preferences. *)
Lemma created_options b : verify_options (create_scheduler_options b) = negb (bool_decide (b = Some 0%nat)).
Proof. destruct b as [[|n]|]; vm_compute; reflexivity. Qed.
Lemma created_exact b : exact_windows (create_scheduler_options b).
Proof. destruct b; apply default_exact. Qed.

Lemma windows_of_created b s : windows_of (create_scheduler_options b) s = windows_of default_options s.
Proof. by destruct b. Qed.
Lemma created_one_window b s : score_in_range s →
  length (windows_of (create_scheduler_options b) s) = 1%nat.
Proof.
  intros Hs. rewrite windows_of_created.
  by apply exactly_one_window; [apply default_verified|apply default_exact|].
Qed.

(** ** Accepted options whose windows do not partition the scores *)
Definition with_windows (n t c e m : window) : scheduler_options := {|
  batch_size := 50; relearn_fraction := f_0_1;
  new_window := n; target_window := t; current_window := c; easy_window := e; mastered_window := m;
  passing_score := default_passing; superseding_score := f_4; num_trials := 20; num_deltas := 10;
  num_rewards := 10; max_lessons_in_progress := 10 |}.
(** The target window starts one float above the end of the new window. *)
Definition above_0_1 : f32 := lit false 13421774 (-27) eq_refl.
Definition gap_options : scheduler_options :=
  with_windows (Window f_0_2 fzero f_0_1) (Window f_0_2 above_0_1 f_2_5) (Window f_0_3 f_2_5 f_3_75)
    (Window f_0_2 f_3_75 f_4_5) (Window f_0_1 f_4_5 f_5).
Lemma gap_in_windows : ∃ o s, verify_options o = true ∧ score_in_range s ∧ windows_of o s = [].
Proof.
  exists gap_options, f_0_1. split; [vm_compute; reflexivity|]. split; [split; vm_compute; reflexivity|].
  apply length_zero_iff_nil. apply Nat.eqb_eq. vm_compute. reflexivity.
Qed.
(** The target window runs up to 5 and the current one back down to 2.5. *)
Definition overlap_options : scheduler_options :=
  with_windows (Window f_0_2 fzero f_0_1) (Window f_0_2 f_0_1 f_4) (Window f_0_3 f_4 f_2_5)
    (Window f_0_2 f_2_5 f_4_5) (Window f_0_1 f_4_5 f_5).
Lemma overlap_in_windows : ∃ o s, verify_options o = true ∧ score_in_range s ∧
  (1 < length (windows_of o s))%nat.
Proof.
  exists overlap_options, f_3. split; [vm_compute; reflexivity|]. split; [split; vm_compute; reflexivity|].
  apply Nat.ltb_lt. vm_compute. reflexivity.
Qed.
