(** Concrete rewards and averages for P_Scorer.v. *)
From stdpp Require Import list strings.
From Coq Require Import ZArith Reals Lra Lia.
From Flocq Require Import Core.Core IEEE754.BinarySingleNaN.
From Verif Require Import F32 F32Real F32More Stores StoresSpec Scorer ScorerSpec ScorerProofs ScoreProofs PowerSample ScoreSample
  AverageProofs RewardProofs.

(** A value of 0.1 with a weight of 0.05 averages to more than 0.1. *)
Lemma average_above : fgt (weighted_average [f_0_1] [f_0_05]) f_0_1 = true ∧ fgt f_0_05 fzero = true.
Proof. split; vm_compute; reflexivity. Qed.

Definition mixed_values : list f32 := [f_1; f_5; f_3].
Definition mixed_weights : list f32 := [f_0_5; f_1; f_0_1].
Lemma mixed_ok : plain_bounds f_1 f_5 ∧ Forall plain_weight mixed_weights ∧ Forall (λ v, between f_1 v f_5) mixed_values.
Proof.
  split; [|split].
  - split; [done|]. split; [done|]. rewrite v_1, v_5. lra.
  - pose proof v_0_1. repeat constructor; rewrite ?v_0_5, ?v_1; lra.
  - repeat constructor.
Qed.

Definition good_reward : entry reward := Entry "lesson"%string (f_0_8, f_1) 0.
Definition weak_reward : entry reward := Entry "lesson"%string (f_0_4, f_0_5) 86400.
Lemma sample_rewards : Forall plain_reward [good_reward; weak_reward] ∧
  Forall (λ r : entry reward, fle fzero (e_val r).1 = true) [good_reward; weak_reward].
Proof. split; repeat constructor. Qed.

(** Three trials: two bad grades and a middling one. *)
Definition bad_trials : list trial :=
  [Entry "x"%string (f_of_Z 2) 300; Entry "x"%string (f_of_Z 3) 200; Entry "x"%string (f_of_Z 1) 100]%Z.
Lemma bad_withheld : apply_reward f_0_8 bad_trials 1000 = Some false ∧ apply_reward f_0_8 bad_trials 700000 = Some true ∧
  apply_reward (fneg f_0_5) bad_trials 1000 = Some true.
Proof. split_and!; vm_compute; reflexivity. Qed.
(** The difference of the timestamps does not fit 64 bits. *)
Lemma clock_overflow : apply_reward f_0_8
  [Entry "x"%string f_5 i64_min; Entry "x"%string f_5 i64_min; Entry "x"%string f_5 i64_min] 1 = None.
Proof. vm_compute. reflexivity. Qed.

Definition unordered : list trial := [Entry "x"%string f_5 1; Entry "x"%string f_5 2]%Z.
Lemma unordered_rejected : ¬ newest_first unordered.
Proof. intros H. apply out_of_order_spec in H. done. Qed.
Lemma store_scored powf ty (q : order f32) t u n es deltas now : sorts_newest_first q →
  get_entries q t u n = Some es → score_exercise powf ty es deltas now ≠ None.
Proof. intros Hq H E. apply score_rejects in E. apply E. by eapply store_history_ordered. Qed.
Lemma difficulty_in_range trials : fits trials → between f_1 (estimate_difficulty trials) f_10.
Proof. intros H. apply (between_f _ _ _ 1 10); [done|done|apply v_1|apply v_10|]. by apply estimate_difficulty_btw. Qed.
Lemma rewards_in_range powf valid_time now course lesson : power_ok powf →
  Forall plain_reward course → Forall plain_reward lesson →
  between (fneg f_1) (score_rewards powf valid_time now course lesson) f_1 ∧
  (Forall (λ r : entry reward, fle fzero (e_val r).1 = true) (course ++ lesson) →
    fle fzero (score_rewards powf valid_time now course lesson) = true) ∧
  (Forall (λ r : entry reward, fle (e_val r).1 fzero = true) (course ++ lesson) →
    fle (score_rewards powf valid_time now course lesson) fzero = true).
Proof.
  intros Hp Hc Hl. destruct (rewards_bounded powf Hp valid_time now course lesson Hc Hl) as (B & P & N).
  assert (HF : Forall (λ r : entry reward, fin (e_val r).1) (course ++ lesson)).
  { apply Forall_app. split; (eapply Forall_impl; [eassumption|]); intros r [Hv _]; by apply between_btw in Hv as [? _]. }
  pose proof (btw_fin _ _ _ B) as F.
  split; [by apply (between_f _ _ _ (-1) 1); [done|done|rewrite fneg_val, v_1; lra|apply v_1|]|].
  split; intros G.
  - apply fle_true; [done|done|]. rewrite v_0. apply P. rewrite Forall_forall in *. intros r Hr.
    specialize (G r Hr). specialize (HF r Hr). apply fle_true in G; [|done|done]. by rewrite v_0 in G.
  - apply fle_true; [done|done|]. rewrite v_0. apply N. rewrite Forall_forall in *. intros r Hr.
    specialize (G r Hr). specialize (HF r Hr). apply fle_true in G; [|done|done]. by rewrite v_0 in G.
Qed.
Lemma overflow_exists : ∃ reward trials now, (0 <= now)%Z ∧
  Forall (λ t : entry f32, (i64_min <= e_ts t <= i64_max)%Z) trials ∧ apply_reward reward trials now = None.
Proof.
  eexists _, _, _. split; [|split]; [| |exact clock_overflow]; [lia|].
  repeat constructor; cbn; unfold i64_min, i64_max; lia.
Qed.
Lemma average_too_large : ∃ v w, fgt w fzero = true ∧ fgt v fzero = true ∧ fgt (weighted_average [v] [w]) v = true.
Proof. exists f_0_1, f_0_05. split_and!; vm_compute; reflexivity. Qed.
Lemma waiting_raises powf : power_ok powf → rounded_power powf →
  ∃ ty trials now now' s s', newest_first trials ∧ fits trials ∧ Forall graded trials ∧ (now < now')%Z ∧
  score_exercise powf ty trials [] now = Some s ∧ score_exercise powf ty trials [] now' = Some s' ∧
  flt (sc_value s) (sc_value s') = true.
Proof.
  intros Hp Hr. destruct (waiting_helps powf Hp Hr) as (s & s' & H1 & H2 & H3).
  exists Procedural, two_trials, day_49, day_50, s, s'. split; [apply two_trials_order|]. split; [done|].
  split; [apply two_trials_graded|]. done.
Qed.
Lemma days_49_50 : recent two_trials day_49 ∧ old two_trials day_50.
Proof. split; exists a_trial; (split; [done|]); unfold day_49, day_50, fifty_days; cbn; lia. Qed.
