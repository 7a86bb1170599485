(** Proof that the score shown is that of the trials and the reward, and a sample. *)
From stdpp Require Import gmap list strings.
From Coq Require Import ZArith Reals Lra Lia.
From Flocq Require Import Core.Core IEEE754.BinarySingleNaN.
From Verif Require Import F32 F32Real F32More Graph Library SearchSpec Sql Stores StoresSpec StoresSample Options Scorer ScorerSpec ScorerProofs ScoreProofs PowerSample ScoreSample RewardSample
  AverageProofs CurveProofs MemoryProofs RewardProofs UnitScorer Practice PracticeSpec PracticeSample ThreadsSpec ExactSpec MemoryExact CurveExact AverageExact RewardExactSpec RewardExact.
Local Open Scope R_scope.

Lemma shown_close s now p e l c trials deltas course lesson : power_ok (g_powf s) → rounded_power (g_powf s) → sorts_newest_first (g_order s) →
  c_exercise (p_caches p) !! e = None →
  get_exercise_lesson (lib_graph (g_lib s)) e = Some l → get_lesson_course (lib_graph (g_lib s)) l = Some c →
  get_entries (g_order s) (p_trials p) e (g_num_trials s) = Some trials → get_entries (g_order s) (p_deltas p) e (g_num_trials s) = Some deltas →
  get_entries (g_reward_order s) (rs_table (p_rewards p)) c (g_num_rewards s) = Some course →
  get_entries (g_reward_order s) (rs_table (p_rewards p)) l (g_num_rewards s) = Some lesson →
  fits trials → Forall graded trials → Forall small_delta deltas → near_times trials now →
  (length course <= 1000)%nat → (length lesson <= 1000)%nat →
  Forall (near_reward (g_valid_time s) now) course → Forall (near_reward (g_valid_time s) now) lesson →
  ∃ x sc b, shown s now p e = Val x ∧ score_exercise (g_powf s) (exercise_type_of s e) trials deltas now = Some sc ∧
    apply_reward (score_rewards (g_powf s) (g_valid_time s) now course lesson) trials now = Some b ∧
    Rabs (val (ca_score x) - (if b then within 0 (val (sc_value sc) + exact_reward now course lesson) 5 else val (sc_value sc)))
      <= INR (length course + length lesson) / 100000 + 78 / 100000.
Proof.
  intros Hp Hr Ho Hc El Ec Et Ed Erc Erl Hf Hg Hd [Hn Ht] Lc Ll Fc Fl.
  assert (HO : newest_first trials) by (eapply store_history_ordered; [exact Ho|exact Et]).
  destruct (score_valid (g_powf s) Hp (exercise_type_of s e) trials deltas now HO Hf Hg Hd) as (sc & Es & Hv & _).
  assert (R : ∀ rs, Forall (near_reward (g_valid_time s) now) rs → Forall plain_reward rs).
  { intros rs HF. eapply Forall_impl; [exact HF|]. intros r H. apply H. }
  destruct (rewards_bounded (g_powf s) Hp (g_valid_time s) now course lesson (R _ Fc) (R _ Fl)) as ([Fw Bw] & _).
  pose proof (reward_close (g_powf s) Hp Hr (g_valid_time s) now course lesson Hn Lc Ll Fc Fl) as C.
  set (w := score_rewards _ _ _ _ _) in *.
  assert (Hb : ∃ b, apply_reward w trials now = Some b).
  { unfold apply_reward. destruct trials as [|t l0]; [by eexists|]. destruct (Nat.leb _ _); [by eexists|].
    apply Forall_inv in Ht. rewrite bool_decide_eq_true_2 by (unfold i64_min, i64_max; lia).
    destruct (_ && _ && _); [by eexists|]. destruct (_ && _ && _); by eexists. }
  destruct Hb as [b Eb]. eexists _, sc, b. split_and!; [|done|done|].
  - unfold shown, exercise_entry. rewrite Hc. cbn [world_of w_exercise]. unfold compute_exercise.
    cbv zeta. rewrite El, Et, Ed. cbn [from_option Datatypes.id]. rewrite Ec. cbn [from_option Datatypes.id]. rewrite Erc, Erl. cbn [from_option Datatypes.id]. rewrite Es.
    fold w. rewrite Eb. cbn [fst]. reflexivity.
  - cbn [ca_score]. pose proof (pos_INR (length course + length lesson)) as P0. destruct b; [|rewrite Rminus_diag_eq, Rabs_R0 by done; lra].
    apply (between_f fzero _ f_5 0 5) in Hv as [Fv Bv]; [|done|done|apply v_0|apply v_5].
    destruct (fadd_btw (sc_value sc) w (-1) 6) as [[Fa Ba] Ea]; [done|done|rp|rp|lra|].
    destruct (fclamp_val (fadd (sc_value sc) w) fzero f_5) as [_ ->]; [done|done|done|rewrite v_0, v_5; lra|]. rewrite v_0, v_5.
    change (Rmin (Rmax ?x 0) 5) with (within 0 x 5). apply within_close.
    pose proof (close (val (sc_value sc) + val w) 6 ltac:(apply Rabs_le; lra)) as C1. rewrite <-Ea in C1. apply Rabs_le_inv in C1, C. apply Rabs_le. lra.
Qed.

(** ** A sample: three trials and a reward of the lesson, two weeks ago *)
Definition trials_3 : table f32 := fst (record_entries bind_f32 false trials_2 [five]).
Definition three_trials : list trial := [five; five; five].
Definition rewarded : table reward :=
  fst (record_entries bind_reward false empty_table [good_reward; weak_reward; Entry "course"%string (f_0_4, f_1) 0%Z]).
Definition p_3 : practice := Practice trials_3 empty_table (RewardStore rewarded ∅) ∅ no_caches.
Definition two_weeks : Z := 1209600.
Lemma three_read : get_entries by_time trials_3 "exercise" 10 = Some three_trials.
Proof. reflexivity. Qed.
Lemma lesson_read : get_entries by_time rewarded "lesson" 20 = Some [weak_reward; good_reward].
Proof. reflexivity. Qed.
Lemma course_read : get_entries by_time rewarded "course" 20 = Some [Entry "course"%string (f_0_4, f_1) 0%Z].
Proof. reflexivity. Qed.
Lemma half_power n : (0 <= n <= 14)%Z → / 2 <= Rpower (1 / 2) (IZR n / 14) <= 1.
Proof.
  intros Hn. assert (0 <= IZR n <= 14) by (split; apply IZR_le; lia). assert (0 <= ln 2) by (rewrite <-ln_1; apply Rlt_le, ln_increasing; lra).
  replace (1 / 2) with (/ 2) by lra. split.
  - replace (/ 2) with (Rpower (/ 2) 1) at 1 by (apply Rpower_1; lra). unfold Rpower. apply exp_le. rewrite ln_Rinv by lra. nra.
  - rewrite <-exp_0. unfold Rpower. apply exp_le. rewrite ln_Rinv by lra. nra.
Qed.
Lemma near_sample w v u ts : plain_reward (Entry u (v, w) ts) → / 2 <= val w → (0 <= ts <= 1209600)%Z →
  near_reward (λ _, true) two_weeks (Entry u (v, w) ts).
Proof.
  intros H Hw Hts. split; [done|]. split; [done|]. split; [cbn; lia|]. unfold clear_cut, left_weight, left_of. cbn [e_val e_ts snd].
  assert (Hd : (0 <= whole_days two_weeks ts <= 14)%Z).
  { unfold whole_days, two_weeks. split; [lia|]. apply Z.max_lub; [lia|]. apply Z.div_le_upper_bound; lia. }
  pose proof (half_power _ Hd) as P. rewrite Rabs_pos_eq; nra.
Qed.
Lemma shown_sample : ∃ lib, opened lib ∧ let s := setting_of real_power lib in
  sorts_newest_first (g_order s) ∧
  c_exercise (p_caches p_3) !! "exercise"%string = None ∧ get_exercise_lesson (lib_graph lib) "exercise" = Some "lesson"%string ∧
  get_lesson_course (lib_graph lib) "lesson" = Some "course"%string ∧
  get_entries (g_order s) (p_trials p_3) "exercise" (g_num_trials s) = Some three_trials ∧ get_entries (g_order s) (p_deltas p_3) "exercise" (g_num_trials s) = Some [] ∧
  get_entries (g_reward_order s) (rs_table (p_rewards p_3)) "course" (g_num_rewards s) = Some [Entry "course"%string (f_0_4, f_1) 0%Z] ∧
  get_entries (g_reward_order s) (rs_table (p_rewards p_3)) "lesson" (g_num_rewards s) = Some [weak_reward; good_reward] ∧
  fits three_trials ∧ Forall graded three_trials ∧ near_times three_trials two_weeks ∧
  Forall (near_reward (g_valid_time s) two_weeks) [Entry "course"%string (f_0_4, f_1) 0%Z; weak_reward; good_reward].
Proof.
  destruct two_lessons_opened as (lib & Ho & Hg). exists lib. split; [done|]. cbv zeta.
  split; [apply by_time_ok|]. split; [done|]. split; [apply Hg|]. split; [apply Hg|]. split; [exact three_read|]. split; [reflexivity|].
  split; [exact course_read|]. split; [exact lesson_read|]. split; [unfold fits; cbn; lia|].
  split; [repeat (constructor; [split; vm_compute; reflexivity|]); constructor|].
  split; [split; [unfold two_weeks; lia|]; repeat (constructor; [cbn; lia|]); constructor|].
  constructor; [|constructor; [|constructor; [|constructor]]]; apply near_sample; try (unfold two_weeks; lia); try (rewrite ?v_1, ?v_0_5; lra); repeat split.
Qed.
