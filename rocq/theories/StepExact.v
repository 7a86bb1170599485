(** Proof that a trial changes the memory as documented, and of the weights of the average. *)
From stdpp Require Import list strings.
From Coq Require Import ZArith Reals Lra Lia.
From Flocq Require Import Core.Core IEEE754.BinarySingleNaN.
From Verif Require Import F32 F32Real F32More Stores Scorer ScorerSpec ScorerProofs ScoreProofs PowerSample AverageProofs CurveProofs MemoryProofs MemoryWitness ExactSpec MemoryExact CurveExact AverageExact ScoreExact.
Local Open Scope R_scope.

Lemma previous_cons powf ty base t l : m_previous (replay powf ty base (t :: l)) = Some (e_ts t).
Proof. rewrite replay_cons. unfold replay_step. by destruct (m_previous (replay powf ty base l)). Qed.
Lemma first_trial powf ty base t : replay powf ty base [t] = Memory f_1 base (Some (e_ts t)).
Proof. done. Qed.
Lemma curve_close powf ty now ts s : power_ok powf → rounded_power powf → between f_0_5 s f_730 →
  Rabs (val (retrievability powf ty (days_between now ts) s) - exact_recall ty (val (days_between now ts)) (val s)) <= 3 / 10000.
Proof.
  intros Hp Hr Hs. apply (recall_close powf Hp Hr); [apply days_between_btw|].
  apply (between_f f_0_5 s f_730 (/ 2) 730); [done|done|rewrite v_0_5; lra|apply v_730|done].
Qed.
Lemma step_close powf ty base t t0 l : power_ok powf → between f_1 base f_10 → Forall graded (t :: t0 :: l) →
  let before := replay powf ty base (t0 :: l) in let after := replay powf ty base (t :: t0 :: l) in
  let days := days_between (e_ts t) (e_ts t0) in
  Rabs (val (m_stability after) - exact_stability (val (m_stability before)) (val (m_difficulty before)) (val (e_val t))
    (val (retrievability powf ty days (m_stability before))) (val days)) <= val (m_stability before) / 100000 ∧
  Rabs (val (m_difficulty after) - exact_difficulty (val (m_difficulty before)) (val (e_val t))) <= / 100000.
Proof.
  intros Hp Hb%base_btw Hg. cbv zeta. assert (Hl : Forall graded (t0 :: l)) by (by inversion Hg).
  assert (Ht : graded t) by (by inversion Hg). apply graded_btw in Ht.
  destruct (replay_btw powf Hp ty base (t0 :: l) Hb Hl) as [Bs Bd]. unfold compute_stability in Bs.
  rewrite (replay_cons powf ty base t (t0 :: l)). unfold replay_step at 1 2. rewrite previous_cons. cbn [m_stability m_difficulty]. split.
  - apply stability_close; [done|done|done|done|apply days_between_btw].
  - by apply difficulty_close.
Qed.
Lemma estimate_close t l : (length (t :: l) <= 1000)%nat →
  Rabs (val (estimate_difficulty (t :: l)) - exact_estimate (failures_in (t :: l)) (length (t :: l))) <= / 100000.
Proof.
  intros Hl. unfold estimate_difficulty. cbv zeta. fold (failures_in (t :: l)). unfold exact_estimate.
  assert (Hf : (failures_in (t :: l) <= length (t :: l))%nat) by (unfold failures_in; generalize (t :: l); intros l0; induction l0 as [|? ? IH]; [done|]; cbn; destruct (flt _ _); cbn; lia).
  set (k := failures_in (t :: l)) in *. assert (Hn : (1 <= length (t :: l))%nat) by (cbn; lia). set (n := length (t :: l)) in *. clearbody k n.
  destruct (f_of_nat_val k) as [Fk Vk]; [lia|]. destruct (f_of_nat_val n) as [Fn Vn]; [lia|].
  assert (N1 : 1 <= INR n) by (apply (le_INR 1); lia). assert (K0 : 0 <= INR k) by apply pos_INR. assert (KN : INR k <= INR n) by (by apply le_INR).
  assert (Q : 0 <= INR k / INR n <= 1).
  { split; [apply Rmult_le_pos; [done|]; apply Rlt_le, Rinv_0_lt_compat; lra|].
    apply Rmult_le_reg_r with (INR n); [lra|]. unfold Rdiv. rewrite Rmult_assoc, Rinv_l by lra. lra. }
  destruct (fdiv_btw (f_of_nat k) (f_of_nat n) 0 1) as [[F1 B1] E1]; [done|done|rewrite Vn; lra|rp|rp|rewrite Vn, Vk; lra|].
  rewrite Vk, Vn in E1. set (q := INR k / INR n) in *. clearbody q.
  pose proof (close q 1 ltac:(apply Rabs_le; lra)) as C1. rewrite <-E1 in C1. apply Rabs_le_inv in C1.
  assert (V9 : val f_9 = 9) by (unfold f_9; first [apply v_9 | rewrite lit_val; simpl; lra]).
  set (x := fdiv (f_of_nat k) (f_of_nat n)) in *. clearbody x.
  destruct (fmul_btw x f_9 0 9) as [[F2 B2] E2]; [done|done|rp|rp|rewrite V9; lra|]. rewrite V9 in E2.
  pose proof (close (val x * 9) 9 ltac:(apply Rabs_le; lra)) as C2. rewrite <-E2 in C2. apply Rabs_le_inv in C2.
  destruct (fadd_btw f_1 (fmul x f_9) 1 10) as [[F3 B3] E3]; [done|done|rp|rp|rewrite v_1; lra|]. rewrite v_1 in E3.
  pose proof (close (1 + val (fmul x f_9)) 10 ltac:(apply Rabs_le; lra)) as C3. rewrite <-E3 in C3. apply Rabs_le_inv in C3.
  destruct (fclamp_val (fadd f_1 (fmul x f_9)) f_1 f_10) as [_ ->]; [done|done|done|rewrite v_1, v_10; lra|]. rewrite v_1, v_10.
  rewrite Rmax_left, Rmin_left by lra. apply Rabs_le. lra.
Qed.
Lemma graded_average powf l now : power_ok powf → rounded_power powf → Forall graded l → (length l <= 1000)%nat → near_times l now →
  Rabs (val (compute_weighted_avg powf l) - exact_average l) <= INR (length l) / 90000 + 13 / 10000.
Proof. intros Hp Hr Hg Hl [_ Ht]. apply average_close; [done|done|by apply graded_wide'|done|done]. Qed.

(** ** The weights of the two averages *)
Definition long_ago : list trial := [graded_on 365 f_5; graded_on 0 f_1].
Lemma exact_long_ago : time_average long_ago = 51 / 11 ∧ position_average long_ago = 119 / 39.
Proof.
  assert (W0 : weight_after 0 = 1). { unfold weight_after. rewrite Rpower_O by lra. apply Rmax_left. lra. }
  assert (W1 : weight_after 1 = 95 / 100). { unfold weight_after. rewrite Rpower_1 by lra. apply Rmax_left. lra. }
  assert (W : weight_after (weeks (e_ts (graded_on 365 f_5)) (e_ts (graded_on 0 f_1))) = / 10).
  { unfold weight_after. apply Rmax_right. destruct ln_95 as ((L & _) & _).
    assert (Hw : 50 <= weeks (e_ts (graded_on 365 f_5)) (e_ts (graded_on 0 f_1))).
    { unfold weeks. eapply Rle_trans; [|apply Rmax_l]. cbn [graded_on e_ts]. match goal with |- _ <= IZR ?z / _ => let z' := eval vm_compute in z in change z with z' end. lra. }
    apply Rle_trans with (Rpower (95 / 100) 50).
    { unfold Rpower. apply exp_le. nra. }
    change 50 with (INR 50) at 1 || replace 50 with (INR 50) by (simpl; lra). rewrite Rpower_pow by lra. simpl. lra. }
  assert (W' : weight_after (weeks (e_ts (graded_on 365 f_5)) (e_ts (graded_on 365 f_5))) = 1).
  { rewrite <-W0. f_equal. unfold weeks. rewrite Z.sub_diag. apply Rmax_right. lra. }
  split.
  - unfold long_ago, time_average, mean. cbn [fmap list_fmap fst snd]. rewrite W, W'. rewrite !total_cons, !total_nil. cbn [e_val graded_on]. rewrite v_5, v_1. lra.
  - unfold long_ago, position_average, mean. cbn [imap fmap list_fmap fst snd compose INR]. rewrite W0, W1. rewrite !total_cons, !total_nil. cbn [e_val graded_on]. rewrite v_5, v_1. lra.
Qed.
Lemma long_ago_ok : Forall graded long_ago ∧ newest_first long_ago ∧ near_times long_ago 40000000.
Proof.
  split; [repeat (constructor; [split; vm_compute; reflexivity|]); constructor|]. split; [apply out_of_order_spec; reflexivity|].
  split; [lia|]. repeat (constructor; [cbn; lia|]). constructor.
Qed.
Lemma other_blend powf : power_ok powf → rounded_power powf →
  3 / 10 < Rabs (val (compute_weighted_avg powf long_ago) - (6 / 10 * time_average long_ago + 4 / 10 * position_average long_ago)).
Proof.
  intros Hp Hr. destruct long_ago_ok as (H1 & H2 & H3). pose proof (graded_average powf long_ago _ Hp Hr H1 ltac:(cbn; lia) H3) as C.
  unfold exact_average in C. destruct exact_long_ago as [E1 E2]. rewrite E1, E2 in *. change (INR (length long_ago)) with (1 + 1) in C.
  apply Rabs_le_inv in C. set (a := val _) in *. clearbody a. rewrite Rabs_pos_eq; lra.
Qed.
