(** Proofs about the reward of a unit (C23) and when it is applied. *)
From stdpp Require Import list.
From Coq Require Import ZArith Reals Lra Lia.
From Flocq Require Import Core.Core IEEE754.BinarySingleNaN.
From Verif Require Import F32 F32Real F32More Stores Scorer ScorerSpec ScorerProofs ScoreProofs AverageProofs.
Local Open Scope R_scope.

Lemma rnd_opp r : rnd (- r) = - rnd r.
Proof. apply round_NE_opp. Qed.

Section rewards.
  Context (powf : f32 → f32 → f32) (Hp : power_ok powf) (valid_time : Z → bool).

  Lemma fle_zero_fdiv x : fin x → 0 <= val x → fle fzero (fdiv x f_14) = true.
  Proof using.
    intros Fx Hx. pose proof v_14 as H14.
    destruct (fdiv_between x f_14 fzero x) as (F & _ & B); [done|done|rewrite H14; lra| |].
    { rewrite H14, v_0. split; [apply Rmult_le_pos; lra|]. unfold Rdiv. lra. }
    apply fle_true; [done|done|]. lra.
  Qed.
  Lemma f_of_Z_pos z : (0 <= z)%Z → fle fzero (f_of_Z z) = true.
  Proof using. intros H. pose proof (f_of_nat_pos (Z.to_nat z)) as E. unfold f_of_nat in E. by rewrite Z2Nat.id in E. Qed.
  Lemma fle_zero_fdiv' x : fle fzero x = true → fle fzero (fdiv x f_14) = true.
  Proof using.
    intros H. destruct x as [s|s| |s m e He]; try done.
    - destruct s; [discriminate H|vm_compute; reflexivity].
    - destruct s; [discriminate H|]. apply fle_zero_fdiv; [done|]. apply fle_true in H; done.
  Qed.
  Lemma decay_factor_btw now ts : btw 0 1 (decay_factor powf (days_since valid_time now ts)).
  Proof using Hp.
    rewrite <- v_1, <- v_0. apply between_btw; [done|done|]. unfold decay_factor. apply (power_small _ Hp).
    - split; reflexivity.
    - apply fle_zero_fdiv', f_of_Z_pos. lia.
  Qed.

  (** The two sums: the denominator counts the weights, and the numerator is no larger. *)
  Definition rewards_inv (acc : f32 * f32) : Prop :=
    btw (- bpow radix2 25) (bpow radix2 25) acc.1 ∧ btw 0 (bpow radix2 25) acc.2 ∧
    - val acc.2 <= val acc.1 <= val acc.2.

  Lemma add_reward_ok now acc r : rewards_inv acc → plain_reward r →
    rewards_inv (add_reward powf valid_time now acc r) ∧
    (0 <= val (e_val r).1 → 0 <= val acc.1 → 0 <= val (add_reward powf valid_time now acc r).1) ∧
    (val (e_val r).1 <= 0 → val acc.1 <= 0 → val (add_reward powf valid_time now acc r).1 <= 0).
  Proof using Hp.
    intros ([Fn Hn] & [Fd Hd] & Hnd) [Hv Hw]. apply between_btw in Hv as [Fv Hv]; [|done|done].
    apply between_btw in Hw as [Fw Hw]; [|done|done]. rewrite fneg_val, v_1, v_0 in *.
    unfold add_reward, decayed_reward.
    destruct (decay_factor_btw now (e_ts r)) as [Fk Hk]. set (k := decay_factor powf (days_since valid_time now (e_ts r))) in *.
    set (v := (e_val r).1) in *. set (w := (e_val r).2) in *.
    rewrite (bp 25 33554432) in * by lia.
    destruct (fmul_btw v k (-1) 1) as [[Fv' Hv'] Ev]; [done|done|rp|rp|split; nra|].
    destruct (fmul_btw w k 0 1) as [[Fw' Hw'] Ew]; [done|done|rp|rp|split; nra|].
    cbv zeta. cbn [fst snd].
    destruct (flt (fmul w k) f_0_05) eqn:E.
    { split; [|split; auto]. split; [done|]. split; [|done]. rewrite (bp 25 33554432) by lia. done. }
    set (v' := fmul v k) in *. set (w' := fmul w k) in *.
    destruct (fmul_btw v' w' (-1) 1) as [[Ft Ht] Et]; [done|done|rp|rp|split; nra|].
    set (t := fmul v' w') in *.
    assert (Tw : - val w' <= val t <= val w').
    { rewrite Et. split.
      - apply rnd_ge; [by apply repr_opp, repr_val|]. nra.
      - apply rnd_le_repr; [by apply repr_val|]. nra. }
    assert (R26 : repr 67108864) by (rewrite <- (bp 26) by lia; rp).
    destruct (fadd_btw acc.1 t (-67108864) 67108864) as [[F1 H1] E1]; [done|done|by apply repr_opp|done|lra|].
    destruct (fadd_btw acc.2 w' 0 67108864) as [[F2 H2] E2]; [done|done|rp|done|lra|].
    assert (D2 : val (fadd acc.2 w') <= 33554432).
    { rewrite E2, <- (bp 25) by lia. apply absorb; [lia|]. rewrite (bp 25 33554432), (bp (25 - 24) 2) by lia. lra. }
    assert (N2 : - val (fadd acc.2 w') <= val (fadd acc.1 t) <= val (fadd acc.2 w')).
    { rewrite E1, E2. split.
      - rewrite <- rnd_opp. apply rnd_le. lra.
      - apply rnd_le. lra. }
    cbn [fst snd]. split; [split; [|split]|split].
    - split; [done|]. cbn [fst]. rewrite (bp 25 33554432) by lia. lra.
    - split; [done|]. cbn [snd]. rewrite (bp 25 33554432) by lia. lra.
    - done.
    - intros V0 A0. rewrite E1. apply rnd_ge; [rp|].
      assert (0 <= val v') by (rewrite Ev; apply rnd_ge; [rp|nra]).
      assert (0 <= val t) by (rewrite Et; apply rnd_ge; [rp|nra]). lra.
    - intros V0 A0. rewrite E1. apply rnd_le_repr; [rp|].
      assert (val v' <= 0) by (rewrite Ev; apply rnd_le_repr; [rp|nra]).
      assert (val t <= 0) by (rewrite Et; apply rnd_le_repr; [rp|nra]). lra.
  Qed.

  Lemma fold_reward_ok now rs acc : rewards_inv acc → Forall plain_reward rs →
    rewards_inv (fold_left (add_reward powf valid_time now) rs acc) ∧
    (Forall (λ r, 0 <= val (e_val r).1) rs → 0 <= val acc.1 → 0 <= val (fold_left (add_reward powf valid_time now) rs acc).1) ∧
    (Forall (λ r, val (e_val r).1 <= 0) rs → val acc.1 <= 0 → val (fold_left (add_reward powf valid_time now) rs acc).1 <= 0).
  Proof using Hp.
    intros H HF. revert acc H. induction HF as [|r rs Hr _ IH]; intros acc H; [done|].
    cbn [fold_left]. destruct (add_reward_ok now acc r H Hr) as (H1 & H2 & H3).
    destruct (IH _ H1) as (I1 & I2 & I3). split; [done|]. split; intros G ?; apply Forall_cons in G as [? ?]; auto.
  Qed.

  Lemma average_reward_ok now rs : Forall plain_reward rs →
    btw (-1) 1 (average_reward powf valid_time now rs) ∧
    (Forall (λ r, 0 <= val (e_val r).1) rs → 0 <= val (average_reward powf valid_time now rs)) ∧
    (Forall (λ r, val (e_val r).1 <= 0) rs → val (average_reward powf valid_time now rs) <= 0).
  Proof using Hp.
    intros HF. unfold average_reward.
    destruct (fold_reward_ok now rs (fzero, fzero)) as (([Fn Hn] & [Fd Hd] & Hnd) & P & N).
    { pose proof (bpow_ge_0 radix2 25). repeat split; try done; cbn [fst snd]; rewrite ?v_0; lra. }
    { done. }
    cbn [fst] in P, N. rewrite v_0 in P, N.
    destruct (fold_left (add_reward powf valid_time now) rs (fzero, fzero)) as [num den]. cbn [fst snd] in *.
    destruct (feq den fzero) eqn:E.
    { rewrite v_0. split; [|split; lra]. split; [done|]. rewrite v_0. lra. }
    assert (val den <> 0).
    { intros E0. assert (feq den fzero = true); [|congruence]. apply feq_true; [done|done|]. by rewrite E0. }
    assert (0 < / val den) by (apply Rinv_0_lt_compat; lra).
    assert (val den * / val den = 1) by (apply Rinv_r; lra).
    destruct (fdiv_btw num den (-1) 1) as [B Ev]; [done|done|done|rp|rp|unfold Rdiv; split; nra|].
    split; [done|]. rewrite Ev. split; intros G.
    - apply rnd_ge; [rp|]. unfold Rdiv. specialize (P G (Rle_refl 0)). nra.
    - apply rnd_le_repr; [rp|]. unfold Rdiv. specialize (N G (Rle_refl 0)). nra.
  Qed.

  Lemma blend_one : fin (fadd f_0_3 f_0_7) ∧ val (fadd f_0_3 f_0_7) = 1.
  Proof using.
    split; [done|]. assert (feq (fadd f_0_3 f_0_7) f_1 = true) as H by (vm_compute; reflexivity).
    apply feq_true in H; [|done|done]. by rewrite H, v_1.
  Qed.

  Lemma rewards_bounded now course lesson : Forall plain_reward course → Forall plain_reward lesson →
    btw (-1) 1 (score_rewards powf valid_time now course lesson) ∧
    (Forall (λ r, 0 <= val (e_val r).1) (course ++ lesson) → 0 <= val (score_rewards powf valid_time now course lesson)) ∧
    (Forall (λ r, val (e_val r).1 <= 0) (course ++ lesson) → val (score_rewards powf valid_time now course lesson) <= 0).
  Proof using Hp.
    intros HC HL. destruct (average_reward_ok now course HC) as ([Fc Bc] & Pc & Nc).
    destruct (average_reward_ok now lesson HL) as ([Fl Bl] & Pl & Nl).
    unfold score_rewards. cbv zeta.
    set (c := average_reward powf valid_time now course) in *.
    set (l := average_reward powf valid_time now lesson) in *.
    destruct blend_one as [Fo Eo].
    assert (V3 : 0 <= val f_0_3 <= / 2) by (unfold f_0_3; litv).
    assert (V7 : / 2 <= val f_0_7 <= 3 / 4) by (unfold f_0_7; litv).
    assert (S : val f_0_3 + val f_0_7 <= 1 + / 16777216) by (unfold f_0_3, f_0_7; litv).
    (* both kinds of rewards *)
    assert (Both : btw (-1) 1 (fdiv (fadd (fmul c f_0_3) (fmul l f_0_7)) (fadd f_0_3 f_0_7)) ∧
      (0 <= val c → 0 <= val l → 0 <= val (fdiv (fadd (fmul c f_0_3) (fmul l f_0_7)) (fadd f_0_3 f_0_7))) ∧
      (val c <= 0 → val l <= 0 → val (fdiv (fadd (fmul c f_0_3) (fmul l f_0_7)) (fadd f_0_3 f_0_7)) <= 0)).
    { destruct (fmul_btw c f_0_3 (- val f_0_3) (val f_0_3)) as [[F1 H1] E1];
        [done|done|by apply repr_opp, repr_val|by apply repr_val|split; nra|].
      destruct (fmul_btw l f_0_7 (- val f_0_7) (val f_0_7)) as [[F2 H2] E2];
        [done|done|by apply repr_opp, repr_val|by apply repr_val|split; nra|].
      destruct (fadd_btw (fmul c f_0_3) (fmul l f_0_7) (-2) 2) as [[F3 H3] E3]; [done|done|rp|rp|lra|].
      assert (H4 : -1 <= val (fadd (fmul c f_0_3) (fmul l f_0_7)) <= 1).
      { rewrite E3. rewrite <- Eo. destruct (fadd_btw f_0_3 f_0_7 0 2) as [_ E]; [done|done|rp|rp|lra|].
        split.
        - apply Rle_trans with (- val (fadd f_0_3 f_0_7)); [rewrite Eo; lra|]. rewrite E, <- rnd_opp. apply rnd_le. lra.
        - rewrite E. apply rnd_le. lra. }
      destruct (fdiv_btw (fadd (fmul c f_0_3) (fmul l f_0_7)) (fadd f_0_3 f_0_7) (-1) 1) as [B E4];
        [done|done|rewrite Eo; lra|rp|rp|rewrite Eo; lra|].
      split; [done|]. rewrite E4, Eo.
      split; intros Gc Gl.
      - apply rnd_ge; [rp|]. unfold Rdiv. rewrite Rinv_1, Rmult_1_r, E3. apply rnd_ge; [rp|].
        rewrite E1, E2. assert (0 <= rnd (val c * val f_0_3)) by (apply rnd_ge; [rp|nra]).
        assert (0 <= rnd (val l * val f_0_7)) by (apply rnd_ge; [rp|nra]). lra.
      - apply rnd_le_repr; [rp|]. unfold Rdiv. rewrite Rinv_1, Rmult_1_r, E3. apply rnd_le_repr; [rp|].
        rewrite E1, E2. assert (rnd (val c * val f_0_3) <= 0) by (apply rnd_le_repr; [rp|nra]).
        assert (rnd (val l * val f_0_7) <= 0) by (apply rnd_le_repr; [rp|nra]). lra. }
    destruct Both as (Bb & Bp & Bn).
    assert (Z : btw (-1) 1 fzero) by (split; [done|]; rewrite v_0; lra).
    destruct course as [|c1 cs], lesson as [|l1 ls].
    - split; [done|]. rewrite v_0. split; lra.
    - split; [done|]. split; intros G; apply Forall_app in G as [G1 G2]; auto.
    - split; [done|]. split; intros G; apply Forall_app in G as [G1 G2]; auto.
    - split; [done|]. split; intros G; apply Forall_app in G as [G1 G2]; auto.
  Qed.
End rewards.

(** ** When a reward is applied *)
Lemma week_old e : (Z.abs e <= 2 ^ 63)%Z → flt (fdiv (f_of_Z e) f_86400) f_7 = (e <? 604800)%Z.
Proof.
  intros He. pose proof v_86400 as V. pose proof v_7 as V7.
  assert (He' : (Z.abs e <= 2 ^ 127)%Z) by (by apply small_abs).
  destruct (f_of_i64 e He) as [F B].
  destruct (fdiv_big (f_of_Z e) f_86400 63) as [[F' B'] E]; [done|lia|done|lra|].
  assert (R7 : repr (7 - / 131072)).
  { destruct (float_exists 917503 (-17)) as (h & Fh & Vh); [lia|lia|]. exists h. split; [done|]. rewrite Vh. simpl. lra. }
  destruct (Z.ltb_spec e 604800) as [L|L].
  - apply flt_true; [done|done|]. rewrite E, V7, V.
    apply Rle_lt_trans with (7 - / 131072); [|lra]. apply rnd_le_repr; [done|].
    assert (f_of_Z_le_val : val (f_of_Z e) <= 604799).
    { destruct (f_of_Z_val 604799) as [_ <-]; [lia|]. apply f_of_Z_le; [done|lia|lia]. }
    lra.
  - apply flt_false; [done|done|]. rewrite E, V7, V. apply rnd_ge; [rp|].
    assert (604800 <= val (f_of_Z e)).
    { destruct (f_of_Z_val 604800) as [_ <-]; [lia|]. apply f_of_Z_le; [lia|done|lia]. }
    lra.
Qed.

Definition grades : list Z := [1; 2; 3; 4; 5]%Z.
Definition average_check (a b c : Z) : bool :=
  let avg := fdiv (fsum [f_of_Z a; f_of_Z b; f_of_Z c]) f_3 in
  Bool.eqb (flt avg f_3) (a + b + c <? 9)%Z && Bool.eqb (fgt avg f_3_5) (21 <? 2 * (a + b + c))%Z.
Lemma average_checked : forallb (λ a, forallb (λ b, forallb (average_check a b) grades) grades) grades = true.
Proof. vm_compute. reflexivity. Qed.
Lemma grade_in n t : grade n t → In n grades.
Proof. intros [H _]. unfold grades. simpl. lia. Qed.

Lemma apply_spec reward t1 t2 t3 l now n1 n2 n3 : grade n1 t1 → grade n2 t2 → grade n3 t3 →
  (i64_min <= now - e_ts t1 <= i64_max)%Z →
  apply_reward reward (t1 :: t2 :: t3 :: l) now =
    Some (negb ((now - e_ts t1 <? 604800)%Z &&
      (fgt reward fzero && (n1 + n2 + n3 <? 9)%Z || flt reward fzero && (21 <? 2 * (n1 + n2 + n3))%Z))).
Proof.
  intros G1 G2 G3 He. unfold apply_reward. cbn [length Nat.leb]. rewrite bool_decide_eq_true_2 by done.
  cbn [take fmap list_fmap]. rewrite (proj2 G1), (proj2 G2), (proj2 G3).
  pose proof average_checked as C. rewrite forallb_forall in C.
  specialize (C n1 (grade_in _ _ G1)). rewrite forallb_forall in C. specialize (C n2 (grade_in _ _ G2)).
  rewrite forallb_forall in C. specialize (C n3 (grade_in _ _ G3)).
  unfold average_check in C. apply andb_true_iff in C as [C1 C2]. apply Bool.eqb_prop in C1, C2.
  cbv zeta. unfold fsum in *. cbn [take fmap list_fmap map fold_left] in *. rewrite ?(proj2 G1), ?(proj2 G2), ?(proj2 G3). rewrite take_0. cbn [fmap list_fmap fold_left].
  rewrite C1, C2, week_old by (unfold i64_min, i64_max in He; lia).
  destruct (fgt reward fzero), (flt reward fzero), (n1 + n2 + n3 <? 9)%Z, (21 <? 2 * (n1 + n2 + n3))%Z,
    (now - e_ts t1 <? 604800)%Z; reflexivity.
Qed.
Lemma apply_few reward trials now : (length trials < 3)%nat → apply_reward reward trials now = Some false.
Proof. intros H. destruct trials as [|t1 [|t2 [|t3 l]]]; simpl in H; [done..|lia]. Qed.
