(** Proof that the score is what the documented formula gives, up to rounding. *)
From stdpp Require Import list strings.
From Coq Require Import ZArith Reals Lra Lia.
From Flocq Require Import Core.Core IEEE754.BinarySingleNaN.
From Verif Require Import F32 F32Real F32More Stores Scorer ScorerSpec ScorerProofs ScoreProofs PowerSample AverageProofs CurveProofs MemoryProofs ExactSpec MemoryExact CurveExact AverageExact.
Local Open Scope R_scope.

Section score.
  Context (powf : f32 → f32 → f32) (Hp : power_ok powf) (Hr : rounded_power powf).

  Lemma graded_wide' l : Forall graded l → Forall (λ e : trial, btw (-5) 5 (e_val e)) l.
  Proof using. intros H. eapply Forall_impl; [exact H|]. intros t Ht%graded_btw. eapply btw_weaken; [exact Ht|lra|lra]. Qed.
  Lemma small_wide l : Forall small_delta l → Forall (λ e : trial, btw (-5) 5 (e_val e)) l.
  Proof using. intros H. eapply Forall_impl; [exact H|]. intros t Ht%small_delta_btw. eapply btw_weaken; [exact Ht|lra|lra]. Qed.

  Lemma score_close ty t0 l deltas now s : newest_first (t0 :: l) → Forall graded (t0 :: l) → Forall small_delta deltas →
    (length (t0 :: l) <= 1000)%nat → (length deltas <= 1000)%nat → near_times (t0 :: l) now → near_times deltas now →
    score_exercise powf ty (t0 :: l) deltas now = Some s →
    let recall := val (retrievability powf ty (days_between now (e_ts t0)) (compute_stability powf ty (t0 :: l) (estimate_difficulty (t0 :: l)))) in
    let delta := if decide (2 <= length deltas)%nat then val (compute_weighted_avg powf deltas) else 0 in
    Rabs (val (sc_value s) - exact_score recall (val (compute_weighted_avg powf (t0 :: l))) delta (val (days_between now (e_ts t0))) (length (t0 :: l))) <= / 100000 ∧
    Rabs (val (sc_urgency s) - (1 - recall)) <= / 1000000.
  Proof using Hp Hr.
    intros Hn Hg Hd Hl Hl' [Tn Ht] [_ Htd] H1. cbv zeta. rewrite score_unfold in H1 by done.
    pose proof (parts_ok powf Hp ty (t0 :: l) now t0 ltac:(unfold fits; lia) Hg) as P. unfold parts in *. cbv zeta in *.
    destruct P as ([Fr Br] & [Fw Bw] & [Fe Be]).
    destruct (average_close powf Hp Hr (t0 :: l) (graded_wide' _ Hg) Hl Ht) as [[_ Aw] _].
    destruct (average_close powf Hp Hr deltas (small_wide _ Hd) Hl' Htd) as [[Fd Ad] _].
    destruct (days_between_btw now (e_ts t0)) as [Fy By].
    set (r := retrievability _ _ _ _) in *. set (w := compute_weighted_avg powf (t0 :: l)) in *. set (a := compute_weighted_avg powf deltas) in *.
    set (days := days_between now (e_ts t0)) in *. set (n := length (t0 :: l)) in *. set (eff := old_good_floor r w days n) in *.
    assert (Ee : val eff = if Rle_dec 4 (val w) then if Rle_dec 50 (val days) then if decide (2 <= n)%nat then Rmax (val r) (3 / 4) else val r else val r else val r).
    { unfold eff, old_good_floor. change (fge w f_4) with (fle f_4 w). change (fge days f_50) with (fle f_50 days). assert (V75 : val f_0_75 = 3 / 4) by apply v_0_75.
      destruct (Rle_dec 4 (val w)) as [W|W].
      - assert (Q1 : fle f_4 w = true) by (apply fle_true; [done|done|rewrite v_4; lra]). rewrite Q1, andb_true_r.
        destruct (Rle_dec 50 (val days)) as [D|D].
        + assert (Q2 : fle f_50 days = true) by (apply fle_true; [done|done|rewrite v_50; lra]). rewrite Q2, andb_true_r.
          destruct (decide (2 <= n)%nat) as [N|N].
          * assert (Q3 : Nat.leb 2 n = true) by (by apply Nat.leb_le). rewrite Q3. destruct (fmax_val r f_0_75 Fr) as [_ ->]; [done|]. by rewrite V75.
          * assert (Q3 : Nat.leb 2 n = false) by (apply Nat.leb_gt; lia). by rewrite Q3.
        + assert (Q2 : fle f_50 days = false) by (apply fle_false; [done|done|rewrite v_50; lra]). by rewrite Q2, andb_false_r.
      - assert (Q1 : fle f_4 w = false) by (apply fle_false; [done|done|rewrite v_4; lra]). by rewrite Q1, andb_false_r. }
    unfold exact_score. cbv zeta. rewrite <-Ee. clearbody eff. clear Ee.
    simplify_eq. cbn [sc_value sc_urgency]. split.
    - assert (CD : btw (-4) 4 (compute_delta powf deltas eff) ∧
        Rabs (val (compute_delta powf deltas eff) - (if decide (2 <= length deltas)%nat then val a else 0) * val eff / 4) <= 2 / 1000000).
      { unfold compute_delta. destruct (decide (2 <= length deltas)%nat) as [N|N].
        - assert (Q : Nat.ltb (length deltas) 2 = false) by (apply Nat.ltb_ge; lia). rewrite Q. fold a.
          destruct (fmul_btw a eff (-12) 12) as [[F1 B1] E1]; [done|done|rp|rp|nra|].
          destruct (fdiv_btw (fmul a eff) f_4 (-3) 3) as [[F2 B2] E2]; [done|done|rewrite v_4; lra|rp|rp|rewrite v_4; lra|]. rewrite v_4 in E2.
          split; [split; [done|lra]|].
          pose proof (close (val a * val eff) 12 ltac:(ab)) as C1. rewrite <-E1 in C1. apply Rabs_le_inv in C1.
          pose proof (close (val (fmul a eff) / 4) 3 ltac:(apply Rabs_le; lra)) as C2. rewrite <-E2 in C2. apply Rabs_le_inv in C2. apply Rabs_le. lra.
        - assert (Q : Nat.ltb (length deltas) 2 = true) by (apply Nat.ltb_lt; lia). rewrite Q. split; [split; [done|rewrite v_0; lra]|].
          rewrite v_0. replace (0 - 0 * val eff / 4) with 0 by lra. rewrite Rabs_R0. lra. }
      destruct CD as [[Fc Bc] CD]. set (c := compute_delta powf deltas eff) in *. clearbody c. apply Rabs_le_inv in CD.
      destruct (fmul_btw eff w (-12) 12) as [[F1 B1] E1]; [done|done|rp|rp|nra|].
      pose proof (close (val eff * val w) 12 ltac:(ab)) as C1. rewrite <-E1 in C1. apply Rabs_le_inv in C1.
      destruct (fadd_btw (fmul eff w) c (-16) 16) as [[F2 B2] E2]; [done|done|rp|rp|lra|].
      pose proof (close (val (fmul eff w) + val c) 16 ltac:(apply Rabs_le; lra)) as C2. rewrite <-E2 in C2. apply Rabs_le_inv in C2.
      destruct (fclamp_val (fadd (fmul eff w) c) fzero f_5) as [_ ->]; [done|done|done|rewrite v_0, v_5; lra|]. rewrite v_0, v_5.
      change (Rmin (Rmax ?x 0) 5) with (within 0 x 5). apply within_close, Rabs_le. lra.
    - destruct (fsub_btw f_1 r 0 1) as [_ ->]; [done|done|rp|rp|rewrite v_1; lra|]. rewrite v_1.
      eapply Rle_trans; [apply (close _ 1); ab|lra].
  Qed.
End score.
