(** How many exercises of a lesson are offered. *)
From stdpp Require Import gmap strings list.
From Coq Require Import ZArith Reals Lra.
From Flocq Require Import Core.Core IEEE754.BinarySingleNaN.
From Flocq Require Plus_error.
From Verif Require Import F32 F32Real Graph GraphSpec Library Filters Options OptionsProofs Batch BatchSpec KnockProofs
  Search SearchSpec LibFacts CandidateProofs.
Local Open Scope R_scope.

Lemma val_f_4 : val f_4 = 4.
Proof. unfold f_4. rewrite lit_val. simpl. lra. Qed.
Lemma val_f_2 : val f_2 = 2.
Proof. unfold f_2. rewrite lit_val. simpl. lra. Qed.

Lemma fclamp_val x lo hi : fin x → fin lo → fin hi → val lo <= val hi →
  fin (fclamp x lo hi) ∧ val (fclamp x lo hi) = Rmin (Rmax (val x) (val lo)) (val hi).
Proof.
  intros Hx Hl Hh H. unfold fclamp. change (fgt ?a ?b) with (flt b a).
  destruct (flt x lo) eqn:E.
  - apply flt_true in E; [|done..]. destruct (flt hi lo) eqn:E'; [apply flt_true in E'; [lra|done..]|].
    split; [done|]. rewrite Rmax_right by lra. rewrite Rmin_left; lra.
  - apply flt_false in E; [|done..]. destruct (flt hi x) eqn:E'.
    + apply flt_true in E'; [|done..]. split; [done|]. rewrite Rmax_left by lra. rewrite Rmin_right; lra.
    + apply flt_false in E'; [|done..]. split; [done|]. rewrite Rmax_left by lra. rewrite Rmin_left; lra.
Qed.

(** Different floats have a difference that is not rounded to zero. *)
Lemma fsub_pos x y h : fin x → fin y → val y < val x → val x - val y <= val h →
  fin (fsub x y) ∧ val (fsub x y) = rnd (val x - val y) ∧ 0 < val (fsub x y) <= val h.
Proof.
  intros Hx Hy Hlt Hh.
  destruct (fsub_between x y fzero h Hx Hy) as (H1 & H2 & H3); [rewrite val_fzero; lra|].
  split; [done|]. split; [done|]. rewrite val_fzero in H3. split; [|lra].
  assert (val (fsub x y) ≠ 0); [|lra]. rewrite H2. unfold Rminus.
  apply Plus_error.round_plus_neq_0; try apply _; [apply val_format|apply generic_format_opp, val_format|lra].
Qed.

(** A number that is not NaN and lies between two finite ones is finite. *)
Lemma between_fin x lo hi : fin lo → fin hi → fis_nan x = false → flt x lo = false → flt hi x = false →
  fin x ∧ val lo <= val x <= val hi.
Proof.
  intros Hl Hh Hn H1 H2. assert (Hx : fin x).
  { destruct x as [s|[]| |s m e Hb]; try done; destruct lo as [|[]| |]; destruct hi as [|[]| |]; done. }
  split; [done|]. apply flt_false in H1; [|done..]. apply flt_false in H2; [|done..]. lra.
Qed.

Section share.
  Context (env : senv).
  Let p := passing_score (s_options env).
  (** The options were verified and hold numbers. *)
  Context (Hp : passing_numbers env).

  Lemma min_score_val : fin (min_score p) ∧ 0 <= val (min_score p) < 4.
  Proof using Hp.
    destruct Hp as (H & Hn & _). fold p in H, Hn. unfold verify_passing in H. rewrite !andb_true_iff, !negb_true_iff, !orb_false_iff in H.
    destruct H as [[[H1 H2] _] _]. unfold full_candidates_score in H2. change (fge ?a ?b) with (fle b a) in H2.
    assert (flt f_4 (min_score p) = false) as H3.
    { destruct (flt f_4 (min_score p)) eqn:E; [|done]. unfold flt, fle, Bltb, Bleb in *.
      unfold SpecFloat.SFltb, SpecFloat.SFleb in *. destruct (SpecFloat.SFcompare (B2SF f_4) (B2SF (min_score p))) as [[]|]; done. }
    destruct (between_fin _ fzero f_4 eq_refl eq_refl Hn H1 H3) as [Hf _]. split; [done|].
    apply flt_false in H1; [|done..]. apply fle_false in H2; [|done..]. rewrite val_fzero in H1. rewrite val_f_4 in H2. lra.
  Qed.
  Lemma min_fraction_val : fin (min_fraction p) ∧ 0 <= val (min_fraction p) <= 1.
  Proof using Hp.
    destruct Hp as (H & _ & Hn). fold p in H, Hn. unfold verify_passing in H. rewrite !andb_true_iff, !negb_true_iff, !orb_false_iff in H.
    destruct H as [[_ [H1 H2]] _]. change (fgt ?a ?b) with (flt b a) in H2.
    destruct (between_fin _ fzero f_1 eq_refl eq_refl Hn H1 H2) as [Hf Hv]. rewrite val_fzero, val_f_1 in Hv. done.
  Qed.

  (** The fraction of the exercises, step by step. *)
  Lemma fraction_steps s : fin s → val (min_score p) <= val s < 4 →
    let a := rnd (val s - val (min_score p)) in
    let b := rnd (4 - val (min_score p)) in
    let q := rnd (1 - val (min_fraction p)) in
    0 <= a <= b ∧ 0 < b ∧ 0 <= q <= 1 ∧ 0 <= rnd (a / b) <= 1 ∧
    fin (select_fraction env s) ∧
    val (select_fraction env s) = Rmin (rnd (val (min_fraction p) + rnd (rnd (a / b) * q))) 1 ∧
    val (min_fraction p) <= val (select_fraction env s) <= 1.
  Proof using Hp.
    intros Hs Hv. cbv zeta. destruct min_score_val as [Hms Hmv]. destruct min_fraction_val as [Hmf Hfv].
    set (ms := val (min_score p)) in *. set (mf := val (min_fraction p)) in *.
    destruct (fsub_between s (min_score p) fzero f_4 Hs Hms) as (A1 & A2 & A3).
    { rewrite val_fzero, val_f_4. fold ms. lra. }
    destruct (fsub_pos f_4 (min_score p) f_4 eq_refl Hms) as (B1 & B2 & B3).
    { rewrite val_f_4. fold ms. lra. } { rewrite val_f_4. fold ms. lra. }
    fold ms in A2, B2. rewrite val_f_4 in B2. rewrite val_fzero in A3.
    assert (Hab : rnd (val s - ms) <= rnd (4 - ms)) by (apply rnd_le; lra).
    rewrite A2 in A3. rewrite B2 in B3.
    assert (Hdiv : 0 <= rnd (val s - ms) / rnd (4 - ms) <= 1).
    { split; [apply Rle_mult_inv_pos; lra|]. apply Rmult_le_reg_r with (rnd (4 - ms)); [lra|].
      unfold Rdiv. rewrite Rmult_assoc, Rinv_l by lra. lra. }
    destruct (fdiv_between (fsub s (min_score p)) (fsub f_4 (min_score p)) fzero f_1 A1 B1) as (D1 & D2 & D3).
    { rewrite B2. lra. } { rewrite val_fzero, val_f_1, A2, B2. done. }
    rewrite A2, B2 in D2. rewrite val_fzero, val_f_1, D2 in D3.
    destruct (fclamp_val (min_fraction p) fzero f_1 Hmf eq_refl eq_refl) as [M1 M2].
    { rewrite val_fzero, val_f_1. lra. }
    rewrite val_fzero, val_f_1, Rmax_left, Rmin_left in M2 by (fold mf; lra). 
    set (m := fclamp (min_fraction p) fzero f_1) in *. fold mf in M2.
    destruct (fsub_between f_1 m fzero f_1 eq_refl M1) as (Q1 & Q2 & Q3).
    { rewrite val_fzero, val_f_1, M2. lra. }
    rewrite val_f_1, M2 in Q2. rewrite val_fzero, val_f_1, Q2 in Q3.
    destruct (fmul_between (fdiv (fsub s (min_score p)) (fsub f_4 (min_score p))) (fsub f_1 m) fzero f_1 D1 Q1) as (P1 & P2 & P3).
    { rewrite val_fzero, val_f_1, D2, Q2. split; [apply Rmult_le_pos; lra|].
      apply Rle_trans with (1 * 1); [apply Rmult_le_compat; lra|lra]. }
    rewrite D2, Q2 in P2. rewrite val_fzero, val_f_1, P2 in P3.
    destruct (fadd_between m (fmul (fdiv (fsub s (min_score p)) (fsub f_4 (min_score p))) (fsub f_1 m)) m f_2 M1 P1) as (S1 & S2 & S3).
    { rewrite val_f_2, P2, M2. lra. }
    rewrite M2, P2 in S2. rewrite val_f_2, M2, S2 in S3.
    split; [lra|]. split; [lra|]. split; [lra|]. split; [done|].
    unfold select_fraction. fold p. cbv zeta. fold m.
    destruct (fclamp_val _ fzero f_1 S1 eq_refl eq_refl) as [C1 C2]; [rewrite val_fzero, val_f_1; lra|].
    rewrite val_fzero, val_f_1, S2 in C2. rewrite Rmax_left in C2 by lra.
    split; [exact C1|]. split; [exact C2|]. fold mf. rewrite C2. split; [apply Rmin_glb; lra|apply Rmin_r].
  Qed.

  Lemma fraction_mono s s' : fin s → fin s' → val (min_score p) <= val s → val s <= val s' → val s' < 4 →
    val (select_fraction env s) <= val (select_fraction env s').
  Proof using Hp.
    intros Hs Hs' H1 H2 H3. destruct (fraction_steps s Hs ltac:(lra)) as (A1 & A2 & A3 & A4 & _ & -> & _).
    destruct (fraction_steps s' Hs' ltac:(lra)) as (B1 & _ & _ & B4 & _ & -> & _).
    apply Rle_min_compat_r, rnd_le, Rplus_le_compat_l, rnd_le, Rmult_le_compat_r; [lra|].
    apply rnd_le. unfold Rdiv. apply Rmult_le_compat_r; [left; by apply Rinv_0_lt_compat|]. apply rnd_le. lra.
  Qed.

  Lemma select_count_pos s n : fin s → val (min_score p) <= val s < 4 → 0 < val (min_fraction p) →
    (0 < n)%nat → (0 < select_count env s n)%nat.
  Proof using Hp.
    intros Hs Hv Hm Hn. destruct (fraction_steps s Hs Hv) as (_ & _ & _ & _ & C1 & _ & C3).
    unfold select_count. cbv zeta. change (fgt ?a ?b) with (flt b a).
    assert (flt fzero (select_fraction env s) = true) as ->.
    { apply flt_true; [done|done|]. rewrite val_fzero. lra. }
    cbn [andb]. destruct (Nat.eqb_spec (default n (f_to_usize (fmul (select_fraction env s) (f_of_nat n)))) 0); lia.
  Qed.

  Lemma count_val s n : (Z.of_nat n <= 16777216)%Z → fin s → val (min_score p) <= val s < 4 →
    default n (f_to_usize (fmul (select_fraction env s) (f_of_nat n))) = Z.to_nat (Zfloor (rnd (val (select_fraction env s) * INR n))).
  Proof using Hp.
    intros Hn Hs Hv. destruct (fraction_steps s Hs Hv) as (_ & _ & _ & _ & C1 & _ & C3).
    destruct min_fraction_val as [_ Hfv]. destruct (f_of_nat_val n Hn) as [N1 N2].
    pose proof (pos_INR n) as Hpos.
    destruct (fmul_between (select_fraction env s) (f_of_nat n) fzero (f_of_nat n) C1 N1) as (P1 & P2 & P3).
    { rewrite val_fzero, N2. split; [apply Rmult_le_pos; lra|]. rewrite <-(Rmult_1_l (INR n)) at 2. apply Rmult_le_compat_r; lra. }
    rewrite val_fzero in P3. rewrite f_to_usize_val by (try done; lra). cbn [default]. by rewrite P2, N2.
  Qed.
  Lemma count_le s n : (Z.of_nat n <= 16777216)%Z → fin s → val (min_score p) <= val s < 4 → (select_count env s n <= n)%nat ∨ n = 0%nat.
  Proof using Hp.
    intros Hn Hs Hv. destruct n as [|n]; [by right|left]. destruct (fraction_steps s Hs Hv) as (_ & _ & _ & _ & C1 & _ & C3).
    unfold select_count. cbv zeta. rewrite count_val by done.
    assert (Z.to_nat (Zfloor (rnd (val (select_fraction env s) * INR (S n)))) <= S n)%nat; [|destruct (_ && _); lia].
    destruct (f_of_nat_val (S n) Hn) as [N1 N2]. pose proof (pos_INR (S n)).
    assert (rnd (val (select_fraction env s) * INR (S n)) <= INR (S n)) as Hr.
    { apply Rle_trans with (rnd (val (f_of_nat (S n)))); [|rewrite rnd_val, N2; lra]. apply rnd_le. rewrite N2.
      rewrite <-(Rmult_1_l (INR (S n))) at 2. apply Rmult_le_compat_r; lra. }
    assert (Hz : INR (S n) = IZR (Z.of_nat (S n))) by apply INR_IZR_INZ.
    apply Zfloor_le in Hr. assert (Zfloor (INR (S n)) = Z.of_nat (S n)) as Hfl by (rewrite Hz; apply Zfloor_IZR). lia.
  Qed.
  Lemma count_mono s s' n : (Z.of_nat n <= 16777216)%Z → fin s → fin s' → val (min_score p) <= val s → val s <= val s' → val s' < 4 →
    (select_count env s n <= select_count env s' n)%nat.
  Proof using Hp.
    intros Hn Hs Hs' H1 H2 H3. pose proof (fraction_mono s s' Hs Hs' H1 H2 H3) as Hm.
    unfold select_count. cbv zeta. rewrite !count_val by (try done; lra).
    destruct (fraction_steps s Hs ltac:(lra)) as (_ & _ & _ & _ & C1 & _ & C3).
    destruct (fraction_steps s' Hs' ltac:(lra)) as (_ & _ & _ & _ & C1' & _ & C3').
    set (k := Z.to_nat (Zfloor (rnd (val (select_fraction env s) * INR n)))).
    set (k' := Z.to_nat (Zfloor (rnd (val (select_fraction env s') * INR n)))).
    assert (k <= k')%nat.
    { assert (Zfloor (rnd (val (select_fraction env s) * INR n)) <= Zfloor (rnd (val (select_fraction env s') * INR n)))%Z; [|unfold k, k'; lia].
      apply Zfloor_le, rnd_le, Rmult_le_compat_r; [apply pos_INR|done]. }
    change (fgt ?a ?b) with (flt b a). 
    destruct (flt fzero (select_fraction env s) && Nat.eqb k 0) eqn:E.
    - apply andb_true_iff in E as [E1 E2]. apply flt_true in E1; [|done..]. rewrite val_fzero in E1.
      assert (flt fzero (select_fraction env s') = true) as ->; [apply flt_true; [done|done|rewrite val_fzero; lra]|].
      cbn [andb]. destruct (Nat.eqb_spec k' 0); lia.
    - destruct (_ && Nat.eqb k' 0) eqn:E'; [|done]. apply andb_true_iff in E' as [_ E'%Nat.eqb_eq]. lia.
  Qed.
End share.

Section lessons.
  Context (env : senv) (K : LibOK (s_lib env)) (o : orders) (Ho : orders_ok o).
  Let p := passing_score (s_options env).

  Lemma open_perm l es es' : open_exercises env l es → open_exercises env l es' → es ≡ₚ es'.
  Proof using. intros [N1 H1] [N2 H2]. apply NoDup_Permutation; [done..|]. intros e. by rewrite H1, H2. Qed.

  Lemma lesson_candidates_all i l d cs avg es : lesson_candidates env o i (l, d) = Some (cs, avg) → open_exercises env l es →
    fge avg f_4 = true ∨ flt avg (min_score p) = true → exercise_id <$> cs ≡ₚ es.
  Proof using K Ho.
    intros H Hes Hs. apply lesson_candidates_full in H as (full & Hf & He & Hn).
    destruct (full_fields env K _ _ _ (o_set_ok o Ho i) Hf) as (F1 & _ & _). simpl in F1.
    assert (cs = full) as ->.
    { destruct full as [|x full]; [by apply He|]. destruct (Hn ltac:(done)) as [_ ->].
      unfold select_lesson_candidates. fold p. by destruct Hs as [-> | ->]; rewrite ?orb_true_r. }
    rewrite F1. eapply open_perm; [|done]. by apply valid_open, o_set_ok.
  Qed.
  Lemma lesson_candidates_some i l d cs avg es : lesson_candidates env o i (l, d) = Some (cs, avg) → open_exercises env l es →
    es ≠ [] → passing_numbers env → fgt (min_fraction p) fzero = true → fis_nan avg = false → cs ≠ [].
  Proof using K Ho.
    intros H Hes Hne Hp Hm Hnan. apply lesson_candidates_full in H as (full & Hf & He & Hn).
    destruct (full_fields env K _ _ _ (o_set_ok o Ho i) Hf) as (F1 & _ & _). simpl in F1.
    assert (Hfull : full ≠ []).
    { intros ->. apply Hne, Permutation_nil. rewrite (open_perm l es _ Hes (valid_open env K _ l (o_set_ok o Ho i))), <-F1. done. }
    destruct (Hn Hfull) as [Havg ->]. destruct full as [|x full]; [done|]. unfold select_lesson_candidates. fold p.
    destruct (fge avg f_4 || flt avg (min_score p)) eqn:E; [done|]. apply orb_false_iff in E as [E1 E2].
    change (fge ?a ?b) with (fle b a) in E1. change (fgt ?a ?b) with (flt b a) in Hm.
    destruct (min_score_val env Hp) as [M1 M2]. destruct (min_fraction_val env Hp) as [M3 M4]. fold p in M1, M2, M3, M4.
    apply flt_true in Hm; [|done..]. rewrite val_fzero in Hm.
    assert (E3 : flt f_4 avg = false).
    { destruct (flt f_4 avg) eqn:E; [|done]. unfold flt, fle, Bltb, Bleb, SpecFloat.SFltb, SpecFloat.SFleb in *.
      destruct (SpecFloat.SFcompare (B2SF f_4) (B2SF avg)) as [[]|]; done. }
    destruct (between_fin avg (min_score p) f_4 M1 eq_refl Hnan E2 E3) as [A1 A2].
    apply fle_false in E1; [|done..]. rewrite val_f_4 in E1.
    pose proof (select_count_pos env Hp avg (length (x :: full)) A1 ltac:(fold p; lra) Hm ltac:(simpl; lia)) as Hc.
    pose proof (Permutation_length (o_pick_ok o Ho i (x :: full))) as Hlen.
    destruct (o_pick o i (x :: full)) as [|y ys]; [done|]. by destruct (select_count _ _ _) as [|k]; [lia|].
  Qed.
  Lemma share_grows pick pick' cs cs' s s' : passing_numbers env → (∀ l, pick l ≡ₚ l) → (∀ l, pick' l ≡ₚ l) →
    length cs = length cs' → (Z.of_nat (length cs) <= 16777216)%Z → fin s → fin s' →
    fle (min_score p) s = true → fle s s' = true →
    (length (select_lesson_candidates env pick cs s) <= length (select_lesson_candidates env pick' cs' s'))%nat.
  Proof using.
    clear K Ho. intros Hp Hpick Hpick' Hlen Hmax Hs Hs' H1 H2. destruct (min_score_val env Hp) as [M1 M2]. fold p in M1, M2.
    apply fle_true in H1; [|done..]. apply fle_true in H2; [|done..].
    unfold select_lesson_candidates. fold p. destruct cs as [|x xs], cs' as [|x' xs']; try done.
    assert (flt s (min_score p) = false) as -> by (apply flt_false; [done..|lra]).
    assert (flt s' (min_score p) = false) as -> by (apply flt_false; [done..|lra]).
    rewrite !orb_false_r. change (fge ?a f_4) with (fle f_4 a).
    destruct (fle f_4 s') eqn:E'.
    { destruct (fle f_4 s); [by rewrite Hlen|]. rewrite take_length, (Permutation_length (Hpick _)). lia. }
    apply fle_false in E'; [|done..]. rewrite val_f_4 in E'.
    assert (fle f_4 s = false) as -> by (apply fle_false; [done..|rewrite val_f_4; lra]).
    rewrite !take_length, (Permutation_length (Hpick _)), (Permutation_length (Hpick' _)), <-Hlen.
    pose proof (count_mono env Hp s s' (length (x :: xs)) Hmax Hs Hs' ltac:(fold p; lra) H2 E'). lia.
  Qed.
End lessons.
