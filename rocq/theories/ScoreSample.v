(** A score that grows while nothing is practised, and concrete histories. *)
From stdpp Require Import list strings.
From Coq Require Import ZArith Reals Lra Lia.
From Flocq Require Import Core.Core IEEE754.BinarySingleNaN.
From Verif Require Import F32 F32Real F32More Stores Scorer ScorerSpec ScorerProofs ScoreProofs PowerSample.
Local Open Scope R_scope.

Lemma same_float x y : fin x → fin y → val x ≠ 0 → val x = val y → x = y.
Proof.
  intros Hx Hy Hn E. apply B2R_inj; [| |done].
  - destruct x; done.
  - destruct y; done.
Qed.

(** Two perfect trials at the same moment. *)
Definition a_trial : trial := Entry "exercise"%string f_5 0.
Definition two_trials : list trial := [a_trial; a_trial].
Definition day_49 : Z := 4233600.
Definition day_50 : Z := 4320000.
Definition f_49 : f32 := lit false 12845056 (-18) eq_refl.
Definition f_4_99 : f32 := lit false 10464789 (-21) eq_refl.

Section waiting.
  Context (powf : f32 → f32 → f32) (Hp : power_ok powf) (Hr : rounded_power powf).

  Lemma weight_now : decay_weight powf (elapsed_weeks 0 0) = f_1.
  Proof using Hr.
    assert (E : elapsed_weeks 0 0 = fzero) by (vm_compute; reflexivity). rewrite E.
    assert (R1 : Rpower (val f_0_95) (val fzero) = 1). { rewrite v_0, Rpower_O; [done|]. pose proof v_0_95. lra. }
    destruct (Hr f_0_95 fzero) as [F V]; [done|done|pose proof v_0_95; lra|rewrite R1; lra|].
    rewrite R1, rnd_repr in V by rp. unfold decay_weight.
    destruct (fmax_val (powf f_0_95 fzero) f_0_1 F) as [G U]; [done|]. rewrite V in U. pose proof v_0_1.
    rewrite Rmax_left in U by lra. apply same_float; [done|done|lra|]. rewrite U, v_1. lra.
  Qed.
  Lemma weight_first : decay_weight powf (f_of_nat 0) = f_1.
  Proof using Hr.
    rewrite <- weight_now. f_equal.
  Qed.
  Lemma weight_second : decay_weight powf (f_of_nat 1) = f_0_95.
  Proof using Hr.
    destruct (f_of_Z_val 1) as [F1 V1]; [lia|]. change (f_of_Z 1) with (f_of_nat 1) in *.
    assert (R1 : Rpower (val f_0_95) (val (f_of_nat 1)) = val f_0_95). { rewrite V1, Rpower_1; [done|]. pose proof v_0_95. lra. }
    destruct (Hr f_0_95 (f_of_nat 1)) as [F V]; [done|done|pose proof v_0_95; lra|rewrite R1; pose proof v_0_95; lra|].
    rewrite R1, rnd_val in V. unfold decay_weight.
    destruct (fmax_val (powf f_0_95 (f_of_nat 1)) f_0_1 F) as [G U]; [done|]. rewrite V in U. pose proof v_0_1. pose proof v_0_95.
    rewrite Rmax_left in U by lra. apply same_float; [done|done|lra|]. done.
  Qed.
  Lemma two_trials_average : btw (val f_4_99) 5 (compute_weighted_avg powf two_trials).
  Proof using Hr.
    apply (between_f f_4_99 _ f_5); [done|done|done|apply v_5|].
    unfold compute_weighted_avg, two_trials, time_weighted, position_weighted. cbn [fmap list_fmap imap e_ts e_val a_trial].
    rewrite weight_now. unfold compose. rewrite weight_first, weight_second.
    split; vm_compute; reflexivity.
  Qed.

  Lemma two_trials_stability : fin (compute_stability powf Procedural two_trials (estimate_difficulty two_trials)) ∧
    val (compute_stability powf Procedural two_trials (estimate_difficulty two_trials)) = 1.
  Proof using Hp.
    unfold compute_stability, replay, two_trials. cbn [rev app fold_left].
    set (base := estimate_difficulty [a_trial; a_trial]).
    assert (Hb : btw 1 10 base) by (apply estimate_difficulty_btw; unfold fits; cbn; lia).
    clearbody base. unfold replay_step at 2. cbn [m_previous]. unfold replay_step. cbn [m_previous m_stability m_difficulty a_trial e_val e_ts].
    unfold apply_stability. cbv zeta. destruct grade_range_val as [Fg Hg].
    assert (E0 : days_between 0 0 = fzero) by (vm_compute; reflexivity). rewrite E0.
    destruct (fsub_btw f_5 f_1 4 4) as [[F1 H1] _]; [done|done|rp|rp|rewrite v_1, v_5; lra|].
    destruct (fdiv_btw (fsub f_5 f_1) grade_range 0 1) as [[F2 H2] _]; [done|done|lra|rp|rp|rewrite Hg; lra|].
    destruct (fsub_btw (fdiv (fsub f_5 f_1) grade_range) f_0_5 (- / 2) (/ 2)) as [[F3 H3] _];
      [done|done|rp|rp|rewrite v_0_5; lra|].
    set (p := fsub (fdiv (fsub f_5 f_1) grade_range) f_0_5) in *. destruct Hb as [Fb Hb].
    destruct (fsub_btw f_11 base 1 10) as [[F4 H4] _]; [done|done|rp|rp|rewrite v_11; lra|].
    destruct (fdiv_btw (fsub f_11 base) f_5 0 2) as [[F5 H5] _]; [done|done|rewrite v_5; lra|rp|rp|rewrite v_5; lra|].
    set (e := fdiv (fsub f_11 base) f_5) in *.
    destruct (spacing_gain_btw powf Hp Procedural fzero f_1 p) as [F6 H6];
      [split; [done|]; rewrite v_0; pose proof (bpow_ge_0 radix2 63); lra|split; [done|]; rewrite v_1; lra|].
    set (g := spacing_gain powf Procedural fzero f_1 p) in *.
    destruct (fmul_btw f_2_5 p (-2) 2) as [[F8 H8] _]; [done|done|rp|rp|rewrite v_2_5; split; nra|].
    destruct (fmul_btw (fmul f_2_5 p) e (-4) 4) as [[F9 H9] _]; [done|done|rp|rp|split; nra|].
    destruct (fmul_btw (fmul (fmul f_2_5 p) e) g (-8) 8) as [[F10 H10] _]; [done|done|rp|rp|split; nra|].
    assert (Em : fmin fzero f_1 = fzero) by (vm_compute; reflexivity). rewrite Em.
    destruct (fmul_btw (fmul (fmul (fmul f_2_5 p) e) g) fzero 0 0) as [[F11 H11] _]; [done|done|rp|rp|rewrite v_0; lra|].
    set (growth := fmul _ fzero) in *.
    destruct (fadd_btw f_1 growth 1 1) as [[F12 H12] _]; [done|done|rp|rp|rewrite v_1; lra|].
    destruct (fmul_btw f_1 (fadd f_1 growth) 1 1) as [[F13 H13] _]; [done|done|rp|rp|rewrite v_1; split; nra|].
    destruct (fclamp_val (fmul f_1 (fadd f_1 growth)) f_0_5 f_730 F13) as [F V]; [done|done|rewrite v_0_5, v_730; lra|].
    split; [done|]. rewrite V, v_0_5, v_730. rewrite Rmax_left by lra. rewrite Rmin_left by lra. lra.
  Qed.

  Lemma half_factor : btw (/ 2) 255 (curve_factor powf Procedural).
  Proof using Hp Hr.
    unfold curve_factor. set (y := fdiv (fneg f_1) (fmax (fabs (curve_decay Procedural)) f_epsilon)).
    assert (Hy : btw (-8) (-4) y).
    { apply (between_f f_m8 y (fneg f_4)); [done|done|rewrite v_m8; lra|rewrite fneg_val, v_4; lra|].
      split; vm_compute; reflexivity. }
    destruct Hy as [Fy Hy]. pose proof v_0_9 as H9. clearbody y.
    assert (V9 : val f_0_9 <= 901 / 1000) by (unfold f_0_9; rewrite lit_val; simpl; lra).
    pose proof (Rpower_root (val f_0_9) (val y) H9 ltac:(lra)) as HR.
    assert (HL : 5 / 4 + / 4 <= Rpower (val f_0_9) (val y)).
    { apply Rle_trans with (Rpower (val f_0_9) (-4)).
      - replace (-4) with (Ropp 4) by lra. rewrite Rpower_Ropp. replace (Rpower (val f_0_9) 4) with (Rpower (val f_0_9) (INR 4)) by (f_equal; simpl; lra).
        rewrite Rpower_pow by lra. assert (0 < val f_0_9 ^ 4 <= (901 / 1000) ^ 4).
        { split; [apply pow_lt; lra|]. apply pow_incr. lra. }
        apply Rle_trans with (/ (901 / 1000) ^ 4); [lra|]. apply Rinv_le_contravar; lra.
      - unfold Rpower. apply exp_le. assert (ln (val f_0_9) <= 0); [|nra]. rewrite <- ln_1. apply ln_mono; lra. }
    assert (B : btw (3 / 2) 256 (powf f_0_9 y)).
    { apply rounded_btw; [done|done|done|lra| |rp|lra|lra].
      destruct (float_exists 3 (-1)) as (h & Fh & Vh); [lia|lia|]. exists h. split; [done|]. rewrite Vh. simpl. lra. }
    destruct B as [FB B]. apply fsub_btw; [done|done|rp|rp|]. rewrite v_1. lra.
  Qed.

  Lemma forgotten : val (retrievability powf Procedural (days_between day_49 0)
    (compute_stability powf Procedural two_trials (estimate_difficulty two_trials))) <= 46341 / 65536.
  Proof using Hp Hr.
    destruct two_trials_stability as [Fs Vs]. set (st := compute_stability _ _ _ _) in *. clearbody st.
    assert (Hd : btw 49 49 (days_between day_49 0)).
    { apply (between_f f_49 _ f_49); [done|done|unfold f_49; litv..|]. split; vm_compute; reflexivity. }
    destruct Hd as [Fd Hd]. set (d := days_between day_49 0) in *. clearbody d.
    destruct half_factor as [Ff Hf].
    assert (R49 : bpow radix2 63 >= 49). { rewrite (bp 63 (2 ^ 63)) by lia. simpl Z.pow. lra. }
    destruct (curve_base powf Hp Procedural d st) as [[Fx Hx] Ex]; [split; [done|lra]|split; [done|lra]|].
    unfold retrievability. set (x := fadd f_1 (fdiv (fmul (curve_factor powf Procedural) d) st)) in *.
    assert (L : 16 <= val x).
    { rewrite Ex. apply rnd_ge; [rp|]. rewrite Vs. unfold Rdiv. rewrite Rinv_1, Rmult_1_r.
      assert (24 <= rnd (val (curve_factor powf Procedural) * val d)) by (apply rnd_ge; [rp|nra]).
      assert (24 <= rnd (rnd (val (curve_factor powf Procedural) * val d))) by (apply rnd_ge; [rp|done]). lra. }
    clearbody x.
    assert (Vy : -1 <= val (curve_decay Procedural) <= - / 8).
    { pose proof v_0_2. unfold curve_decay. rewrite fneg_val. lra. }
    assert (Fy : fin (curve_decay Procedural)) by done. set (y := curve_decay Procedural) in *. clearbody y.
    assert (P : Rpower (val x) (val y) <= 46341 / 65536).
    { apply Rle_trans with (Rpower 16 (- / 8)).
      - apply Rle_trans with (Rpower 16 (val y)); [apply Rpower_falls; lra|].
        unfold Rpower. apply exp_le. pose proof (ln_pos 16 ltac:(lra)). nra.
      - assert (E : Rpower 16 (- / 8) * Rpower 16 (- / 8) = / 2).
        { rewrite <- Rpower_plus. replace (- / 8 + - / 8) with (- (/ 4)) by lra. rewrite Rpower_Ropp. f_equal.
          replace 16 with (Rpower 2 4).
          - rewrite Rpower_mult. replace (4 * / 4) with 1 by lra. apply Rpower_1. lra.
          - replace 4 with (INR 4) by (simpl; lra). rewrite Rpower_pow by lra. simpl. lra. }
        assert (0 < Rpower 16 (- / 8)) by apply exp_pos. nra. }
    pose proof (Rpower_negative (val x) (val y) ltac:(lra) ltac:(lra)) as P0.
    assert (B : btw 0 (46341 / 65536) (powf x y)).
    { apply rounded_btw; [done|done|done|lra|rp| |lra|lra].
      destruct (float_exists 46341 (-16)) as (h & Fh & Vh); [lia|lia|]. exists h. split; [done|]. rewrite Vh. simpl. lra. }
    destruct B as [FB B]. destruct (fclamp_val (powf x y) fzero f_1 FB) as [_ ->]; [done|done|rewrite v_0, v_1; lra|].
    rewrite v_0, v_1. rewrite Rmax_left by lra. rewrite Rmin_left by lra. lra.
  Qed.

  Lemma two_trials_order : newest_first two_trials.
  Proof using. apply out_of_order_spec. reflexivity. Qed.
  Lemma two_trials_graded : Forall graded two_trials.
  Proof using. repeat constructor. Qed.

  Lemma waiting_helps : ∃ s s',
    score_exercise powf Procedural two_trials [] day_49 = Some s ∧
    score_exercise powf Procedural two_trials [] day_50 = Some s' ∧ flt (sc_value s) (sc_value s') = true.
  Proof using Hp Hr.
    unfold two_trials at 1 2.
    rewrite (score_unfold powf Procedural a_trial [a_trial] [] day_49 two_trials_order).
    rewrite (score_unfold powf Procedural a_trial [a_trial] [] day_50 two_trials_order).
    change [a_trial; a_trial] with two_trials.
    pose proof (parts_ok powf Hp Procedural two_trials day_49 a_trial ltac:(unfold fits; cbn; lia) two_trials_graded) as P1.
    pose proof (parts_ok powf Hp Procedural two_trials day_50 a_trial ltac:(unfold fits; cbn; lia) two_trials_graded) as P2.
    unfold parts in *. cbv zeta in *. change (e_ts a_trial) with 0%Z in *.
    pose proof forgotten as HF. pose proof two_trials_average as [FW HW].
    set (st := compute_stability powf Procedural two_trials (estimate_difficulty two_trials)) in *.
    set (r := retrievability powf Procedural (days_between day_49 0) st) in *.
    set (r' := retrievability powf Procedural (days_between day_50 0) st) in *.
    set (w := compute_weighted_avg powf two_trials) in *.
    destruct P1 as ([F1 H1] & Hw & E1), P2 as ([F2 H2] & _ & E2).
    assert (N1 : old_good_floor r w (days_between day_49 0) (length two_trials) = r).
    { unfold old_good_floor. rewrite recent_days by (vm_compute; reflexivity). by rewrite andb_false_r. }
    assert (W4 : fge w f_4 = true).
    { apply fle_true; [done|done|]. unfold f_4_99 in HW. rewrite lit_val in HW. simpl in HW. rewrite v_4. lra. }
    assert (N2 : old_good_floor r' w (days_between day_50 0) (length two_trials) = fmax r' f_0_75).
    { unfold old_good_floor. rewrite old_days by (vm_compute; discriminate). rewrite W4. done. }
    rewrite N1 in *. rewrite N2 in *. change (compute_delta powf [] r) with fzero. change (compute_delta powf [] (fmax r' f_0_75)) with fzero.
    eexists _, _. split; [reflexivity|]. split; [reflexivity|]. cbn [sc_value].
    assert (D0 : btw (- bpow radix2 33) (bpow radix2 33) fzero).
    { split; [done|]. rewrite v_0. pose proof (bpow_ge_0 radix2 33). lra. }
    destruct (sum_btw r w fzero E1 Hw D0) as [G1 V1]. destruct (sum_btw (fmax r' f_0_75) w fzero E2 Hw D0) as [G2 V2].
    destruct (fclamp_val _ fzero f_5 G1) as [C1 U1]; [done|done|rewrite v_0, v_5; lra|].
    destruct (fclamp_val _ fzero f_5 G2) as [C2 U2]; [done|done|rewrite v_0, v_5; lra|].
    apply flt_true; [done|done|]. rewrite U1, U2, V1, V2, v_0, v_5, !Rplus_0_r.
    unfold f_4_99 in HW. rewrite lit_val in HW. simpl in HW.
    destruct (fmax_val r' f_0_75 F2) as [_ VM]; [done|]. rewrite v_0_75 in VM.
    assert (3 / 4 <= val (fmax r' f_0_75)) by (rewrite VM; apply Rmax_r).
    assert (R36 : repr (115 / 32)).
    { destruct (float_exists 115 (-5)) as (h & Fh & Vh); [lia|lia|]. exists h. split; [done|]. rewrite Vh. simpl. lra. }
    assert (R37 : repr (59 / 16)).
    { destruct (float_exists 59 (-4)) as (h & Fh & Vh); [lia|lia|]. exists h. split; [done|]. rewrite Vh. simpl. lra. }
    assert (A1 : rnd (rnd (val r * val w)) <= 115 / 32).
    { apply rnd_le_repr; [done|]. apply rnd_le_repr; [done|]. nra. }
    assert (A2 : 59 / 16 <= rnd (rnd (val (fmax r' f_0_75) * val w))).
    { apply rnd_ge; [done|]. apply rnd_ge; [done|]. nra. }
    unfold Rmin, Rmax. destruct (Rle_dec (rnd (rnd (val r * val w))) 0), (Rle_dec (rnd (rnd (val (fmax r' f_0_75) * val w))) 0);
      repeat destruct (Rle_dec _ _); lra.
  Qed.
End waiting.
