(** Histories in which a good trial raises the urgency and a better grade lowers the score. *)
From stdpp Require Import list strings.
From Coq Require Import ZArith Reals Lra Lia.
From Flocq Require Import Core.Core IEEE754.BinarySingleNaN.
From Verif Require Import F32 F32Real F32More Stores Scorer ScorerSpec ScorerProofs ScoreProofs AverageProofs ScoreSample MemoryProofs MemoryMore MemorySample BetterSpec BetterProofs.
Local Open Scope R_scope.

Definition graded_on (day : Z) (g : f32) : trial := Entry "exercise"%string g (86400 * day).
(** Two failures; and the same with the best grade a second after the second. *)
Definition failures : list trial := [graded_on 10 f_1; graded_on 0 f_1].
Definition recovered : trial := Entry "exercise"%string f_5 864001.
Definition f_2 : f32 := f_of_Z 2.
(** Twelve days of practice, without and with a better grade on the third day. *)
Definition days_of_practice (third : f32) : list trial :=
  [graded_on 11 f_2; graded_on 10 f_3; graded_on 9 f_4; graded_on 8 f_5; graded_on 7 f_5; graded_on 6 f_5; graded_on 5 f_5;
   graded_on 4 f_5; graded_on 3 f_5; graded_on 2 third; graded_on 1 f_3; graded_on 0 f_5].
Definition day_60 : Z := 5184000.

Lemma floats_eq x y : feq x y = true → fin x → fin y → val x = val y.
Proof. intros H Fx Fy. by apply feq_true in H. Qed.
Lemma repr_frac m e r : (Z.abs m <= 16777215)%Z → (-149 <= e <= 100)%Z → r = IZR m * bpow radix2 e → repr r.
Proof. intros Hm He ->. destruct (float_exists m e) as (h & Fh & <-); [lia|lia|]. by apply repr_val. Qed.
Lemma rnd_rnd x : rnd (rnd x) = rnd x.
Proof. unfold rnd. apply round_generic; [apply valid_rnd_N|]. apply generic_format_round; [apply fexp_correct; reflexivity|apply valid_rnd_N]. Qed.
Lemma f_2_val : val f_2 = 2. Proof. destruct (f_of_Z_val 2) as [_ H]; [lia|]. rewrite <-H. done. Qed.
Lemma b63 x : 0 <= x <= 1000 → 0 <= x <= bpow radix2 63.
Proof. intros H. rewrite (bp 63 (2 ^ 63)) by lia. simpl Z.pow. lra. Qed.

Section witness.
  Context (powf : f32 → f32 → f32) (Hp : power_ok powf) (Hr : rounded_power powf).

  Lemma failures_graded : Forall graded (recovered :: failures). Proof using. repeat constructor. Qed.
  Lemma failures_order : newest_first (recovered :: failures). Proof using. apply out_of_order_spec. reflexivity. Qed.
  Lemma failures_order' : newest_first failures. Proof using. apply out_of_order_spec. reflexivity. Qed.
  Lemma ten_days : btw 10 10 (days_between 1728000 864000).
  Proof using. apply (between_f f_10 _ f_10); [done|done|apply v_10|apply v_10|]. split; vm_compute; reflexivity. Qed.
  Lemma base_of l : fits l → btw 1 10 (estimate_difficulty l). Proof using. apply estimate_difficulty_btw. Qed.

  Lemma failures_stability : 3 / 4 <= val (compute_stability powf Declarative failures (estimate_difficulty failures)).
  Proof using Hp.
    assert (HF : Forall graded failures) by (by eapply Forall_inv_tail, failures_graded).
    assert (Hf : fits failures) by (unfold fits; cbn; lia).
    eapply Rle_trans; [|apply (stability_low powf Hp); [by apply base_of|done]].
    destruct (replay_btw one one_ok Declarative (estimate_difficulty failures) failures) as [[F1 _] _]; [by apply base_of|done|].
    rewrite <-v_0_75. apply fle_true; [done|exact F1|]. vm_compute. reflexivity.
  Qed.
  Lemma recovered_stability : val (compute_stability powf Declarative (recovered :: failures) (estimate_difficulty (recovered :: failures))) <= 33 / 64.
  Proof using Hp.
    assert (HF : Forall graded failures) by (by eapply Forall_inv_tail, failures_graded).
    assert (Hf : fits (recovered :: failures)) by (unfold fits; cbn; lia). pose proof (base_of _ Hf) as Hb.
    set (base := estimate_difficulty (recovered :: failures)) in *.
    destruct (replay_btw powf Hp Declarative base failures Hb HF) as [S1 D1].
    assert (U : val (compute_stability powf Declarative failures base) <= / 2).
    { eapply Rle_trans; [apply (stability_high powf Hp Declarative base (graded_on 10 f_1) (graded_on 0 f_1) [])|].
      - done.
      - by inversion HF.
      - split; [done|cbn [graded_on e_val]; rewrite v_1; lra].
      - apply Req_le. rewrite <-v_0_5. apply floats_eq; vm_compute; reflexivity. }
    unfold compute_stability in *. rewrite replay_cons. unfold replay_step.
    destruct (same_difficulty powf Declarative base failures) as [_ E2]. rewrite E2.
    change (m_previous (replay one Declarative base failures)) with (Some 864000%Z). cbn [m_stability].
    change (e_val recovered) with f_5. change (e_ts recovered) with 864001%Z.
    assert (Hd : btw 0 (/ 65536) (days_between 864001 864000)).
    { set (h := lit false 8388608 (-39) eq_refl : f32). apply (between_f fzero _ h); [done|done|apply v_0|unfold h; rewrite lit_val; simpl; lra|].
      split; vm_compute; reflexivity. }
    set (days := days_between 864001 864000) in *. clearbody days.
    assert (Hd' : btw 0 (bpow radix2 63) days) by (eapply btw_weaken; [exact Hd|lra|apply b63; lra]).
    assert (B5 : btw 1 5 f_5) by (split; [done|rewrite v_5; lra]).
    destruct (apply_stability_val powf Hp Declarative _ _ f_5 days S1 D1 B5 Hd') as (p & Fp & Ep & He & _ & ->).
    assert (P5 : performance (val f_5) = / 2).
    { rewrite v_5. unfold performance. replace (5 - 1) with (IZR 4) by lra. rewrite (rnd_Z 4) by lia. replace (4 / 4) with (IZR 1) by lra.
      rewrite (rnd_Z 1) by lia. replace (1 - / 2) with (/ 2) by lra. apply rnd_half. }
    rewrite P5. destruct (spacing_gain_btw powf Hp Declarative days (m_stability (replay powf Declarative base failures)) p Hd' S1) as [Fg Hg].
    set (g := val (spacing_gain _ _ _ _ _)) in *. set (s := val (m_stability _)) in *.
    assert (He2 : ease (val (m_difficulty (replay powf Declarative base failures))) <= 2).
    { unfold ease. destruct D1 as [_ D1]. apply rnd_le_repr; [rp|].
      assert (rnd (11 - val (m_difficulty (replay powf Declarative base failures))) <= 10) by (apply rnd_le_repr; [rp|lra]). lra. }
    set (e := ease _) in *. assert (Hm : 0 <= Rmin (val days) 1 <= / 65536).
    { destruct Hd as [_ Hd]. rewrite Rmin_left by lra. lra. }
    set (m := Rmin (val days) 1) in *. clearbody m e g.
    assert (HG : growth_of (/ 2) e g m <= / 8192).
    { unfold growth_of.
      assert (R1 : 0 <= rnd (5 / 2 * / 2) <= 2) by (split; [apply rnd_ge; [rp|lra]|apply rnd_le_repr; [rp|lra]]).
      set (a := rnd (5 / 2 * / 2)) in *. clearbody a.
      assert (R2 : 0 <= rnd (a * e) <= 4) by (split; [apply rnd_ge; [rp|nra]|apply rnd_le_repr; [rp|nra]]).
      set (b := rnd (a * e)) in *. clearbody b.
      assert (R3 : 0 <= rnd (b * g) <= 8) by (split; [apply rnd_ge; [rp|nra]|apply rnd_le_repr; [rp|nra]]).
      set (c := rnd (b * g)) in *. clearbody c.
      apply rnd_le_repr; [apply (repr_frac 1 (-13)); [lia|lia|simpl; lra]|nra]. }
    unfold grown. set (f := growth_of _ _ _ _) in *. clearbody f.
    assert (R1 : rnd (1 + f) <= 33 / 32) by (apply rnd_le_repr; [apply (repr_frac 33 (-5)); [lia|lia|simpl; lra]|lra]).
    assert (R2 : rnd (s * rnd (1 + f)) <= 33 / 64).
    { apply rnd_le_repr; [apply (repr_frac 33 (-6)); [lia|lia|simpl; lra]|]. destruct S1 as [_ S1]. unfold s in *.
      apply Rle_trans with (val (m_stability (replay powf Declarative base failures)) * (33 / 32)); [apply Rmult_le_compat_l; lra|lra]. }
    unfold limited. eapply Rle_trans; [apply Rmin_l|]. apply Rmax_lub; lra.
  Qed.

  Lemma trial_alarms : ∃ s s',
    score_exercise powf Declarative failures [] 1728000 = Some s ∧
    score_exercise powf Declarative (recovered :: failures) [] 1728001 = Some s' ∧
    flt (sc_urgency s) (sc_urgency s') = true.
  Proof using Hp Hr.
    pose proof failures_stability as L. pose proof recovered_stability as U.
    assert (HF : Forall graded failures) by (by eapply Forall_inv_tail, failures_graded).
    assert (Hf : fits failures) by (unfold fits; cbn; lia).
    assert (Hf' : fits (recovered :: failures)) by (unfold fits; cbn; lia).
    destruct (replay_btw powf Hp Declarative _ failures (base_of _ Hf) HF) as [S1 _].
    destruct (replay_btw powf Hp Declarative _ (recovered :: failures) (base_of _ Hf') failures_graded) as [S2 _].
    fold (compute_stability powf Declarative failures (estimate_difficulty failures)) in S1.
    fold (compute_stability powf Declarative (recovered :: failures) (estimate_difficulty (recovered :: failures))) in S2.
    rewrite (score_unfold powf Declarative recovered failures [] _ failures_order).
    unfold failures at 1. rewrite (score_unfold powf Declarative (graded_on 10 f_1) _ [] _ failures_order').
    change [graded_on 10 f_1; graded_on 0 f_1] with failures.
    unfold parts. cbv zeta. change (e_ts (graded_on 10 f_1)) with 864000%Z. change (e_ts recovered) with 864001%Z.
    assert (Ed : days_between 1728001 864001 = days_between 1728000 864000) by reflexivity. rewrite Ed.
    eexists _, _. split; [reflexivity|]. split; [reflexivity|]. cbn [sc_urgency].
    pose proof ten_days as [Fd Hd]. set (d := days_between 1728000 864000) in *.
    set (s := compute_stability powf Declarative failures _) in *. set (s' := compute_stability powf Declarative (recovered :: failures) _) in *.
    clearbody s s' d. assert (Ed10 : val d = 10) by lra. assert (Hdd : btw 0 (bpow radix2 63) d) by (split; [done|apply b63; lra]).
    destruct (retrievability_btw powf Hp Declarative d s Hdd S1) as [F1 H1].
    destruct (retrievability_btw powf Hp Declarative d s' Hdd S2) as [F2 H2].
    assert (R1 : / 2 <= val (retrievability powf Declarative d s)).
    { assert (I : / val s <= 4 / 3) by (replace (4 / 3) with (/ (3 / 4)) by lra; apply Rinv_le_contravar; lra).
      assert (I0 : 0 < / val s) by (apply Rinv_0_lt_compat; lra).
      apply (forgets_less powf Hp Hr d s (323 / 64) Hdd S1); [apply (repr_frac 323 (-6)); [lia|lia|simpl; lra]|lra| |lra| |lra|apply repr_half|simpl; lra].
      - rewrite Ed10. unfold Rdiv. nra.
      - rewrite Ed10. unfold Rdiv. nra. }
    assert (R2 : val (retrievability powf Declarative d s') <= 31 / 64).
    { assert (I : 64 / 33 <= / val s') by (replace (64 / 33) with (/ (33 / 64)) by lra; apply Rinv_le_contravar; [destruct S2|]; lra).
      apply (forgets_more powf Hp Hr d s' (435 / 64) Hdd S2); [apply (repr_frac 435 (-6)); [lia|lia|simpl; lra]|lra| |lra|lra|apply (repr_frac 31 (-6)); [lia|lia|simpl; lra]|simpl; lra].
      rewrite Ed10. unfold Rdiv. nra. }
    destruct (fsub_btw f_1 _ 0 1 (eq_refl : fin f_1) F1) as [[G1 _] E1]; [rp|rp|rewrite v_1; lra|].
    destruct (fsub_btw f_1 _ 0 1 (eq_refl : fin f_1) F2) as [[G2 _] E2]; [rp|rp|rewrite v_1; lra|].
    apply flt_true; [done|done|]. rewrite E1, E2, v_1.
    apply Rle_lt_trans with (/ 2); [apply rnd_le_repr; [apply repr_half|lra]|].
    apply Rlt_le_trans with (33 / 64); [lra|]. apply rnd_ge; [apply (repr_frac 33 (-6)); [lia|lia|simpl; lra]|lra].
  Qed.

  (** *** A better grade that lowers the score *)
  Lemma practice_graded g : graded (graded_on 2 g) → Forall graded (days_of_practice g).
  Proof using. intros H. unfold days_of_practice. repeat (constructor; [first [exact H|split; vm_compute; reflexivity]|]). constructor. Qed.
  Lemma practice_order g : newest_first (days_of_practice g).
  Proof using. apply out_of_order_spec. reflexivity. Qed.
  Lemma practice_fits g : fits (days_of_practice g). Proof using. unfold fits. cbn. lia. Qed.
  Lemma forty_nine : btw 49 49 (days_between day_60 950400).
  Proof using. apply (between_f f_49 _ f_49); [done|done|unfold f_49; litv..|]. split; vm_compute; reflexivity. Qed.
  Lemma worse_stability : 15 <= val (compute_stability powf Declarative (days_of_practice f_2) (estimate_difficulty (days_of_practice f_2))).
  Proof using Hp.
    assert (HF : Forall graded (days_of_practice f_2)) by (apply practice_graded; split; vm_compute; reflexivity).
    eapply Rle_trans; [|apply (stability_low powf Hp); [apply base_of, practice_fits|done]].
    destruct (replay_btw one one_ok Declarative (estimate_difficulty (days_of_practice f_2)) (days_of_practice f_2)) as [[F1 _] _]; [apply base_of, practice_fits|done|].
    destruct (f_of_Z_val 15) as [F15 V15]; [lia|]. rewrite <-V15. apply fle_true; [done|exact F1|]. vm_compute. reflexivity.
  Qed.
  Lemma better_stability : val (compute_stability powf Declarative (days_of_practice f_3) (estimate_difficulty (days_of_practice f_3))) <= / 2.
  Proof using Hp.
    assert (HF : Forall graded (days_of_practice f_3)) by (apply practice_graded; split; vm_compute; reflexivity).
    unfold days_of_practice at 1. eapply Rle_trans; [apply (stability_high powf Hp); [apply base_of, practice_fits|by eapply Forall_inv_tail|]|].
    - split; [done|]. change (e_val (graded_on 11 f_2)) with f_2. rewrite f_2_val. lra.
    - apply Req_le. rewrite <-v_0_5. apply floats_eq; vm_compute; reflexivity.
  Qed.
  Lemma practice_average g : between f_2 g f_5 → 1996 / 1000 <= val (compute_weighted_avg powf (days_of_practice g)) <= 501 / 100.
  Proof using Hp.
    intros Hg. destruct (scored_average powf Hp f_2 f_5 (days_of_practice g)) as [_ H].
    - unfold plain_bounds. rewrite f_2_val, v_5. split; [done|]. split; [done|]. lra.
    - cbn. lia.
    - unfold days_of_practice. repeat (constructor; [first [exact Hg|split; vm_compute; reflexivity]|]). constructor.
    - rewrite f_2_val, v_5 in H. lra.
  Qed.
  Lemma practice_score g : graded (graded_on 2 g) →
    let d := days_between day_60 950400 in
    let s := compute_stability powf Declarative (days_of_practice g) (estimate_difficulty (days_of_practice g)) in
    ∃ sc, score_exercise powf Declarative (days_of_practice g) [] day_60 = Some sc ∧ btw 0 5 (sc_value sc) ∧
      val (sc_value sc) = Rmin (rnd (val (retrievability powf Declarative d s) * val (compute_weighted_avg powf (days_of_practice g)))) 5.
  Proof using Hp.
    intros Hg. cbv zeta. pose proof (practice_graded g Hg) as HF.
    pose proof (parts_ok powf Hp Declarative (days_of_practice g) day_60 (graded_on 11 f_2) (practice_fits g) HF) as P.
    pose proof (score_unfold powf Declarative (graded_on 11 f_2) (tail (days_of_practice g)) [] day_60 (practice_order g)) as U.
    change (graded_on 11 f_2 :: tail (days_of_practice g)) with (days_of_practice g) in U. rewrite U. clear U.
    unfold parts in *. cbv zeta in *. change (e_ts (graded_on 11 f_2)) with 950400%Z in *.
    destruct P as ([Fr Hr'] & Hw & He). set (r := retrievability _ _ _ _) in *. set (w := compute_weighted_avg _ _) in *.
    assert (N1 : old_good_floor r w (days_between day_60 950400) (length (days_of_practice g)) = r).
    { unfold old_good_floor. rewrite recent_days by (vm_compute; reflexivity). by rewrite andb_false_r. }
    rewrite N1 in *. change (compute_delta powf [] r) with fzero. eexists. split; [reflexivity|]. cbn [sc_value].
    assert (D0 : btw (- bpow radix2 33) (bpow radix2 33) fzero).
    { split; [done|]. rewrite v_0. pose proof (bpow_ge_0 radix2 33). lra. }
    destruct (sum_btw r w fzero He Hw D0) as [G1 V1]. destruct (fclamp_val _ fzero f_5 G1) as [C1 U1]; [done|done|rewrite v_0, v_5; lra|].
    rewrite v_0, v_5 in U1. assert (0 <= rnd (val r * val w)) by (apply rnd_pos; destruct Hw; nra).
    rewrite V1, v_0, Rplus_0_r, rnd_rnd, Rmax_left in U1 by done. split; [|done]. split; [done|]. rewrite U1.
    split; [apply Rmin_glb; lra|apply Rmin_r].
  Qed.

  Lemma better_grade_hurts : ∃ s s',
    score_exercise powf Declarative (days_of_practice f_2) [] day_60 = Some s ∧
    score_exercise powf Declarative (days_of_practice f_3) [] day_60 = Some s' ∧
    flt (sc_value s') (sc_value s) = true.
  Proof using Hp Hr.
    destruct (practice_score f_2) as (s & Es & [Fs _] & Vs); [split; vm_compute; reflexivity|].
    destruct (practice_score f_3) as (s' & Es' & [Fs' _] & Vs'); [split; vm_compute; reflexivity|].
    exists s, s'. split; [done|]. split; [done|]. apply flt_true; [done|done|]. rewrite Vs, Vs'. clear s s' Es Es' Fs Fs' Vs Vs'.
    destruct (practice_average f_2) as [A1 A2]; [split; vm_compute; reflexivity|].
    destruct (practice_average f_3) as [A3 A4]; [split; vm_compute; reflexivity|].
    pose proof worse_stability as L. pose proof better_stability as U.
    destruct (replay_btw powf Hp Declarative _ (days_of_practice f_2) (base_of _ (practice_fits f_2))) as [S1 _]; [apply practice_graded; split; vm_compute; reflexivity|].
    destruct (replay_btw powf Hp Declarative _ (days_of_practice f_3) (base_of _ (practice_fits f_3))) as [S2 _]; [apply practice_graded; split; vm_compute; reflexivity|].
    fold (compute_stability powf Declarative (days_of_practice f_2) (estimate_difficulty (days_of_practice f_2))) in S1.
    fold (compute_stability powf Declarative (days_of_practice f_3) (estimate_difficulty (days_of_practice f_3))) in S2.
    pose proof forty_nine as [Fd Hd]. set (d := days_between day_60 950400) in *.
    set (s := compute_stability powf Declarative (days_of_practice f_2) _) in *. set (s' := compute_stability powf Declarative (days_of_practice f_3) _) in *.
    clearbody s s' d. assert (Ed : val d = 49) by lra. assert (Hdd : btw 0 (bpow radix2 63) d) by (split; [done|apply b63; lra]).
    destruct (retrievability_btw powf Hp Declarative d s Hdd S1) as [F1 H1].
    destruct (retrievability_btw powf Hp Declarative d s' Hdd S2) as [F2 H2].
    assert (R1 : 3 / 4 <= val (retrievability powf Declarative d s)).
    { assert (I : / val s <= / 15) by (apply Rinv_le_contravar; lra). assert (I0 : 0 < / val s) by (apply Rinv_0_lt_compat; lra).
      apply (forgets_less powf Hp Hr d s (2035 / 1024) Hdd S1); [apply (repr_frac 2035 (-10)); [lia|lia|simpl; lra]|lra| |lra| |lra|apply (repr_frac 3 (-2)); [lia|lia|simpl; lra]|simpl; lra].
      - rewrite Ed. unfold Rdiv. nra.
      - rewrite Ed. unfold Rdiv. nra. }
    assert (R2 : val (retrievability powf Declarative d s') <= 9 / 32).
    { assert (I : 2 <= / val s') by (replace 2 with (/ / 2) by lra; apply Rinv_le_contravar; [destruct S2|]; lra).
      apply (forgets_more powf Hp Hr d s' 30 Hdd S2); [rp|lra| |lra|lra|apply (repr_frac 9 (-5)); [lia|lia|simpl; lra]|simpl; lra].
      rewrite Ed. unfold Rdiv. nra. }
    set (r := val (retrievability powf Declarative d s)) in *. set (r' := val (retrievability powf Declarative d s')) in *.
    apply Rle_lt_trans with (361 / 256).
    - eapply Rle_trans; [apply Rmin_l|]. apply rnd_le_repr; [apply (repr_frac 361 (-8)); [lia|lia|simpl; lra]|nra].
    - apply Rlt_le_trans with (380 / 256); [lra|]. apply Rmin_glb; [|lra]. apply rnd_ge; [apply (repr_frac 380 (-8)); [lia|lia|simpl; lra]|nra].
  Qed.

  (** *** The difficulty of an exercise that always got grade 1, after an average grade *)
  Lemma difficulty_drifts : let l := [graded_on 2 f_3; graded_on 1 f_3] in
    flt (m_difficulty (replay powf Declarative f_10 l)) f_10 = true.
  Proof using.
    cbv zeta. destruct (same_difficulty powf Declarative f_10 [graded_on 2 f_3; graded_on 1 f_3]) as [-> _]. vm_compute. reflexivity.
  Qed.
End witness.

(** ** Samples *)
Lemma single_delta powf ty trials d now : score_exercise powf ty trials [d] now = score_exercise powf ty trials [] now.
Proof. destruct trials; [done|]. unfold score_exercise. destruct (out_of_order _); reflexivity. Qed.
Definition fives : list trial := [graded_on 2 f_5; graded_on 1 f_5].
Lemma easy_gets_harder powf : Forall (λ t, e_val t = f_5) fives ∧ newest_first fives ∧
  flt (estimate_difficulty fives) (m_difficulty (replay powf Declarative (estimate_difficulty fives) fives)) = true.
Proof.
  split; [by repeat constructor|]. split; [apply out_of_order_spec; reflexivity|].
  destruct (same_difficulty powf Declarative (estimate_difficulty fives) fives) as [-> _]. vm_compute. reflexivity.
Qed.
Lemma calms_sample : newest_first (graded_on 9 f_4 :: fives) ∧ fits (graded_on 9 f_4 :: fives) ∧
  Forall (λ t : trial, between f_3 (e_val t) f_5) (graded_on 9 f_4 :: fives).
Proof.
  split; [apply out_of_order_spec; reflexivity|]. split; [unfold fits; cbn; lia|]. repeat (constructor; [split; vm_compute; reflexivity|]). constructor.
Qed.
Lemma better_practice : better (days_of_practice f_2) (days_of_practice f_3).
Proof. repeat (constructor; [split; vm_compute; reflexivity|]). constructor. Qed.
Lemma practice_ok g : between f_2 g f_5 → Forall graded (days_of_practice g) ∧ newest_first (days_of_practice g) ∧ fits (days_of_practice g).
Proof.
  intros H. split; [|split; [apply practice_order|apply practice_fits]]. apply practice_graded.
  assert (B : btw 2 5 g) by (by apply (between_f f_2 g f_5 2 5 eq_refl eq_refl f_2_val v_5)).
  apply (between_f f_1 _ f_5 1 5 eq_refl eq_refl v_1 v_5). eapply btw_weaken; [exact B|lra|lra].
Qed.
