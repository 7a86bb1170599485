(** Proofs about the shares of the windows. *)
From stdpp Require Import gmap strings list.
From Coq Require Import ZArith Reals Lra Lia.
From Flocq Require Import Core.Core IEEE754.BinarySingleNaN.
From Verif Require Import F32 F32Real F32More Graph Options OptionsSpec OptionsProofs Batch BatchSpec SizeProofs ScorerProofs MemoryExact
  Session MixSpec.
Local Open Scope R_scope.

(** ** Literals *)
Lemma val_0_05 : 5 / 100 <= val f_0_05 <= 5 / 100 + / 1000000000. Proof. unfold f_0_05. litv. Qed.
Lemma val_m0_05 : - (5 / 100) - / 1000000000 <= val f_m0_05 <= - (5 / 100). Proof. unfold f_m0_05. litv. Qed.
Lemma val_m0_1 : - (10 / 100) - / 500000000 <= val f_m0_1 <= - (10 / 100). Proof. unfold f_m0_1. litv. Qed.
Lemma val_0_9 : val f_0_9 = rnd (9 / 10).
Proof.
  destruct (f_of_Z_val 9) as [F9 V9]; [lia|]. destruct (f_of_Z_val 10) as [F10 V10]; [lia|].
  destruct (fdiv_btw (f_of_Z 9) (f_of_Z 10) 0 1 F9 F10) as [_ E]; [lra|rp|rp|rewrite V9, V10; lra|].
  rewrite V9, V10 in E. rewrite <-E.
  assert (D : B2SF f_0_9 = B2SF (fdiv (f_of_Z 9) (f_of_Z 10))) by (vm_compute; reflexivity).
  apply B2SF_inj in D. by rewrite <-D.
Qed.

(** ** The success rate *)
Lemma rate_val s f : (Z.of_nat (s + f) <= 1000000)%Z → fin (success_rate (s, f)) ∧
  val (success_rate (s, f)) = rnd (exact_rate s (s + f)) ∧ 0 <= exact_rate s (s + f) <= 1.
Proof.
  intros Hn. unfold success_rate, exact_rate. cbn [fst snd]. destruct (Nat.eqb_spec (s + f) 0) as [E|E].
  { split; [done|]. split; [|lra]. rewrite v_1. symmetry. apply rnd_repr. rp. }
  destruct (f_of_nat_val s) as [Fs Vs]; [lia|]. destruct (f_of_nat_val (s + f)) as [Fn Vn]; [lia|].
  assert (0 < INR (s + f)) by (apply lt_0_INR; lia).
  assert (0 <= INR s / INR (s + f) <= 1).
  { pose proof (pos_INR s). assert (INR s <= INR (s + f)) by (apply le_INR; lia). split.
    - apply Rmult_le_pos; [lra|]. left. by apply Rinv_0_lt_compat.
    - apply Rmult_le_reg_r with (INR (s + f)); [done|]. unfold Rdiv. rewrite Rmult_assoc, Rinv_l by lra. lra. }
  destruct (fdiv_btw (f_of_nat s) (f_of_nat (s + f)) 0 1 Fs Fn) as [[F _] E']; [lra|rp|rp|by rewrite Vs, Vn|].
  split; [done|]. split; [|done]. by rewrite E', Vs, Vn.
Qed.
(** Comparing the rate with a fraction, exactly. *)
Lemma rate_above s n a b : n ≠ 0%nat → (0 < b)%nat → (a * n < b * s)%nat → (Z.of_nat n <= 1000000)%Z →
  INR a / INR b + / (INR b * 1000000) <= exact_rate s n.
Proof.
  intros Hn Hb H Hl. unfold exact_rate. destruct (Nat.eqb_spec n 0); [lia|].
  assert (Pn : 0 < INR n) by (apply lt_0_INR; lia). assert (Pb : 0 < INR b) by (apply lt_0_INR; lia).
  assert (L : INR n <= 1000000) by (rewrite INR_IZR_INZ; by apply IZR_le).
  assert (G : INR a * INR n + 1 <= INR b * INR s).
  { rewrite <-!mult_INR. change 1 with (INR 1). rewrite <-plus_INR. apply le_INR. lia. }
  apply Rmult_le_reg_r with (INR n * INR b * 1000000); [repeat apply Rmult_lt_0_compat; lra|].
  replace (INR s / INR n * (INR n * INR b * 1000000)) with (INR b * INR s * 1000000) by (field; lra).
  replace ((INR a / INR b + / (INR b * 1000000)) * (INR n * INR b * 1000000)) with (INR a * INR n * 1000000 + INR n) by (field; lra).
  lra.
Qed.
Lemma rate_below s n a b : n ≠ 0%nat → (0 < b)%nat → (b * s < a * n)%nat → (Z.of_nat n <= 1000000)%Z →
  exact_rate s n <= INR a / INR b - / (INR b * 1000000).
Proof.
  intros Hn Hb H Hl. unfold exact_rate. destruct (Nat.eqb_spec n 0); [lia|].
  assert (Pn : 0 < INR n) by (apply lt_0_INR; lia). assert (Pb : 0 < INR b) by (apply lt_0_INR; lia).
  assert (L : INR n <= 1000000) by (rewrite INR_IZR_INZ; by apply IZR_le).
  assert (G : INR b * INR s + 1 <= INR a * INR n).
  { rewrite <-!mult_INR. change 1 with (INR 1). rewrite <-plus_INR. apply le_INR. lia. }
  apply Rmult_le_reg_r with (INR n * INR b * 1000000); [repeat apply Rmult_lt_0_compat; lra|].
  replace (INR s / INR n * (INR n * INR b * 1000000)) with (INR b * INR s * 1000000) by (field; lra).
  replace ((INR a / INR b - / (INR b * 1000000)) * (INR n * INR b * 1000000)) with (INR a * INR n * 1000000 - INR n) by (field; lra).
  lra.
Qed.
Lemma rate_at_most s n a b : n ≠ 0%nat → (0 < b)%nat → (b * s <= a * n)%nat → exact_rate s n <= INR a / INR b.
Proof.
  intros Hn Hb H. unfold exact_rate. destruct (Nat.eqb_spec n 0); [lia|].
  assert (Pn : 0 < INR n) by (apply lt_0_INR; lia). assert (Pb : 0 < INR b) by (apply lt_0_INR; lia).
  assert (G : INR b * INR s <= INR a * INR n) by (rewrite <-!mult_INR; by apply le_INR).
  apply Rmult_le_reg_r with (INR n * INR b); [by apply Rmult_lt_0_compat|].
  replace (INR s / INR n * (INR n * INR b)) with (INR b * INR s) by (field; lra).
  replace (INR a / INR b * (INR n * INR b)) with (INR a * INR n) by (field; lra). done.
Qed.
Lemma rate_at_least s n a b : n ≠ 0%nat → (0 < b)%nat → (a * n <= b * s)%nat → INR a / INR b <= exact_rate s n.
Proof.
  intros Hn Hb H. unfold exact_rate. destruct (Nat.eqb_spec n 0); [lia|].
  assert (Pn : 0 < INR n) by (apply lt_0_INR; lia). assert (Pb : 0 < INR b) by (apply lt_0_INR; lia).
  assert (G : INR a * INR n <= INR b * INR s) by (rewrite <-!mult_INR; by apply le_INR).
  apply Rmult_le_reg_r with (INR n * INR b); [by apply Rmult_lt_0_compat|].
  replace (INR s / INR n * (INR n * INR b)) with (INR b * INR s) by (field; lra).
  replace (INR a / INR b * (INR n * INR b)) with (INR a * INR n) by (field; lra). done.
Qed.

Lemma repr_frac m e r : (Z.abs m < 16777216)%Z → (-149 <= e <= 104)%Z → r = IZR m * bpow radix2 e → repr r.
Proof. intros Hm He ->. destruct (float_exists m e Hm He) as (h & Hf & Hv). by exists h. Qed.

(** The levels of success. *)
Definition level (s n : nat) : nat :=
  if decide (n = 0 ∨ 9 * n < 10 * s)%nat then 0
  else if decide (3 * n ≤ 4 * s)%nat then 1
  else if decide (n ≤ 2 * s)%nat then 2 else 3.
Lemma shift_exact s f : (Z.of_nat (s + f) <= 1000000)%Z →
  window_shift (success_rate (s, f)) =
    match level s (s + f) with 0 => Some f_0_05 | 1 => None | 2 => Some f_m0_05 | _ => Some f_m0_1 end.
Proof.
  intros Hn. destruct (decide (s + f = 0)%nat) as [E|E].
  { unfold success_rate, level. cbn [fst snd]. rewrite E, decide_True by (by left). vm_compute. done. }
  destruct (rate_val s f Hn) as (F & V & B). unfold window_shift, level.
  change (fgt (success_rate (s, f)) f_0_9) with (flt f_0_9 (success_rate (s, f))).
  set (x := success_rate (s, f)) in *. set (q := exact_rate s (s + f)) in *.
  destruct (decide (s + f = 0 ∨ 9 * (s + f) < 10 * s)%nat) as [D9|D9].
  { destruct D9 as [|D9]; [lia|]. pose proof (rate_above s (s + f) 9 10 E ltac:(lia) D9 Hn) as H. fold q in H.
    replace (flt f_0_9 x) with true; [done|]. symmetry. apply flt_true; [done|done|]. rewrite V.
    apply Rlt_le_trans with (15099495 / 16777216); [unfold f_0_9; litv|].
    apply rnd_ge; [apply (repr_frac 15099495 (-24)); [lia|lia|simpl; lra]|]. simpl in H. lra. }
  replace (flt f_0_9 x) with false.
  2: { symmetry. apply flt_false; [done|done|]. rewrite V, val_0_9. apply rnd_le.
       pose proof (rate_at_most s (s + f) 9 10 E ltac:(lia) ltac:(lia)) as H. fold q in H. simpl in H. lra. }
  replace (fle x f_0_9) with true.
  2: { symmetry. apply fle_true; [done|done|]. rewrite V, val_0_9. apply rnd_le.
       pose proof (rate_at_most s (s + f) 9 10 E ltac:(lia) ltac:(lia)) as H. fold q in H. simpl in H. lra. }
  destruct (decide (3 * (s + f) ≤ 4 * s)%nat) as [D7|D7].
  { replace (fle f_0_75 x) with true; [done|]. symmetry. apply fle_true; [done|done|]. rewrite V, v_0_75.
    apply rnd_ge; [rewrite <-v_0_75; by apply repr_val|].
    pose proof (rate_at_least s (s + f) 3 4 E ltac:(lia) D7) as H. fold q in H. simpl in H. lra. }
  assert (L7 : val x < 3 / 4).
  { rewrite V. apply Rle_lt_trans with (12582911 / 16777216); [|lra].
    apply rnd_le_repr; [apply (repr_frac 12582911 (-24)); [lia|lia|simpl; lra]|].
    pose proof (rate_below s (s + f) 3 4 E ltac:(lia) ltac:(lia) Hn) as H. fold q in H. simpl in H. lra. }
  replace (fle f_0_75 x) with false.
  2: { symmetry. apply fle_false; [done|done|]. rewrite v_0_75. done. }
  replace (flt x f_0_75) with true.
  2: { symmetry. apply flt_true; [done|done|]. rewrite v_0_75. done. }
  destruct (decide (s + f ≤ 2 * s)%nat) as [D5|D5].
  { replace (fle f_0_5 x) with true; [done|]. symmetry. apply fle_true; [done|done|]. rewrite V, v_0_5.
    apply rnd_ge; [apply repr_half|].
    pose proof (rate_at_least s (s + f) 1 2 E ltac:(lia) ltac:(lia)) as H. fold q in H. simpl in H. lra. }
  replace (fle f_0_5 x) with false; [done|].
  symmetry. apply fle_false; [done|done|]. rewrite v_0_5, V. apply Rle_lt_trans with (8388607 / 16777216); [|lra].
  apply rnd_le_repr; [apply (repr_frac 8388607 (-24)); [lia|lia|simpl; lra]|].
  pose proof (rate_below s (s + f) 1 2 E ltac:(lia) ltac:(lia) Hn) as H. fold q in H. simpl in H. lra.
Qed.
Lemma gain_exact s n : gain (exact_rate s n) =
  match level s n with 0%nat => 5 / 100 | 1%nat => 0 | 2%nat => - (5 / 100) | _ => - (10 / 100) end.
Proof.
  unfold level. destruct (decide (n = 0 ∨ 9 * n < 10 * s)%nat) as [D|D].
  { unfold gain. destruct (Rlt_dec (9 / 10) (exact_rate s n)) as [L|L]; [done|]. exfalso. apply L.
    destruct (decide (n = 0)%nat) as [->|Hn]; [unfold exact_rate; simpl; lra|]. destruct D as [|D]; [done|].
    unfold exact_rate. destruct (Nat.eqb_spec n 0); [lia|]. assert (Pn : 0 < INR n) by (apply lt_0_INR; lia).
    apply Rmult_lt_reg_r with (INR n); [done|]. replace (INR s / INR n * INR n) with (INR s) by (field; lra).
    apply lt_INR in D. rewrite !mult_INR in D. simpl in D. lra. }
  assert (Hn : n ≠ 0%nat) by tauto. assert (D' : (10 * s <= 9 * n)%nat) by lia. clear D.
  pose proof (rate_at_most s n 9 10 Hn ltac:(lia) D') as H9. simpl in H9. unfold gain.
  destruct (Rlt_dec (9 / 10) (exact_rate s n)) as [L|_]; [lra|].
  destruct (decide (3 * n ≤ 4 * s)%nat) as [D7|D7].
  { pose proof (rate_at_least s n 3 4 Hn ltac:(lia) D7) as H. simpl in H.
    destruct (Rle_dec (3 / 4) (exact_rate s n)) as [|L]; [done|]. destruct L. lra. }
  assert (B : ∀ a b, (0 < b)%nat → (b * s < a * n)%nat → exact_rate s n < INR a / INR b).
  { intros a b Hb H. unfold exact_rate. destruct (Nat.eqb_spec n 0); [lia|]. assert (Pn : 0 < INR n) by (apply lt_0_INR; lia).
    assert (Pb : 0 < INR b) by (apply lt_0_INR; lia).
    assert (G : INR b * INR s < INR a * INR n) by (rewrite <-!mult_INR; by apply lt_INR).
    apply Rmult_lt_reg_r with (INR n * INR b); [by apply Rmult_lt_0_compat|].
    replace (INR s / INR n * (INR n * INR b)) with (INR b * INR s) by (field; lra).
    replace (INR a / INR b * (INR n * INR b)) with (INR a * INR n) by (field; lra). done. }
  pose proof (B 3 4 ltac:(lia) ltac:(lia))%nat as H7. simpl in H7.
  destruct (Rle_dec (3 / 4) (exact_rate s n)) as [L|_]; [lra|].
  destruct (decide (n ≤ 2 * s)%nat) as [D5|D5].
  { pose proof (rate_at_least s n 1 2 Hn ltac:(lia) ltac:(lia)) as H. simpl in H.
    destruct (Rle_dec (1 / 2) (exact_rate s n)) as [|L]; [done|]. destruct L. lra. }
  pose proof (B 1 2 ltac:(lia) ltac:(lia))%nat as H5. simpl in H5.
  destruct (Rle_dec (1 / 2) (exact_rate s n)) as [L|_]; [lra|done].
Qed.

(** ** Shares *)
Lemma kept_close lo lo' hi x y e d : Rabs (x - y) <= e → Rabs (lo - lo') <= d →
  Rabs (kept_between lo hi x - kept_between lo' hi y) <= e + d.
Proof.
  intros H1 H2. pose proof (Rabs_pos (x - y)). pose proof (Rabs_pos (lo - lo')). apply Rabs_le_inv in H1. apply Rabs_le_inv in H2. apply Rabs_le.
  unfold kept_between, Rmin, Rmax. repeat destruct (Rle_dec _ _); lra.
Qed.
Definition moved_share (x : R) : R := kept_between (val f_0_05) (/ 2) (rnd x).
Lemma clamp_right x y : fin x → val x = rnd y →
  fin (clamp_percentage x) ∧ val (clamp_percentage x) = moved_share y.
Proof.
  intros Hf Hv. unfold clamp_percentage. pose proof val_0_05.
  destruct (fclamp_val x f_0_05 f_0_5 Hf) as [F V]; [done|done|rewrite v_0_5; lra|].
  split; [done|]. rewrite V, v_0_5, Hv. done.
Qed.
Lemma moved_range x : 5 / 100 <= moved_share x <= / 2.
Proof. pose proof val_0_05. unfold moved_share, kept_between, Rmin, Rmax. repeat destruct (Rle_dec _ _); lra. Qed.
Lemma moved_close x y : -1 <= x <= 3 / 2 → Rabs (x - y) <= / 400000000 →
  Rabs (moved_share x - kept_between (5 / 100) (50 / 100) y) <= / 8000000.
Proof.
  intros Hx Hy. unfold moved_share. replace (50 / 100) with (/ 2) by lra.
  eapply Rle_trans; [apply (kept_close _ _ _ _ _ (3 / 2 / 16777216 + / 100000000000 + / 400000000) (/ 1000000000))|lra].
  - pose proof (close x (3 / 2) ltac:(apply Rabs_le; lra)) as C. apply Rabs_le_inv in C. apply Rabs_le_inv in Hy. apply Rabs_le. lra.
  - pose proof val_0_05. apply Rabs_le. lra.
Qed.
Lemma moved_add p sh : fin p → 0 <= val p <= 1 → fin sh → - (11 / 100) <= val sh <= 11 / 100 →
  fin (clamp_percentage (fadd p sh)) ∧ val (clamp_percentage (fadd p sh)) = moved_share (val p + val sh).
Proof.
  intros Fp Vp Fs Vs. destruct (fadd_btw p sh (-1) 2 Fp Fs) as [[F _] V]; [rp|rp|lra|]. by apply clamp_right.
Qed.
Lemma moved_sub p sh : fin p → 0 <= val p <= 1 → fin sh → - (11 / 100) <= val sh <= 11 / 100 →
  fin (clamp_percentage (fsub p sh)) ∧ val (clamp_percentage (fsub p sh)) = moved_share (val p - val sh).
Proof.
  intros Fp Vp Fs Vs. destruct (fsub_btw p sh (-1) 2 Fp Fs) as [[F _] V]; [rp|rp|lra|]. by apply clamp_right.
Qed.

Lemma current_right n t e a N T E A : btw (5 / 100) (/ 2) n → btw (5 / 100) (/ 2) t → btw (5 / 100) (/ 2) e → btw (5 / 100) (/ 2) a →
  Rabs (val n - N) <= / 8000000 → Rabs (val t - T) <= / 8000000 → Rabs (val e - E) <= / 8000000 → Rabs (val a - A) <= / 8000000 →
  let c := fmax (fsub f_1 (fadd (fadd (fadd n t) e) a)) f_0_05 in
  fin c ∧ Rabs (val c - Rmax (1 - (N + T + E + A)) (5 / 100)) <= / 1000000.
Proof.
  intros [Fn Vn] [Ft Vt] [Fe Ve] [Fa Va] Hn Ht He Ha c.
  apply Rabs_le_inv in Hn. apply Rabs_le_inv in Ht. apply Rabs_le_inv in He. apply Rabs_le_inv in Ha.
  destruct (fadd_btw n t 0 1 Fn Ft) as [[F1 B1] V1]; [rp|rp|lra|].
  pose proof (close (val n + val t) 1 ltac:(apply Rabs_le; lra)) as C1. rewrite <-V1 in C1. apply Rabs_le_inv in C1.
  set (x1 := fadd n t) in *. clearbody x1.
  destruct (fadd_btw x1 e 0 2 F1 Fe) as [[F2 B2] V2]; [rp|rp|lra|].
  pose proof (close (val x1 + val e) 2 ltac:(apply Rabs_le; lra)) as C2. rewrite <-V2 in C2. apply Rabs_le_inv in C2.
  set (x2 := fadd x1 e) in *. clearbody x2.
  destruct (fadd_btw x2 a 0 4 F2 Fa) as [[F3 B3] V3]; [rp|rp|lra|].
  pose proof (close (val x2 + val a) (21 / 10) ltac:(apply Rabs_le; lra)) as C3. rewrite <-V3 in C3. apply Rabs_le_inv in C3.
  set (x3 := fadd x2 a) in *. clearbody x3.
  assert (F0 : fin f_1) by done.
  destruct (fsub_btw f_1 x3 (-4) 1 F0 F3) as [[F4 B4] V4]; [rp|rp|rewrite v_1; lra|].
  pose proof (close (val f_1 - val x3) (12 / 10) ltac:(rewrite v_1; apply Rabs_le; lra)) as C4. rewrite <-V4, v_1 in C4. apply Rabs_le_inv in C4.
  unfold c. set (x4 := fsub f_1 x3) in *. clearbody x4.
  destruct (fmax_val x4 f_0_05 F4) as [F5 V5]; [done|]. split; [done|]. rewrite V5. pose proof val_0_05.
  apply Rabs_le. unfold Rmax. repeat destruct (Rle_dec _ _); lra.
Qed.

Definition near_by (w : window) (x : R) : Prop := fin (percentage w) ∧ Rabs (share w - x) <= / 1000000.
Lemma shifted_close o sh g : Forall proper_share (windows o) → fin sh → Rabs (val sh - g) <= / 400000000 → - (10 / 100) <= g <= 5 / 100 →
  g ≠ 0 → ∀ rate rate', window_shift rate = Some sh → gain rate' = g →
  Forall2 near_by (windows (adjusted_mastery_windows o rate)) (documented_shares o rate').
Proof.
  intros Hp Fs Hs Hg Hne rate rate' E1 E2. unfold windows in Hp. rewrite !Forall_cons in Hp.
  destruct Hp as ((Fn & Vn) & (Ft & Vt) & (Fc & Vc) & (Fe & Ve) & (Fa & Va) & _). unfold share in *.
  apply Rabs_le_inv in Hs.
  unfold adjusted_mastery_windows. rewrite E1. unfold documented_shares. cbv zeta. rewrite E2. destruct (Req_EM_T g 0) as [|_]; [done|].
  unfold windows. cbn [new_window target_window current_window easy_window mastered_window].
  destruct (moved_add (percentage (new_window o)) sh Fn Vn Fs) as [F1 V1]; [lra|].
  destruct (moved_add (percentage (target_window o)) sh Ft Vt Fs) as [F2 V2]; [lra|].
  destruct (moved_sub (percentage (easy_window o)) sh Fe Ve Fs) as [F3 V3]; [lra|].
  destruct (moved_sub (percentage (mastered_window o)) sh Fa Va Fs) as [F4 V4]; [lra|].
  assert (C1 : Rabs (moved_share (val (percentage (new_window o)) + val sh) - kept_between (5 / 100) (50 / 100) (share (new_window o) + g)) <= / 8000000)
    by (apply moved_close; [lra|unfold share; apply Rabs_le; lra]).
  assert (C2 : Rabs (moved_share (val (percentage (target_window o)) + val sh) - kept_between (5 / 100) (50 / 100) (share (target_window o) + g)) <= / 8000000)
    by (apply moved_close; [lra|unfold share; apply Rabs_le; lra]).
  assert (C3 : Rabs (moved_share (val (percentage (easy_window o)) - val sh) - kept_between (5 / 100) (50 / 100) (share (easy_window o) - g)) <= / 8000000)
    by (apply moved_close; [lra|unfold share; apply Rabs_le; lra]).
  assert (C4 : Rabs (moved_share (val (percentage (mastered_window o)) - val sh) - kept_between (5 / 100) (50 / 100) (share (mastered_window o) - g)) <= / 8000000)
    by (apply moved_close; [lra|unfold share; apply Rabs_le; lra]).
  pose proof (moved_range (val (percentage (new_window o)) + val sh)) as R1. pose proof (moved_range (val (percentage (target_window o)) + val sh)) as R2.
  pose proof (moved_range (val (percentage (easy_window o)) - val sh)) as R3. pose proof (moved_range (val (percentage (mastered_window o)) - val sh)) as R4.
  rewrite <-V1 in C1, R1. rewrite <-V2 in C2, R2. rewrite <-V3 in C3, R3. rewrite <-V4 in C4, R4.
  destruct (current_right _ _ _ _ _ _ _ _ (conj F1 R1) (conj F2 R2) (conj F3 R3) (conj F4 R4) C1 C2 C3 C4) as [F5 C5].
  unfold share in C1, C2, C3, C4, C5.
  repeat (apply Forall2_cons; split); try apply Forall2_nil_2; unfold near_by, share; cbn [percentage set_percentage];
    (split; [assumption|]); try assumption; (eapply Rle_trans; [eassumption|lra]).
Qed.
Lemma shares_right o s f : (Z.of_nat (s + f) <= 1000000)%Z → Forall proper_share (windows o) →
  Forall2 near_by (windows (adjusted_mastery_windows o (success_rate (s, f)))) (documented_shares o (exact_rate s (s + f))).
Proof.
  intros Hn Hp. pose proof (shift_exact s f Hn) as E1. pose proof (gain_exact s (s + f)) as E2.
  destruct (level s (s + f)) as [|[|[|l]]].
  - eapply shifted_close; [done| | | | |exact E1|exact E2]; [done|pose proof val_0_05; apply Rabs_le; lra|lra|lra].
  - unfold adjusted_mastery_windows, documented_shares. rewrite E1. cbv zeta. destruct (Req_EM_T _ 0) as [_|H]; [|done].
    apply Forall2_fmap_r, Forall_Forall2_diag. eapply Forall_impl; [exact Hp|]. intros w [Hf _]. split; [done|].
    rewrite Rminus_diag_eq by done. rewrite Rabs_R0. lra.
  - eapply shifted_close; [done| | | | |exact E1|exact E2]; [done|pose proof val_m0_05; apply Rabs_le; lra|lra|lra].
  - eapply shifted_close; [done| | | | |exact E1|exact E2]; [done|pose proof val_m0_1; apply Rabs_le; lra|lra|lra].
Qed.

(** ** The whole *)
Lemma whole_close ws l : Forall2 near_by ws l → Rabs (whole (share <$> ws) - whole l) <= INR (length l) / 1000000.
Proof.
  intros H. induction H as [|w x ws l [_ Hw] H IH]; cbn [whole foldr fmap list_fmap length].
  - rewrite Rminus_diag_eq by done. rewrite Rabs_R0. simpl. lra.
  - unfold whole in *. cbn [foldr]. apply Rabs_le_inv in Hw. apply Rabs_le_inv in IH. rewrite S_INR. apply Rabs_le. lra.
Qed.
Lemma accepted_whole o : verify_options o = true → Forall proper_share (windows o) → Rabs (whole (share <$> windows o) - 1) <= / 500000.
Proof.
  intros Hv Hp. unfold verify_options in Hv. rewrite !andb_true_iff in Hv.
  assert (Hs : float_equals (percentage_sum o) f_1 = true) by tauto. clear Hv.
  apply float_equals_sound in Hs. unfold tolerance in Hs. rewrite v_1 in Hs. apply Rlt_le, Rabs_le_inv in Hs.
  unfold windows in Hp. rewrite !Forall_cons in Hp.
  destruct Hp as ((Fn & Vn) & (Ft & Vt) & (Fc & Vc) & (Fe & Ve) & (Fa & Va) & _). unfold windows. cbn [fmap list_fmap whole foldr]. unfold share in *.
  unfold percentage_sum in Hs.
  set (n := percentage (new_window o)) in *. set (t := percentage (target_window o)) in *. set (c := percentage (current_window o)) in *.
  set (e := percentage (easy_window o)) in *. set (a := percentage (mastered_window o)) in *.
  destruct (fadd_btw a e 0 2 Fa Fe) as [[F1 B1] V1]; [rp|rp|lra|].
  pose proof (close (val a + val e) 2 ltac:(apply Rabs_le; lra)) as C1. rewrite <-V1 in C1. apply Rabs_le_inv in C1.
  set (x1 := fadd a e) in *. clearbody x1.
  destruct (fadd_btw x1 c 0 4 F1 Fc) as [[F2 B2] V2]; [rp|rp|lra|].
  pose proof (close (val x1 + val c) 3 ltac:(apply Rabs_le; lra)) as C2. rewrite <-V2 in C2. apply Rabs_le_inv in C2.
  set (x2 := fadd x1 c) in *. clearbody x2.
  destruct (fadd_btw x2 t 0 5 F2 Ft) as [[F3 B3] V3]; [rp|rp|lra|].
  pose proof (close (val x2 + val t) 5 ltac:(apply Rabs_le; lra)) as C3. rewrite <-V3 in C3. apply Rabs_le_inv in C3.
  set (x3 := fadd x2 t) in *. clearbody x3.
  destruct (fadd_btw x3 n 0 6 F3 Fn) as [[F4 B4] V4]; [rp|rp|lra|].
  pose proof (close (val x3 + val n) 6 ltac:(apply Rabs_le; lra)) as C4. rewrite <-V4 in C4. apply Rabs_le_inv in C4.
  apply Rabs_le. lra.
Qed.
Lemma documented_whole o rate : Rabs (whole (share <$> windows o) - 1) <= / 500000 →
  1 - / 500000 <= whole (documented_shares o rate) ∧ (uncut o (gain rate) → whole (documented_shares o rate) <= 1 + / 500000).
Proof.
  intros H. apply Rabs_le_inv in H. unfold documented_shares. cbv zeta. destruct (Req_EM_T (gain rate) 0) as [Hz|Hnz]; [split; intros; lra|].
  set (g := gain rate) in *. unfold uncut, windows in *. cbn [whole foldr fmap list_fmap] in *. rewrite !Forall_cons.
  set (n := share (new_window o)) in *. set (t := share (target_window o)) in *. set (c := share (current_window o)) in *.
  set (e := share (easy_window o)) in *. set (a := share (mastered_window o)) in *. split.
  - set (n' := kept_between _ _ _). set (t' := kept_between _ _ _). set (e' := kept_between _ _ _). set (a' := kept_between _ _ _).
    pose proof (Rmax_l (1 - (n' + t' + e' + a')) (5 / 100)). lra.
  - intros ((Un & Ut & Ue & Ua & _) & Uc).
    assert (K : ∀ x, 5 / 100 <= x <= 50 / 100 → kept_between (5 / 100) (50 / 100) x = x).
    { intros x Hx. unfold kept_between. rewrite Rmax_left by lra. apply Rmin_left. lra. }
    rewrite !K by assumption. apply Rmax_case; lra.
Qed.
Lemma whole_right o s f : verify_options o = true → Forall proper_share (windows o) → (Z.of_nat (s + f) <= 1000000)%Z →
  let total := whole (share <$> windows (adjusted_mastery_windows o (success_rate (s, f)))) in
  1 - / 100000 <= total ∧ (uncut o (gain (exact_rate s (s + f))) → total <= 1 + / 100000).
Proof.
  intros Hv Hp Hn total. destruct (documented_whole o (exact_rate s (s + f)) (accepted_whole o Hv Hp)) as [L U].
  pose proof (shares_right o s f Hn Hp) as H. pose proof (whole_close _ _ H) as C. fold total in C. apply Forall2_length in H.
  rewrite <-H in C. change (length (windows _)) with 5%nat in C. simpl INR in C. apply Rabs_le_inv in C. split; [lra|].
  intros Hu. specialize (U Hu). lra.
Qed.

(** ** Better sessions *)
Definition shift_val (l : nat) : R :=
  match l with 0%nat => val f_0_05 | 1%nat => 0 | 2%nat => val f_m0_05 | _ => val f_m0_1 end.
Lemma moved_mono x y : x <= y → moved_share x <= moved_share y.
Proof.
  intros H. apply rnd_le in H. unfold moved_share, kept_between, Rmin, Rmax. pose proof val_0_05. repeat destruct (Rle_dec _ _); lra.
Qed.
Lemma moved_same p : fin p → val f_0_05 <= val p <= / 2 → moved_share (val p) = val p.
Proof.
  intros Hf H. unfold moved_share. rewrite rnd_val. unfold kept_between. rewrite Rmax_left by lra. apply Rmin_left. lra.
Qed.
Lemma middling_val w : middling w → fin (percentage w) ∧ val f_0_05 <= val (percentage w) <= / 2.
Proof. intros [H1 H2]. destruct (fle_between (percentage w) f_0_05 f_0_5) as [F V]; try done. by rewrite v_0_5 in V. Qed.
Lemma adjusted_val o s f : (Z.of_nat (s + f) <= 1000000)%Z →
  let o' := adjusted_mastery_windows o (success_rate (s, f)) in let d := shift_val (level s (s + f)) in
  (middling (new_window o) → share (new_window o') = moved_share (share (new_window o) + d)) ∧
  (middling (target_window o) → share (target_window o') = moved_share (share (target_window o) + d)) ∧
  (middling (easy_window o) → share (easy_window o') = moved_share (share (easy_window o) - d)) ∧
  (middling (mastered_window o) → share (mastered_window o') = moved_share (share (mastered_window o) - d)).
Proof.
  intros Hn o' d. unfold o', adjusted_mastery_windows. rewrite (shift_exact s f Hn).
  pose proof val_0_05 as V1. pose proof val_m0_05 as V2. pose proof val_m0_1 as V3.
  assert (G : ∀ sh w, fin sh → - (11 / 100) <= val sh <= 11 / 100 → middling w →
    val (clamp_percentage (fadd (percentage w) sh)) = moved_share (share w + val sh) ∧
    val (clamp_percentage (fsub (percentage w) sh)) = moved_share (share w - val sh)).
  { intros sh w Fs Vs Hw. destruct (middling_val _ Hw) as [F V]. split; [apply moved_add|apply moved_sub]; done || lra. }
  unfold d. destruct (level s (s + f)) as [|[|[|l]]]; cbn [shift_val];
    unfold share at 1 3 5 7; cbn [new_window target_window easy_window mastered_window percentage set_percentage].
  - split_and!; intros Hw; apply G; done || lra.
  - rewrite !Rplus_0_r, !Rminus_0_r.
    split_and!; intros Hw; destruct (middling_val _ Hw) as [F V]; symmetry; by apply moved_same.
  - split_and!; intros Hw; apply G; done || lra.
  - split_and!; intros Hw; apply G; done || lra.
Qed.
Lemma gain_mono r r' : r <= r' → gain r <= gain r'.
Proof. intros H. unfold gain. repeat destruct (Rlt_dec _ _); repeat destruct (Rle_dec _ _); lra. Qed.
Lemma shift_mono s n s' n' : exact_rate s n <= exact_rate s' n' → shift_val (level s n) <= shift_val (level s' n').
Proof.
  intros H. apply gain_mono in H. rewrite !gain_exact in H.
  pose proof val_0_05. pose proof val_m0_05. pose proof val_m0_1.
  destruct (level s n) as [|[|[|l]]], (level s' n') as [|[|[|l']]]; cbn [shift_val]; lra.
Qed.
Lemma harder_right o s f s' f' : Forall middling [new_window o; target_window o; easy_window o; mastered_window o] →
  (Z.of_nat (s + f) <= 1000000)%Z → (Z.of_nat (s' + f') <= 1000000)%Z → exact_rate s (s + f) <= exact_rate s' (s' + f') →
  let before := adjusted_mastery_windows o (success_rate (s, f)) in
  let after := adjusted_mastery_windows o (success_rate (s', f')) in
  share (new_window before) <= share (new_window after) ∧ share (target_window before) <= share (target_window after) ∧
  share (easy_window after) <= share (easy_window before) ∧ share (mastered_window after) <= share (mastered_window before).
Proof.
  rewrite !Forall_cons. intros (Mn & Mt & Me & Ma & _) Hn Hn' Hle before after. apply shift_mono in Hle.
  destruct (adjusted_val o s f Hn) as (A1 & A2 & A3 & A4). destruct (adjusted_val o s' f' Hn') as (B1 & B2 & B3 & B4).
  fold before in A1, A2, A3, A4. fold after in B1, B2, B3, B4.
  rewrite A1, A2, A3, A4, B1, B2, B3, B4 by assumption. split_and!; apply moved_mono; lra.
Qed.
