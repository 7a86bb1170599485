(** Proofs about the size of a batch. *)
From stdpp Require Import gmap strings list.
From Coq Require Import ZArith Reals Lra Lia.
From Flocq Require Import Core.Core IEEE754.BinarySingleNaN.
From Verif Require Import F32 F32Real Graph Options OptionsSpec OptionsProofs Batch BatchSpec KnockProofs SelectProofs.

(** The literals of Batch.v are correctly rounded. *)
Definition quot (a b : Z) : f32 := fdiv (f_of_Z a) (f_of_Z b).
Example batch_literals :
  List.map B2SF [f_0_6; f_0_7; f_10; f_100; f_m0_05; f_m0_1; f_1_8] =
  List.map B2SF [quot 6 10; quot 7 10; quot 10 1; quot 100 1; quot (-5) 100; quot (-1) 10; quot 18 10].
Proof. vm_compute. reflexivity. Qed.

(** A window with a share of [k] twentieths, up to rounding, draws at most that share. *)
Lemma share_bound b w k : (Z.of_nat b <= 1000000)%Z → (k ≤ 10)%nat → fin (percentage w) →
  (0 <= val (percentage w) <= INR k / 20 + / 67108864)%R →
  ∃ n, window_count b w = Some n ∧ (n ≤ Nat.max 1 (b * k / 20))%nat.
Proof.
  intros Hb Hk Hf Hp. unfold window_count.
  set (N := (b * k / 20)%nat) in *.
  destruct (f_of_nat_val b) as [Bf Bv]; [lia|].
  assert (HN : (Z.of_nat N <= 500000)%Z).
  { assert (b * k / 20 ≤ b * 10 / 20)%nat by (apply Nat.div_le_mono; nia).
    assert (b * 10 / 20 * 2 ≤ b)%nat by (pose proof (Nat.mul_div_le (b * 10) 20); lia). unfold N. lia. }
  destruct (float_exists (32 * (Z.of_nat N + 1) - 1) (-5)) as (h & Hh & Vh); [lia|lia|].
  assert (Vh' : val h = (INR N + 1 - / 32)%R).
  { rewrite Vh, minus_IZR, mult_IZR, plus_IZR, <-INR_IZR_INZ. simpl. lra. }
  assert (Hprod : (0 <= val (f_of_nat b) * val (percentage w) <= INR N + 1 - / 32)%R).
  { rewrite Bv. pose proof (pos_INR b) as Hb0. split; [apply Rmult_le_pos; lra|].
    assert (H1 : (INR b * val (percentage w) <= INR b * (INR k / 20) + INR b * / 67108864)%R).
    { rewrite <-Rmult_plus_distr_l. apply Rmult_le_compat_l; lra. }
    assert (H2 : (INR b <= 1000000)%R) by (rewrite INR_IZR_INZ; now apply IZR_le).
    assert (H3 : (INR (b * k) < 20 * INR N + 20)%R).
    { replace (20 * INR N + 20)%R with (INR (20 * N + 20)) by (rewrite plus_INR, mult_INR; simpl; lra).
      apply lt_INR. unfold N. pose proof (Nat.mul_succ_div_gt (b * k) 20). lia. }
    assert (H3' : (INR (b * k) <= 20 * INR N + 19)%R).
    { replace (20 * INR N + 19)%R with (INR (20 * N + 19)) by (rewrite plus_INR, mult_INR; simpl; lra).
      apply le_INR. unfold N. pose proof (Nat.mul_succ_div_gt (b * k) 20). lia. }
    rewrite mult_INR in H3'. lra. }
  destruct (fmul_between (f_of_nat b) (percentage w) fzero h) as (Xf & _ & Xv); try done.
  { rewrite val_fzero, Vh'. exact Hprod. }
  rewrite val_fzero, Vh' in Xv.
  destruct (fmax_val (fmul (f_of_nat b) (percentage w)) f_1 Xf) as [Mf Mv]; [done|].
  rewrite val_f_1 in Mv.
  assert (M0 : (0 <= val (fmax (fmul (f_of_nat b) (percentage w)) f_1))%R).
  { rewrite Mv. apply Rle_trans with 1%R; [lra|apply Rmax_r]. }
  eexists. split; [by apply f_to_usize_val|].
  eapply f_to_usize_below; [exact Mf|exact M0| |by apply f_to_usize_val].
  - rewrite Mv, S_INR. apply Rmax_case_strong; intros.
    + apply Rle_lt_trans with (INR N + 1 - / 32)%R; [lra|].
      assert (INR N <= INR (Nat.max 1 N))%R by (apply le_INR; lia). lra.
    + assert (INR 1 <= INR (Nat.max 1 N))%R by (apply le_INR; lia). simpl (INR 1) in *. lra.
Qed.

(** The percentages of the windows, whatever the success rate, in twentieths. *)
Definition shares : list (list nat) :=
  [[2; 4; 6; 4; 4]; [1; 3; 6; 5; 5]; [3; 5; 6; 3; 3]; [4; 6; 6; 2; 2]]%nat.
Definition near_share (w : window) (k : nat) : Prop :=
  fin (percentage w) ∧ (0 <= val (percentage w) <= INR k / 20 + / 67108864)%R.

Lemma share_check (m : positive) (e : Z) H lo hi k :
  (0 <= IZR (Zpos m) * bpow radix2 e <= INR k / 20 + / 67108864)%R →
  near_share (Window (lit false m e H) lo hi) k.
Proof. intros Hb. split; [done|]. cbn [percentage]. rewrite lit_val. exact Hb. Qed.

Lemma B2SF_lit (x : f32) m e H : B2SF x = SpecFloat.S754_finite false m e → x = lit false m e H.
Proof. intros E. apply B2SF_inj. rewrite E. done. Qed.

Lemma window_shift_cases rate : window_shift rate = None ∨ window_shift rate = Some f_0_05 ∨
  window_shift rate = Some f_m0_05 ∨ window_shift rate = Some f_m0_1.
Proof. unfold window_shift. repeat case_match; auto. Qed.

Ltac share_window m e := 
  split; [vm_compute; reflexivity|];
  match goal with |- context [val ?p] => replace p with (lit false m e eq_refl) by (symmetry; apply B2SF_lit; vm_compute; reflexivity) end;
  rewrite lit_val; simpl; lra.

Lemma default_shares b rate : ∃ ks, ks ∈ shares ∧
  Forall2 near_share (five_windows (adjusted_mastery_windows (set_batch_size b default_options) rate)) ks.
Proof.
  unfold adjusted_mastery_windows.
  destruct (window_shift_cases rate) as [-> | [-> | [-> | ->]]].
  - exists [2; 4; 6; 4; 4]%nat. split; [left|]. unfold five_windows.
    cbn [mastered_window easy_window current_window target_window new_window set_batch_size].
    constructor; [share_window 13421773%positive (-27)%Z|].
    constructor; [share_window 13421773%positive (-26)%Z|].
    constructor; [share_window 10066330%positive (-25)%Z|].
    constructor; [share_window 13421773%positive (-26)%Z|].
    constructor; [share_window 13421773%positive (-26)%Z|].
    constructor.
  - exists [1; 3; 6; 5; 5]%nat. split; [right; left|]. unfold five_windows.
    cbn [mastered_window easy_window current_window target_window new_window set_batch_size].
    constructor; [share_window 13421773%positive (-28)%Z|].
    constructor; [share_window 10066330%positive (-26)%Z|].
    constructor; [share_window 10066330%positive (-25)%Z|].
    constructor; [share_window 8388608%positive (-25)%Z|].
    constructor; [share_window 8388608%positive (-25)%Z|].
    constructor.
  - exists [3; 5; 6; 3; 3]%nat. split; [do 2 right; left|]. unfold five_windows.
    cbn [mastered_window easy_window current_window target_window new_window set_batch_size].
    constructor; [share_window 10066330%positive (-26)%Z|].
    constructor; [share_window 8388608%positive (-25)%Z|].
    constructor; [share_window 10066328%positive (-25)%Z|].
    constructor; [share_window 10066330%positive (-26)%Z|].
    constructor; [share_window 10066330%positive (-26)%Z|].
    constructor.
  - exists [4; 6; 6; 2; 2]%nat. split; [do 3 right; left|]. unfold five_windows.
    cbn [mastered_window easy_window current_window target_window new_window set_batch_size].
    constructor; [share_window 13421773%positive (-26)%Z|].
    constructor; [share_window 10066330%positive (-25)%Z|].
    constructor; [share_window 10066330%positive (-25)%Z|].
    constructor; [share_window 13421773%positive (-27)%Z|].
    constructor; [share_window 13421773%positive (-27)%Z|].
    constructor.
Qed.

Lemma shares_total ks b : ks ∈ shares → sum_list_with (λ k, Nat.max 1 (b * k / 20)) ks ≤ Nat.max 5 b.
Proof.
  intros Hks. destruct (decide (b < 20)) as [Hlt|Hge].
  - assert (Hc : forallb (λ ks, forallb (λ b, Nat.leb (sum_list_with (λ k, Nat.max 1 (b * k / 20)) ks) (Nat.max 5 b))
      (seq 0 20)) shares = true) by (vm_compute; reflexivity).
    rewrite forallb_forall in Hc. specialize (Hc ks). apply elem_of_list_In in Hks. specialize (Hc Hks).
    rewrite forallb_forall in Hc. apply Nat.leb_le, Hc. apply in_seq. lia.
  - unfold shares in Hks. rewrite !elem_of_cons in Hks.
    assert (E : ∀ k, b * k / 20 * 20 ≤ b * k) by (intros k; pose proof (Nat.mul_div_le (b * k) 20); lia).
    assert (F : ∀ k, 1 ≤ k → 1 ≤ b * k / 20).
    { intros k Hk. apply Nat.div_le_lower_bound; nia. }
    destruct Hks as [-> | [-> | [-> | [-> | Hks]]]]; [..|set_solver]; cbn [sum_list_with];
      pose proof (E 1); pose proof (E 2); pose proof (E 3); pose proof (E 4); pose proof (E 5); pose proof (E 6);
      pose proof (F 1 ltac:(lia)); pose proof (F 2 ltac:(lia)); pose proof (F 3 ltac:(lia));
      pose proof (F 4 ltac:(lia)); pose proof (F 5 ltac:(lia)); pose proof (F 6 ltac:(lia)); lia.
Qed.

Lemma drawn_share b cs w k : (Z.of_nat b <= 1000000)%Z → near_share w k → k ≤ 10 →
  drawn b (cs, w) ≤ Nat.max 1 (b * k / 20).
Proof.
  intros Hb [Hf Hv] Hk. unfold drawn. cbn [fst snd].
  destruct (share_bound b w k Hb Hk Hf Hv) as (n & -> & Hn). lia.
Qed.
Lemma drawn_shares b o k ks : (Z.of_nat b <= 1000000)%Z → Forall2 near_share (five_windows o) ks →
  Forall (λ k, k ≤ 10) ks → sum_list_with (drawn b) (pool o k) ≤ sum_list_with (λ k, Nat.max 1 (b * k / 20)) ks.
Proof.
  intros Hb Hks Hle.
  assert (Hw : (pool o k).*2 = five_windows o) by done. rewrite <-Hw in Hks. clear Hw.
  remember (pool o k) as ps eqn:E. clear E. revert ks Hks Hle.
  induction ps as [|[cs w] ps IH]; intros ks Hks Hle; inversion Hks; subst; [done|].
  apply Forall_cons in Hle as [Hk Hle]. cbn [sum_list_with].
  pose proof (drawn_share b cs w _ Hb H1 Hk). pose proof (IH _ H3 Hle). lia.
Qed.
Lemma shares_small ks : ks ∈ shares → Forall (λ k, k ≤ 10) ks.
Proof. unfold shares. rewrite !elem_of_cons. intros [-> | [-> | [-> | [-> | H]]]]; [repeat constructor; lia..|set_solver]. Qed.
Lemma drawn_default bs b rate k : (Z.of_nat b <= 1000000)%Z →
  sum_list_with (drawn b) (pool (adjusted_mastery_windows (set_batch_size bs default_options) rate) k) ≤ Nat.max 5 b.
Proof.
  intros Hb. destruct (default_shares bs rate) as (ks & Hks & Hf).
  etrans; [by apply drawn_shares; [|exact Hf|apply shares_small]|]. by apply shares_total.
Qed.

Lemma dynamic_le b n : dynamic_batch_size b n ≤ b.
Proof.
  unfold dynamic_batch_size. destruct (Nat.ltb_spec b 10); [done|]. destruct (Nat.ltb_spec n (b * 3)); [|done].
  assert (n / 3 < b) by (apply Nat.div_lt_upper_bound; lia). lia.
Qed.
Lemma adjusted_batch_size o rate : batch_size (adjusted_mastery_windows o rate) = batch_size o.
Proof. unfold adjusted_mastery_windows. by destruct (window_shift rate). Qed.

(** What the filter returns for the default windows, whatever the batch size. *)
Lemma filter_default_size m r b rate k final : choices_ok r → (Z.of_nat b <= 1000000)%Z →
  filter_candidates m r (set_batch_size b default_options) rate k = Some final → length final ≤ Nat.max 5 b.
Proof.
  intros Hr Hb. destruct (filter_spec m r (set_batch_size b default_options) rate k Hr) as (f & -> & _ & Hl & _).
  intros [= <-]. rewrite adjusted_batch_size in Hl. cbn [batch_size set_batch_size] in Hl.
  pose proof (dynamic_le b (length (ko_candidates k))) as Hd.
  etrans; [exact Hl|]. apply Nat.max_lub; [lia|]. etrans; [apply drawn_default; lia|]. lia.
Qed.

(** The default share of the relearn pile is a tenth. *)
Lemma relearn_default b : (Z.of_nat b <= 1000000)%Z →
  ∃ n, relearn_count (set_batch_size b default_options) = Some n ∧ n ≤ b / 10.
Proof.
  intros Hb. unfold relearn_count. cbn [batch_size set_batch_size relearn_fraction default_options].
  set (N := (b / 10)%nat) in *.
  destruct (f_of_nat_val b) as [Bf Bv]; [lia|].
  assert (HN : (Z.of_nat N <= 100000)%Z).
  { assert (b / 10 * 10 ≤ b)%nat by (pose proof (Nat.mul_div_le b 10); lia). unfold N. lia. }
  destruct (float_exists (32 * (Z.of_nat N + 1) - 1) (-5)) as (h & Hh & Vh); [lia|lia|].
  assert (Vh' : val h = (INR N + 1 - / 32)%R).
  { rewrite Vh, minus_IZR, mult_IZR, plus_IZR, <-INR_IZR_INZ. simpl. lra. }
  assert (Hp : near_share (Window f_0_1 fzero fzero) 2).
  { share_window 13421773%positive (-27)%Z. }
  destruct Hp as [Pf Pv]. cbn [percentage] in Pf, Pv.
  assert (Hprod : (0 <= val (f_of_nat b) * val f_0_1 <= INR N + 1 - / 32)%R).
  { rewrite Bv. pose proof (pos_INR b) as Hb0. split; [apply Rmult_le_pos; lra|].
    assert (H1 : (INR b * val f_0_1 <= INR b * (INR 2 / 20) + INR b * / 67108864)%R).
    { rewrite <-Rmult_plus_distr_l. apply Rmult_le_compat_l; lra. }
    assert (H2 : (INR b <= 1000000)%R) by (rewrite INR_IZR_INZ; now apply IZR_le).
    assert (H3' : (INR b <= 10 * INR N + 9)%R).
    { replace (10 * INR N + 9)%R with (INR (10 * N + 9)) by (rewrite plus_INR, mult_INR; simpl; lra).
      apply le_INR. unfold N. pose proof (Nat.mul_succ_div_gt b 10). lia. }
    simpl (INR 2) in H1. lra. }
  destruct (fmul_between (f_of_nat b) f_0_1 fzero h) as (Xf & _ & Xv); try done.
  { rewrite val_fzero, Vh'. exact Hprod. }
  rewrite val_fzero, Vh' in Xv.
  eexists. split; [apply f_to_usize_val; [exact Xf|lra]|].
  eapply f_to_usize_below; [exact Xf|lra| |apply f_to_usize_val; [exact Xf|lra]].
  rewrite S_INR. lra.
Qed.
