(** Proofs about the number of exercises of each window, and examples. *)
From stdpp Require Import gmap strings list.
From Coq Require Import ZArith Reals Lra Lia.
From Flocq Require Import Core.Core IEEE754.BinarySingleNaN.
From Verif Require Import F32 F32Real F32More Graph Options OptionsSpec OptionsProofs Batch BatchSpec KnockProofs SelectProofs SizeProofs ScorerProofs
  CurveProofs MemoryExact Session FinishProofs BatchSample MixSpec MixProofs MixShares.

(** ** Counts *)
Lemma product_val b w : (Z.of_nat b <= 1000000)%Z → fin (percentage w) → (0 <= share w <= 1)%R →
  let x := fmax (fmul (f_of_nat b) (percentage w)) f_1 in
  fin x ∧ val x = Rmax (rnd (INR b * share w)) 1 ∧ window_count b w = Some (Z.to_nat (Zfloor (val x))) ∧ (0 <= INR b * share w <= 1000000)%R.
Proof.
  intros Hb Hf Hp x. destruct (f_of_nat_val b) as [Bf Bv]; [lia|].
  assert (H2 : (INR b <= 1000000)%R) by (rewrite INR_IZR_INZ; now apply IZR_le). pose proof (pos_INR b).
  assert (B : (0 <= INR b * share w <= 1000000)%R).
  { split; [apply Rmult_le_pos; lra|]. replace 1000000%R with (1000000 * 1)%R by lra. apply Rmult_le_compat; lra. }
  destruct (fmul_btw (f_of_nat b) (percentage w) 0 1000000 Bf Hf) as [[Xf _] Xv]; [rp|rp|rewrite Bv; exact B|].
  destruct (fmax_val (fmul (f_of_nat b) (percentage w)) f_1 Xf) as [Mf Mv]; [done|]. fold x in Mf, Mv.
  rewrite Xv, Bv, v_1 in Mv. fold (share w) in Mv. split_and!; try lra; try done.
  unfold window_count. fold x. apply f_to_usize_val; [done|]. rewrite Mv. apply Rle_trans with 1%R; [lra|apply Rmax_r].
Qed.
Lemma count_right b w : (Z.of_nat b <= 1000000)%Z → proper_share w → ∃ q, window_count b w = Some q ∧
  (Rmax 1 (INR b * share w) - 1 - / 16 < INR q <= Rmax 1 (INR b * share w) + / 16)%R.
Proof.
  intros Hb [Hf Hp]. destruct (product_val b w Hb Hf Hp) as (_ & Mv & -> & B). eexists. split; [reflexivity|].
  set (x := val _) in *. assert (H1 : (1 <= x)%R) by (rewrite Mv; apply Rmax_r).
  pose proof (close (INR b * share w) 1000000 ltac:(apply Rabs_le; lra)) as C. apply Rabs_le_inv in C.
  assert (Hz : (0 <= Zfloor x)%Z) by (apply Zfloor_lub; simpl; lra).
  rewrite (INR_IZR_INZ (Z.to_nat _)), Z2Nat.id by done. pose proof (Zfloor_lb x). pose proof (Zfloor_ub x).
  assert (Rabs (x - Rmax 1 (INR b * share w)) <= / 16)%R as D; [|apply Rabs_le_inv in D; lra].
  rewrite Mv. apply Rabs_le. unfold Rmax. repeat destruct (Rle_dec _ _); lra.
Qed.
Lemma count_at_least b w k : (Z.of_nat b <= 1000000)%Z → fin (percentage w) → (0 <= share w <= 1)%R → (Z.of_nat k <= 1000000)%Z →
  (INR k <= INR b * share w)%R → ∃ q, window_count b w = Some q ∧ Nat.max 1 k ≤ q.
Proof.
  intros Hb Hf Hp Hk H. destruct (product_val b w Hb Hf Hp) as (_ & Mv & -> & B). eexists. split; [reflexivity|].
  assert (1 <= Zfloor (val (fmax (fmul (f_of_nat b) (percentage w)) f_1)))%Z.
  { apply Zfloor_lub. rewrite Mv. simpl. apply Rmax_r. }
  assert (Z.of_nat k <= Zfloor (val (fmax (fmul (f_of_nat b) (percentage w)) f_1)))%Z; [|lia].
  apply Zfloor_lub. rewrite Mv, <-INR_IZR_INZ. eapply Rle_trans; [|apply Rmax_l].
  apply rnd_ge; [|done]. rewrite INR_IZR_INZ. apply repr_Z. lia.
Qed.

Lemma twentieth_exact b w k : (Z.of_nat b <= 1000000)%Z → k ≤ 10 → fin (percentage w) →
  (INR k / 20 <= share w <= INR k / 20 + / 67108864)%R → window_count b w = Some (Nat.max 1 (b * k / 20)).
Proof.
  intros Hb Hk Hf Hs. pose proof (pos_INR k).
  assert (INR k <= 10)%R by (replace 10%R with (INR 10) by (simpl; lra); by apply le_INR).
  destruct (share_bound b w k Hb Hk Hf) as (q & Eq & Hq); [unfold share in Hs; lra|].
  destruct (count_at_least b w (b * k / 20) Hb Hf) as (q' & Eq' & Hq'); [lra| | |].
  - assert (b * k / 20 ≤ b) by (apply Nat.div_le_upper_bound; nia). lia.
  - pose proof (Nat.mul_div_le (b * k) 20) as M. assert (M' : 20 * (b * k / 20) ≤ b * k) by lia.
    apply le_INR in M'. rewrite !mult_INR in M'. replace (INR 20) with 20%R in M' by (simpl; lra). pose proof (pos_INR b).
    assert (INR b * (INR k / 20) <= INR b * share w)%R by (apply Rmult_le_compat_l; lra). lra.
  - rewrite Eq in *. injection Eq' as <-. f_equal. lia.
Qed.

(** The current window after a session of middling success is a little too small. *)
Definition low_current : f32 := lit false 10066328 (-25) eq_refl.
Lemma low_current_val : val low_current = (10066328 / 33554432)%R.
Proof. unfold low_current. rewrite lit_val. simpl. lra. Qed.
Lemma low_count b lo hi : (Z.of_nat b <= 1000000)%Z → b mod 10 ≠ 0 →
  window_count b (Window low_current lo hi) = Some (Nat.max 1 (b * 6 / 20)).
Proof.
  intros Hb Hm. set (w := Window low_current lo hi).
  assert (Hv : share w = (10066328 / 33554432)%R) by apply low_current_val.
  destruct (share_bound b w 6 Hb ltac:(lia)) as (q & Eq & Hq); [done|fold (share w); rewrite Hv; simpl; lra|].
  destruct (count_at_least b w (b * 6 / 20) Hb) as (q' & Eq' & Hq'); [done|rewrite Hv; lra| | |].
  - assert (b * 6 / 20 ≤ b) by (apply Nat.div_le_upper_bound; lia). lia.
  - assert (M : 20 * (b * 6 / 20) + 2 ≤ b * 6).
    { pose proof (Nat.div_mod_eq (b * 6) 20) as D. pose proof (Nat.div_mod_eq b 10) as D'. pose proof (Nat.mod_upper_bound (b * 6) 20). pose proof (Nat.mod_upper_bound b 10).
      generalize dependent (b mod 10). intros v. generalize dependent (b * 6 / 20). intros a. generalize dependent (b * 6 `mod` 20). intros x. generalize dependent (b / 10). intros u. lia. }
    apply le_INR in M. rewrite plus_INR, !mult_INR in M. replace (INR 20) with 20%R in M by (simpl; lra).
    replace (INR 6) with 6%R in M by (simpl; lra). replace (INR 2) with 2%R in M by (simpl; lra).
    assert (INR b <= 1000000)%R by (rewrite INR_IZR_INZ; now apply IZR_le). rewrite Hv. lra.
  - rewrite Eq in *. injection Eq' as <-. f_equal. lia.
Qed.
Lemma one_short c lo hi : 1 ≤ c → (Z.of_nat (10 * c) <= 1000000)%Z →
  window_count (10 * c) (Window low_current lo hi) = Some (3 * c - 1).
Proof.
  intros Hc Hb. set (w := Window low_current lo hi). set (b := 10 * c) in *.
  assert (Hv : share w = (10066328 / 33554432)%R) by apply low_current_val.
  assert (Pc : (1 <= INR c)%R) by (replace 1%R with (INR 1) by done; by apply le_INR).
  assert (Eb : INR b = (10 * INR c)%R) by (unfold b; rewrite mult_INR; simpl; lra).
  assert (INR b <= 1000000)%R by (rewrite INR_IZR_INZ; now apply IZR_le).
  destruct (count_at_least b w (3 * c - 1) Hb) as (q' & Eq' & Hq'); [done|rewrite Hv; lra|lia| |].
  { rewrite minus_INR, mult_INR by lia. replace (INR 3) with 3%R by (simpl; lra). change (INR 1) with 1%R. rewrite Hv, Eb. lra. }
  destruct (product_val b w Hb) as (Mf & Mv & Eq & B); [done|rewrite Hv; lra|].
  rewrite Eq in Eq' |- *. injection Eq' as <-. f_equal. apply Nat.le_antisymm; [|etrans; [apply Nat.le_max_r|exact Hq']].
  eapply (f_to_usize_below _ (3 * c - 1)); [exact Mf| | |exact Eq].
  - rewrite Mv. apply Rle_trans with 1%R; [lra|apply Rmax_r].
  - replace (S (3 * c - 1)) with (3 * c) by lia. rewrite mult_INR. replace (INR 3) with 3%R by (simpl; lra).
    rewrite Mv. apply Rmax_lub_lt; [|lra].
    pose proof (rel (INR b * share w)) as E. assert (L : (/ 1099511627776 <= INR b * share w)%R) by (rewrite Hv, Eb; lra).
    specialize (E L). apply Rabs_le_inv in E. rewrite Hv, Eb in *. lra.
Qed.

(** ** The default windows *)
Definition exact_share (w : window) (k : nat) : Prop :=
  fin (percentage w) ∧ (INR k / 20 <= share w <= INR k / 20 + / 67108864)%R.
Ltac exact_window m e :=
  split; [vm_compute; reflexivity|]; unfold share;
  match goal with |- context [val ?p] => replace p with (lit false m e eq_refl) by (symmetry; apply B2SF_lit; vm_compute; reflexivity) end;
  rewrite lit_val; simpl; lra.
Lemma counts_exact b ws ks : (Z.of_nat b <= 1000000)%Z → Forall (λ k, k ≤ 10) ks → Forall2 exact_share ws ks →
  window_count b <$> ws = (λ k, Some (Nat.max 1 (b * k / 20))) <$> ks.
Proof.
  intros Hb Hk H. induction H as [|w k ws ks [Hf Hs] H IH]; [done|]. apply Forall_cons in Hk as [Hk1 Hk].
  cbn [fmap list_fmap]. f_equal; [by apply twentieth_exact|by apply IH].
Qed.
Lemma default_counts b0 b s f : (Z.of_nat b <= 1000000)%Z → (Z.of_nat (s + f) <= 1000000)%Z →
  (s + f ≤ 2 * s → 4 * s < 3 * (s + f) → b mod 10 ≠ 0) →
  window_count b <$> windows (adjusted_mastery_windows (set_batch_size b0 default_options) (success_rate (s, f))) =
  (λ k, Some (Nat.max 1 (b * k / 20))) <$> default_twentieths s (s + f).
Proof.
  intros Hb Hn Hm. unfold adjusted_mastery_windows. rewrite (shift_exact s f Hn).
  unfold level, default_twentieths in *.
  destruct (decide (s + f = 0 ∨ 9 * (s + f) < 10 * s)) as [D|D].
  { apply counts_exact; [done|repeat (apply Forall_cons_2; [lia|]); apply Forall_nil_2|]. unfold windows.
    cbn [mastered_window easy_window current_window target_window new_window set_batch_size].
    constructor; [exact_window 8388608%positive (-25)%Z|]. constructor; [exact_window 8388608%positive (-25)%Z|].
    constructor; [exact_window 10066330%positive (-25)%Z|]. constructor; [exact_window 10066330%positive (-26)%Z|].
    constructor; [exact_window 13421773%positive (-28)%Z|]. constructor. }
  destruct (decide (3 * (s + f) ≤ 4 * s)) as [D7|D7].
  { apply counts_exact; [done|repeat (apply Forall_cons_2; [lia|]); apply Forall_nil_2|]. unfold windows.
    cbn [mastered_window easy_window current_window target_window new_window set_batch_size].
    constructor; [exact_window 13421773%positive (-26)%Z|]. constructor; [exact_window 13421773%positive (-26)%Z|].
    constructor; [exact_window 10066330%positive (-25)%Z|]. constructor; [exact_window 13421773%positive (-26)%Z|].
    constructor; [exact_window 13421773%positive (-27)%Z|]. constructor. }
  destruct (decide (s + f ≤ 2 * s)) as [D5|D5].
  { specialize (Hm D5 ltac:(lia)). unfold windows.
    cbn [mastered_window easy_window current_window target_window new_window set_batch_size fmap list_fmap].
    assert (G : ∀ w k, k ≤ 10 → exact_share w k → window_count b w = Some (Nat.max 1 (b * k / 20))).
    { intros w k Hk [Hf Hs]. by apply twentieth_exact. }
    f_equal; [apply G; [lia|exact_window 10066330%positive (-26)%Z]|].
    f_equal; [apply G; [lia|exact_window 10066330%positive (-26)%Z]|].
    f_equal; [|f_equal; [apply G; [lia|exact_window 8388608%positive (-25)%Z]|f_equal; apply G; [lia|exact_window 10066330%positive (-26)%Z]]].
    match goal with |- window_count b ?w = _ => replace w with (Window low_current (range_lo w) (range_hi w)) end; [by apply low_count|].
    unfold set_percentage. cbn [range_lo range_hi]. f_equal. symmetry. apply B2SF_lit. vm_compute. reflexivity. }
  { apply counts_exact; [done|repeat (apply Forall_cons_2; [lia|]); apply Forall_nil_2|]. unfold windows.
    cbn [mastered_window easy_window current_window target_window new_window set_batch_size].
    constructor; [exact_window 13421773%positive (-27)%Z|]. constructor; [exact_window 13421773%positive (-27)%Z|].
    constructor; [exact_window 10066330%positive (-25)%Z|]. constructor; [exact_window 10066330%positive (-25)%Z|].
    constructor; [exact_window 13421773%positive (-26)%Z|]. constructor. }
Qed.
Lemma default_short b0 c s f : 1 ≤ c → (Z.of_nat (10 * c) <= 1000000)%Z → (Z.of_nat (s + f) <= 1000000)%Z →
  s + f ≤ 2 * s → 4 * s < 3 * (s + f) →
  window_count (10 * c) (current_window (adjusted_mastery_windows (set_batch_size b0 default_options) (success_rate (s, f)))) = Some (3 * c - 1).
Proof.
  intros Hc Hb Hn H5 H7. unfold adjusted_mastery_windows. rewrite (shift_exact s f Hn). unfold level.
  rewrite decide_False by lia. rewrite decide_False by lia. rewrite decide_True by lia.
  cbn [current_window set_batch_size].
  match goal with |- window_count _ ?w = _ => replace w with (Window low_current (range_lo w) (range_hi w)) end; [by apply one_short|].
  unfold set_percentage. cbn [range_lo range_hi]. f_equal. symmetry. apply B2SF_lit. vm_compute. reflexivity.
Qed.
(** For the default options with a batch size of 50 and 3 successes in 5 trials. *)
Lemma quota_short : ∃ b s f, verify_options (create_scheduler_options (Some b)) = true ∧
  window_count b <$> windows (adjusted_mastery_windows (create_scheduler_options (Some b)) (success_rate (s, f))) ≠
  (λ k, Some (Nat.max 1 (b * k / 20))) <$> default_twentieths s (s + f).
Proof.
  exists 50, 3, 2. split; [vm_compute; reflexivity|]. intros H.
  change (create_scheduler_options (Some 50)) with (set_batch_size 50 default_options) in H.
  pose proof (default_short 50 5 3 2 ltac:(lia) ltac:(lia) ltac:(lia) ltac:(lia) ltac:(lia)) as E.
  change (10 * 5) with 50 in E.
  set (o := adjusted_mastery_windows _ _) in *. clearbody o.
  apply (f_equal (λ l, l !! 2)) in H. rewrite !list_lookup_fmap in H.
  change (windows o !! 2) with (Some (current_window o)) in H.
  change (default_twentieths 3 (3 + 2) !! 2) with (Some 6) in H. cbn [fmap option_fmap option_map] in H.
  rewrite E in H. vm_compute in H. discriminate.
Qed.

(** ** Options with extreme shares *)
Definition sixteenths (k : Z) : f32 := fdiv (f_of_Z k) (f_of_Z 16).
Definition shares_of (n t c e a : Z) : scheduler_options :=
  let d := default_options in
  {| batch_size := batch_size d; relearn_fraction := relearn_fraction d;
     new_window := set_percentage (sixteenths n) (new_window d);
     target_window := set_percentage (sixteenths t) (target_window d);
     current_window := set_percentage (sixteenths c) (current_window d);
     easy_window := set_percentage (sixteenths e) (easy_window d);
     mastered_window := set_percentage (sixteenths a) (mastered_window d);
     passing_score := passing_score d; superseding_score := superseding_score d; num_trials := num_trials d;
     num_deltas := num_deltas d; num_rewards := num_rewards d; max_lessons_in_progress := max_lessons_in_progress d |}.
Lemma sixteenths_val k : (0 <= k <= 16)%Z → fin (sixteenths k) ∧ val (sixteenths k) = (IZR k / 16)%R.
Proof.
  intros Hk. unfold sixteenths. destruct (f_of_Z_val k) as [Fk Vk]; [lia|]. destruct (f_of_Z_val 16) as [F V]; [lia|].
  assert (0 <= IZR k <= 16)%R by (split; apply IZR_le; lia).
  destruct (fdiv_btw (f_of_Z k) (f_of_Z 16) 0 1 Fk F) as [[Ff _] E]; [rewrite V; lra|rp|rp|rewrite Vk, V; lra|].
  split; [done|]. rewrite E, Vk, V. apply rnd_repr. apply (repr_frac k (-4)); [lia|lia|]. simpl. lra.
Qed.
Lemma shares_of_proper n t c e a : Forall (λ k, 0 <= k <= 16)%Z [n; t; c; e; a] → Forall proper_share (windows (shares_of n t c e a)).
Proof.
  rewrite !Forall_cons. intros (Hn & Ht & Hc & He & Ha & _). unfold windows, shares_of.
  assert (G : ∀ k lo hi, (0 <= k <= 16)%Z → proper_share (set_percentage (sixteenths k) (Window fzero lo hi))).
  { intros k lo hi Hk. destruct (sixteenths_val k Hk) as [F V]. split; [done|]. unfold share, set_percentage. cbn [percentage]. rewrite V.
    assert (0 <= IZR k <= 16)%R by (split; apply IZR_le; lia). lra. }
  repeat (apply Forall_cons_2; [by apply G|]). apply Forall_nil_2.
Qed.
Lemma more_than_whole : ∃ o s f, verify_options o = true ∧ Forall proper_share (windows o) ∧
  (11 / 10 < whole (share <$> windows (adjusted_mastery_windows o (success_rate (s, f)))))%R.
Proof.
  exists (shares_of 8 7 1 0 0), 1, 0. split; [vm_compute; reflexivity|].
  assert (Hp : Forall proper_share (windows (shares_of 8 7 1 0 0))) by (apply shares_of_proper; repeat (apply Forall_cons_2; [lia|]); apply Forall_nil_2).
  split; [done|]. pose proof (shares_right (shares_of 8 7 1 0 0) 1 0 ltac:(lia) Hp) as H.
  apply whole_close in H. apply Rabs_le_inv in H.
  assert (D : (113 / 100 <= whole (documented_shares (shares_of 8 7 1 0 0) (exact_rate 1 (1 + 0))) ∧
    length (documented_shares (shares_of 8 7 1 0 0) (exact_rate 1 (1 + 0))) = 5%nat)%R).
  { assert (G : gain (exact_rate 1 (1 + 0)) = (5 / 100)%R) by (rewrite gain_exact; done).
    unfold documented_shares. rewrite G. cbv zeta. destruct (Req_EM_T (5 / 100) 0) as [E|_]; [lra|]. split; [|done].
    cbn [whole foldr]. unfold share. cbn [shares_of new_window target_window easy_window mastered_window set_percentage percentage].
    destruct (sixteenths_val 8) as [_ ->]; [lia|]. destruct (sixteenths_val 7) as [_ ->]; [lia|]. destruct (sixteenths_val 0) as [_ ->]; [lia|].
    unfold kept_between, Rmin, Rmax. repeat destruct (Rle_dec _ _); lra. }
  destruct D as [D1 D2]. rewrite D2 in H. simpl INR in H. lra.
Qed.
Lemma better_but_fewer : ∃ o s f s' f', verify_options o = true ∧ Forall proper_share (windows o) ∧
  (exact_rate s (s + f) <= exact_rate s' (s' + f'))%R ∧
  (share (new_window (adjusted_mastery_windows o (success_rate (s', f')))) <
   share (new_window (adjusted_mastery_windows o (success_rate (s, f)))))%R.
Proof.
  exists (shares_of 10 2 2 1 1), 4, 1, 1, 0. split; [vm_compute; reflexivity|].
  split; [apply shares_of_proper; repeat (apply Forall_cons_2; [lia|]); apply Forall_nil_2|].
  split; [unfold exact_rate; simpl; lra|]. unfold share. apply flt_true; vm_compute; reflexivity.
Qed.
Lemma default_shares_fine b : let o := create_scheduler_options b in Forall proper_share (windows o) ∧
  Forall middling [new_window o; target_window o; easy_window o; mastered_window o] ∧ ∀ rate, uncut o (gain rate).
Proof.
  assert (V1 : (10 / 100 <= val f_0_1 <= 11 / 100)%R) by (unfold f_0_1; litv).
  assert (V2 : (20 / 100 <= val f_0_2 <= 21 / 100)%R) by (unfold f_0_2; litv).
  assert (V3 : (30 / 100 <= val f_0_3 <= 31 / 100)%R) by (unfold f_0_3; litv).
  assert (H : let o := default_options in Forall proper_share (windows o) ∧
    Forall middling [new_window o; target_window o; easy_window o; mastered_window o] ∧ ∀ rate, uncut o (gain rate)).
  2: { destruct b as [b|]; exact H. }
  intros o. split_and!.
  - unfold windows, o. repeat (apply Forall_cons_2; [split; [done|unfold share; cbn [default_options new_window target_window current_window easy_window mastered_window percentage]; lra]|]). apply Forall_nil_2.
  - repeat (apply Forall_cons_2; [split; vm_compute; reflexivity|]). apply Forall_nil_2.
  - intros rate. unfold uncut, o, share. cbn [default_options new_window target_window current_window easy_window mastered_window percentage].
    assert (- (10 / 100) <= gain rate <= 5 / 100)%R.
    { unfold gain. repeat destruct (Rlt_dec _ _); repeat destruct (Rle_dec _ _); lra. }
    split; [|lra]. repeat (apply Forall_cons_2; [lra|]). apply Forall_nil_2.
Qed.

(** Forty candidates for a batch of ten: as many new exercises as can be, and the share of the target
    window. *)
Definition many (prefix : string) (s : f32) : list candidate :=
  (λ i, scored (prefix ++ pretty.pretty (N.of_nat i)) "L" "C" s) <$> seq 0 20.
Definition forty : list candidate := many "n" fzero ++ many "t" f_1.
Definition ten : option_copies := same_options (create_scheduler_options (Some 10)).
Lemma forty_example : NoDup (exercise_id <$> forty) ∧
  (∀ c, c ∈ forty → length (windows_of (oc_filter ten) (exercise_score c)) ≤ 1) ∧
  (k ← knock_out_reviews no_edges (r_units first_choices) forty;
   batch ← finish_candidates no_libm first_choices no_edges ten f_1 ∅ forty;
   Some (length batch, (λ kd, taken batch (available (oc_filter ten) k kd)) <$> [KNew; KTarget; KCurrent; KEasy; KMastered])) =
  Some (9, [7; 2; 0; 0; 0]).
Proof.
  split; [apply (bool_decide_unpack _); vm_compute; exact I|]. split.
  - assert (H : forallb (λ c, Nat.leb (length (windows_of (oc_filter ten) (exercise_score c))) 1) forty = true) by (vm_compute; reflexivity).
    rewrite forallb_forall in H. intros c Hc. apply Nat.leb_le, H. by apply elem_of_list_In.
  - vm_compute. reflexivity.
Qed.
Lemma no_edges_empty : edges_of (grun []) no_edges.
Proof.
  split_and!; try apply no_edges_ok; try done; intros u; simpl;
    (replace (get_encompasses (grun []) u) with (@None (list (uid * f32))) by done) ||
    (replace (get_encompassed_by (grun []) u) with (@None (list (uid * f32))) by done); constructor.
Qed.
