(** Properties of the mix of a batch: C93. The vocabulary is in MixSpec.v; [success_rate (s, f)] is the
    success rate after [s] scores of 3 or more and [f] lower ones. *)
From stdpp Require Import gmap strings list.
From Coq Require Import ZArith Reals.
From Verif Require Import F32 F32Real Graph GraphSpec Options OptionsSpec Batch BatchSpec Session FinishProofs BatchSample
  MixSpec MixProofs MixShares MixCounts.

(** C93: whatever the shares of the windows are, the success of the session moves them as documented,
    up to a millionth; whether it was above 90, 75 or 50 hundredths is decided exactly, for a million
    scores. *)
Theorem C93_shares : ∀ o s f, (Z.of_nat (s + f) <= 1000000)%Z → Forall proper_share (windows o) →
  Forall2 (λ w x, fin (percentage w) ∧ Rabs (share w - x) <= / 1000000)%R
    (windows (adjusted_mastery_windows o (success_rate (s, f)))) (documented_shares o (exact_rate s (s + f))).
Proof. exact shares_right. Qed.
Print Assumptions C93_shares.
(** C93: the documented shares are a whole again in full is false: options are accepted whose shares
    add up to more than 1.1 after a good session. *)
Theorem C93_whole_refuted : ∃ o s f, verify_options o = true ∧ Forall proper_share (windows o) ∧
  (11 / 10 < whole (share <$> windows (adjusted_mastery_windows o (success_rate (s, f)))))%R.
Proof. exact more_than_whole. Qed.
Print Assumptions C93_whole_refuted.
(** C93, partial: they are never less than a whole, and no more if no share has to be cut off. *)
Theorem C93_whole_partial : ∀ o s f, verify_options o = true → Forall proper_share (windows o) → (Z.of_nat (s + f) <= 1000000)%Z →
  let total := whole (share <$> windows (adjusted_mastery_windows o (success_rate (s, f)))) in
  (1 - / 100000 <= total)%R ∧ (uncut o (gain (exact_rate s (s + f))) → (total <= 1 + / 100000)%R).
Proof. exact whole_right. Qed.
Print Assumptions C93_whole_partial.
(** C93: that a better session never leads to fewer new exercises is false: there are accepted options
    whose share of new exercises is smaller after a session without failures than after one with some. *)
Theorem C93_harder_refuted : ∃ o s f s' f', verify_options o = true ∧ Forall proper_share (windows o) ∧
  (exact_rate s (s + f) <= exact_rate s' (s' + f'))%R ∧
  (share (new_window (adjusted_mastery_windows o (success_rate (s', f')))) <
   share (new_window (adjusted_mastery_windows o (success_rate (s, f)))))%R.
Proof. exact better_but_fewer. Qed.
Print Assumptions C93_harder_refuted.
(** C93, partial: if the shares are between 5 and 50 hundredths, a better session never lowers the
    shares of the two harder windows, nor raises those of the two easier ones. *)
Theorem C93_harder_partial : ∀ o s f s' f',
  Forall middling [new_window o; target_window o; easy_window o; mastered_window o] →
  (Z.of_nat (s + f) <= 1000000)%Z → (Z.of_nat (s' + f') <= 1000000)%Z →
  (exact_rate s (s + f) <= exact_rate s' (s' + f'))%R →
  let before := adjusted_mastery_windows o (success_rate (s, f)) in
  let after := adjusted_mastery_windows o (success_rate (s', f')) in
  (share (new_window before) <= share (new_window after) ∧ share (target_window before) <= share (target_window after) ∧
   share (easy_window after) <= share (easy_window before) ∧ share (mastered_window after) <= share (mastered_window before))%R.
Proof. exact harder_right. Qed.
Print Assumptions C93_harder_partial.
Example C93_shares_nonvacuous : ∀ b, let o := create_scheduler_options b in Forall proper_share (windows o) ∧
  Forall middling [new_window o; target_window o; easy_window o; mastered_window o] ∧ ∀ rate, uncut o (gain rate).
Proof. exact default_shares_fine. Qed.

(** C93: the quota of a window is its share of the batch, rounded down but at least 1; the rounding of
    the product adds or takes no more than a sixteenth. *)
Theorem C93_quota : ∀ b w, (Z.of_nat b <= 1000000)%Z → proper_share w → ∃ q, window_count b w = Some q ∧
  (Rmax 1 (INR b * share w) - 1 - / 16 < INR q <= Rmax 1 (INR b * share w) + / 16)%R.
Proof. exact count_right. Qed.
Print Assumptions C93_quota.
(** C93: that the quotas of the default windows are their shares, rounded down but at least 1, is
    false. *)
Theorem C93_default_quotas_refuted : ∃ b s f, verify_options (create_scheduler_options (Some b)) = true ∧
  window_count b <$> windows (adjusted_mastery_windows (create_scheduler_options (Some b)) (success_rate (s, f))) ≠
  (λ k, Some (Nat.max 1 (b * k / 20))) <$> default_twentieths s (s + f).
Proof. exact quota_short. Qed.
Print Assumptions C93_default_quotas_refuted.
(** C93, partial: they are, except for a batch size that is a multiple of 10 after a session with
    between 50 and 75 hundredths of success; *)
Theorem C93_default_quotas_partial : ∀ b0 b s f, (Z.of_nat b <= 1000000)%Z → (Z.of_nat (s + f) <= 1000000)%Z →
  (s + f ≤ 2 * s → 4 * s < 3 * (s + f) → b mod 10 ≠ 0) →
  window_count b <$> windows (adjusted_mastery_windows (set_batch_size b0 default_options) (success_rate (s, f))) =
  (λ k, Some (Nat.max 1 (b * k / 20))) <$> default_twentieths s (s + f).
Proof. exact default_counts. Qed.
Print Assumptions C93_default_quotas_partial.
(** then the window of the current exercises always gets one less than its 30 hundredths. *)
Theorem C93_default_quotas_short : ∀ b0 c s f, 1 ≤ c → (Z.of_nat (10 * c) <= 1000000)%Z → (Z.of_nat (s + f) <= 1000000)%Z →
  s + f ≤ 2 * s → 4 * s < 3 * (s + f) →
  window_count (10 * c) (current_window (adjusted_mastery_windows (set_batch_size b0 default_options) (success_rate (s, f)))) =
  Some (3 * c - 1).
Proof. exact default_short. Qed.
Print Assumptions C93_default_quotas_short.

(** C93: of the exercises of each kind, a batch has at least what the quota allows. It has at most
    the quota and five tenths of the batch more of the new ones, and the quota and three tenths more of
    those of the target window, not counting those to relearn. Exercises beyond that are left out only
    if the batch is filled to three quarters. And what was added to the quota of a kind was added
    because the kinds that have precedence were used up. *)
Theorem C93_mix : ∀ ops e m r o rate pile cs batch,
  choices_ok r → edges_of (grun ops) e → NoDup (exercise_id <$> cs) →
  (∀ c, c ∈ cs → length (windows_of (oc_filter o) (exercise_score c)) ≤ 1) →
  finish_candidates m r e o rate pile cs = Some batch →
  ∃ k p, knock_out_reviews e (r_units r) cs = Some k ∧ (∀ q, relearn_count (oc_relearn o) = Some q → p ≤ q) ∧
    let b := goal (batch_size (oc_filter o)) (length (ko_candidates k)) in
    let quota kd := window_count b (window_of (adjusted_mastery_windows (oc_filter o) rate) kd) in
    let all kd := length (available (oc_filter o) k kd) in
    let got kd := taken batch (available (oc_filter o) k kd) in
    ∀ kd, allowed (quota kd) (all kd) ≤ got kd ∧
      (∀ q x, quota kd = Some q → most_added b kd = Some x → got kd ≤ q + x + p) ∧
      (used_up b kd (quota kd) (all kd) (got kd) ∨ b * 3 / 4 ≤ length batch) ∧
      (∀ q, quota kd = Some q → q + p < got kd → ∀ kd', turn kd' < turn kd →
         used_up b kd' (quota kd') (all kd') (got kd')).
Proof. exact mix_right. Qed.
Print Assumptions C93_mix.
(** Forty candidates for a batch of ten, new ones and some of the target window: the batch has nine,
    with as many new ones as it can have. *)
Example C93_mix_nonvacuous : choices_ok first_choices ∧ edges_of (grun []) no_edges ∧ NoDup (exercise_id <$> forty) ∧
  (∀ c, c ∈ forty → length (windows_of (oc_filter ten) (exercise_score c)) ≤ 1) ∧
  (k ← knock_out_reviews no_edges (r_units first_choices) forty;
   batch ← finish_candidates no_libm first_choices no_edges ten f_1 ∅ forty;
   Some (length batch, (λ kd, taken batch (available (oc_filter ten) k kd)) <$> [KNew; KTarget; KCurrent; KEasy; KMastered])) =
  Some (9, [7; 2; 0; 0; 0]).
Proof. exact (conj first_choices_ok (conj no_edges_empty forty_example)). Qed.
