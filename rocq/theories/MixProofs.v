(** Proofs about the mix of a batch. *)
From stdpp Require Import gmap strings list.
From Coq Require Import ZArith.
From Verif Require Import F32 F32Real Graph Options OptionsSpec OptionsProofs Batch BatchSpec KnockProofs SelectProofs SizeProofs
  ShuffleProofs FinishProofs MixSpec.

(** ** Draws *)
Lemma select_exact m r i cs n : choices_ok r → NoDup (exercise_id <$> cs) → ∃ sel rem,
  select_candidates m r i cs n = Some (sel, rem) ∧ sel ++ rem ≡ₚ cs ∧ length sel = allowed n (length cs).
Proof.
  intros Hr Hnd. unfold select_candidates. destruct n as [n|]; [|exists cs, []; rewrite app_nil_r; done].
  destruct (Nat.leb_spec (length cs) n) as [Hle|Hlt].
  { exists cs, []. rewrite app_nil_r. split; [done|]. split; [done|]. simpl. lia. }
  destruct (draw_ok r Hr i cs (candidate_weight m <$> cs) n) as (sel & rest & -> & Hp & Hn).
  { by rewrite fmap_length. }
  { apply Forall_fmap, Forall_true. intros c. apply weight_positive. }
  { lia. }
  simpl. eexists _, _. split; [reflexivity|]. split; [|lia].
  rewrite <-Hp in Hnd. rewrite fmap_app in Hnd. apply NoDup_app in Hnd as (_ & Hd & _).
  rewrite <-Hp at 2. apply Permutation_app_head.
  set (P := λ c, negb (bool_decide (exercise_id c ∈ (list_to_set (exercise_id <$> sel) : gset uid)))).
  transitivity (List.filter P (sel ++ rest)).
  { rewrite !List_filter_filter. by rewrite Hp. }
  rewrite List.filter_app. replace (List.filter P sel) with (@nil candidate).
  - simpl. rewrite filter_all; [done|]. intros x Hx. unfold P. apply negb_true_iff, bool_decide_eq_false.
    rewrite elem_of_list_to_set. intros H. eapply Hd; [exact H|]. by apply elem_of_list_fmap_1.
  - symmetry. rewrite List_filter_filter. apply filter_nil_iff || idtac. clear -P.
    assert (H : Forall (λ x, P x = false) sel).
    { apply Forall_forall. intros x Hx. unfold P. apply negb_false_iff, bool_decide_eq_true.
      rewrite elem_of_list_to_set. by apply elem_of_list_fmap_1. }
    clearbody P. induction H as [|x l Hx H IH]; [done|]. rewrite filter_cons. rewrite decide_False; [done|]. by rewrite Hx.
Qed.

Lemma add_exact m r i b final rest mx : choices_ok r → ∃ a,
  add_remainder m r i b final rest mx = Some (final ++ a) ∧ a ⊆+ rest ∧
  (∀ x, mx = Some x → length a ≤ x) ∧ (a = [] ∨ length final < b * 3 / 4) ∧
  (b * 3 / 4 ≤ length (final ++ a) ∨ length a = length rest ∨ mx = Some (length a)).
Proof.
  intros Hr. unfold add_remainder. destruct (Nat.leb_spec (b * 3 / 4) (length final)) as [Hle|Hlt].
  { exists []. rewrite app_nil_r. split_and!; [done|apply submseteq_nil_l|simpl; lia|by left|by left]. }
  set (n := match mx with Some k => _ | None => _ end).
  destruct (select_spec m r i rest (Some n) Hr) as (sel & rem & -> & Hs & Hn). cbn [mbind option_bind].
  assert (b * 3 / 4 ≤ b) by (apply Nat.div_le_upper_bound; lia).
  exists sel. split_and!; [done| | |by right|].
  - etrans; [|exact Hs]. by apply submseteq_inserts_r.
  - intros x ->. unfold n in Hn. lia.
  - rewrite app_length, Hn. unfold n. destruct mx as [x|].
    2: { destruct (decide (length rest ≤ b - length final)); [right; left; lia|left; lia]. }
    destruct (decide (length rest ≤ Nat.min (b - length final) x)); [right; left; lia|].
    destruct (decide (x ≤ b - length final)); [right; right; f_equal; lia|]. left. lia.
Qed.

Definition kinds : list kind := [KMastered; KEasy; KCurrent; KTarget; KNew].
(** The candidates of a kind. *)
Definition pool_of (o : scheduler_options) (k : knockout) (kd : kind) : list candidate :=
  let enc : gset uid := list_to_set (exercise_id <$> ko_highly k) in
  candidates_in_window (ko_candidates k) enc (window_of o kd) ++ (if decide (kd = KMastered) then ko_highly k else []).
Lemma pool_kinds o k : mjoin (pool o k).*1 = mjoin (pool_of o k <$> kinds).
Proof. unfold pool, pool_of, kinds. cbn [fmap list_fmap fst mjoin list_join window_of]. cbn. by rewrite !app_nil_r. Qed.
Lemma pool_of_available o k rate kd : exercise_id <$> pool_of (adjusted_mastery_windows o rate) k kd = available o k kd.
Proof.
  unfold pool_of, available. cbv zeta. rewrite fmap_app. f_equal; [|by destruct (decide _)].
  rewrite candidates_in_window_eq, List_filter_filter. f_equal. apply list_filter_iff. intros c.
  unfold in_pool. rewrite andb_true_iff, negb_true_iff, bool_decide_eq_false, elem_of_list_to_set.
  replace (in_window (window_of (adjusted_mastery_windows o rate) kd) (exercise_score c))
    with (in_window (window_of o kd) (exercise_score c)); [tauto|].
  destruct (in_window_adjusted o rate (exercise_score c)) as (E1 & E2 & E3 & E4 & E5). by destruct kd; simpl.
Qed.

Lemma goal_right b n : dynamic_batch_size b n = goal b n.
Proof.
  unfold dynamic_batch_size, goal. destruct (Nat.ltb_spec b 10); [by rewrite decide_True by lia|].
  destruct (Nat.ltb_spec n (b * 3)); [rewrite decide_False by lia; lia|by rewrite decide_True by lia].
Qed.

Definition pick {A} (a b c d e : A) (kd : kind) : A :=
  match kd with KMastered => a | KEasy => b | KCurrent => c | KTarget => d | KNew => e end.

(** The parts of what the filter returns: the first draw [S] of each kind, what it leaves [R], and what
    is added [A]. *)
Lemma filter_parts m r opts rate k final : choices_ok r → filter_candidates m r opts rate k = Some final →
  let o := adjusted_mastery_windows opts rate in
  let b := goal (batch_size opts) (length (ko_candidates k)) in
  NoDup (exercise_id <$> mjoin (pool o k).*1) →
  ∃ S R A : kind → list candidate, final ≡ₚ mjoin ((λ kd, S kd ++ A kd) <$> kinds) ∧ ∀ kd,
    S kd ++ R kd ≡ₚ pool_of o k kd ∧ A kd ⊆+ R kd ∧
    length (S kd) = allowed (window_count b (window_of o kd)) (length (pool_of o k kd)) ∧
    (∀ x, most_added b kd = Some x → length (A kd) ≤ x) ∧
    (b * 3 / 4 ≤ length final ∨ length (A kd) = length (R kd) ∨ most_added b kd = Some (length (A kd))) ∧
    (A kd ≠ [] → ∀ kd', turn kd' < turn kd →
       length (A kd') = length (R kd') ∨ most_added b kd' = Some (length (A kd'))).
Proof.
  intros Hr Hf o b Hnd. rewrite pool_kinds in Hnd.
  assert (Hk : ∀ kd, NoDup (exercise_id <$> pool_of o k kd)).
  { intros kd. eapply NoDup_submseteq_sub; [apply fmap_sub|exact Hnd].
    unfold kinds. cbn [fmap list_fmap mjoin list_join]. rewrite app_nil_r.
    destruct kd; repeat first [done|by apply submseteq_inserts_r|apply submseteq_inserts_l]. }
  clear Hnd. revert Hf. unfold filter_candidates. fold o.
  replace (batch_size o) with (batch_size opts) by (symmetry; apply adjusted_batch_size). rewrite goal_right. fold b.
  set (enc := list_to_set _ : gset uid).
  set (W := candidates_in_window (ko_candidates k) enc).
  change (W (mastered_window o) ++ ko_highly k) with (pool_of o k KMastered).
  replace (W (easy_window o)) with (pool_of o k KEasy) by (unfold pool_of; cbn; by rewrite app_nil_r).
  replace (W (current_window o)) with (pool_of o k KCurrent) by (unfold pool_of; cbn; by rewrite app_nil_r).
  replace (W (target_window o)) with (pool_of o k KTarget) by (unfold pool_of; cbn; by rewrite app_nil_r).
  replace (W (new_window o)) with (pool_of o k KNew) by (unfold pool_of; cbn; by rewrite app_nil_r).
  destruct (select_exact m r 0 _ (window_count b (mastered_window o)) Hr (Hk KMastered)) as (s0 & r0 & -> & S0 & N0).
  destruct (select_exact m r 1 _ (window_count b (easy_window o)) Hr (Hk KEasy)) as (s1 & r1 & E1 & S1 & N1).
  destruct (select_exact m r 2 _ (window_count b (current_window o)) Hr (Hk KCurrent)) as (s2 & r2 & E2 & S2 & N2).
  destruct (select_exact m r 3 _ (window_count b (target_window o)) Hr (Hk KTarget)) as (s3 & r3 & E3 & S3 & N3).
  destruct (select_exact m r 4 _ (window_count b (new_window o)) Hr (Hk KNew)) as (s4 & r4 & E4 & S4 & N4).
  cbn [mbind option_bind]. rewrite E1. cbn [mbind option_bind]. rewrite E2. cbn [mbind option_bind].
  rewrite E3. cbn [mbind option_bind]. rewrite E4. cbn [mbind option_bind].
  set (f0 := s0 ++ s1 ++ s2 ++ s3 ++ s4). replace (Nat.max (b / 10) 1) with (Nat.max 1 (b / 10)) by lia.
  set (base := Nat.max 1 (b / 10)).
  destruct (add_exact m r 5 b f0 r2 None Hr) as (a2 & -> & A2 & L2 & T2 & M2). cbn [mbind option_bind].
  destruct (add_exact m r 6 b (f0 ++ a2) r4 (Some (5 * base)) Hr) as (a4 & -> & A4 & L4 & T4 & M4). cbn [mbind option_bind].
  destruct (add_exact m r 7 b ((f0 ++ a2) ++ a4) r3 (Some (3 * base)) Hr) as (a3 & -> & A3 & L3 & T3 & M3). cbn [mbind option_bind].
  destruct (add_exact m r 8 b (((f0 ++ a2) ++ a4) ++ a3) r1 None Hr) as (a1 & -> & A1 & L1 & T1 & M1). cbn [mbind option_bind].
  destruct (add_exact m r 9 b ((((f0 ++ a2) ++ a4) ++ a3) ++ a1) r0 None Hr) as (a0 & -> & A0 & L0 & T0 & M0).
  intros [= <-]. exists (pick s0 s1 s2 s3 s4), (pick r0 r1 r2 r3 r4), (pick a0 a1 a2 a3 a4). split.
  { unfold kinds, f0. cbn [fmap list_fmap mjoin list_join pick]. rewrite app_nil_r. solve_Permutation. }
  rewrite !app_length in *.
  assert (F : ∀ (a : list candidate) (P : Prop), a = [] ∨ P → a ≠ [] → P).
  { intros a P [Ha|HP] H; [exfalso; exact (H Ha)|exact HP]. }
  intros kd. destruct kd; cbn [pick most_added window_of]; fold base;
    (split; [assumption|split; [assumption|split; [assumption|split; [assumption|split]]]]).
  1, 3, 5, 7, 9: match goal with M : _ ∨ length ?a = _ ∨ _ |- _ ∨ length ?a = _ ∨ _ =>
    destruct M as [M|M]; [left; clear -M; lia|right; exact M] end.
  all: intros Hne kd' Hkd'; destruct kd'; cbn [turn] in Hkd'; try (exfalso; clear -Hkd'; lia); cbn [pick most_added]; fold base;
    match goal with T : ?a = [] ∨ _, H : ?a ≠ [], M : _ ∨ length ?c = _ ∨ _ |- length ?c = _ ∨ _ =>
      apply F in T; [|exact H]; destruct M as [M|M]; [exfalso; clear -M T; lia|exact M] end.
Qed.

(** ** The mix *)
Lemma taken_at_least (batch l l' : list candidate) : l ⊆+ l' → (∀ c, c ∈ l → c ∈ batch) →
  length l ≤ taken batch (exercise_id <$> l').
Proof.
  intros Hs Hin. unfold taken.
  rewrite (list_filter_iff _ (λ x, bool_decide (x ∈ exercise_id <$> batch) = true)) by (intros x; by rewrite bool_decide_eq_true).
  rewrite <-List_filter_filter. rewrite <-(fmap_length exercise_id l). apply submseteq_length.
  rewrite <-(filter_all (λ x, bool_decide (x ∈ exercise_id <$> batch)) (exercise_id <$> l)).
  - apply filter_submseteq. by apply fmap_sub.
  - intros x Hx. apply bool_decide_eq_true. apply elem_of_list_fmap in Hx as (c & -> & Hc).
    apply elem_of_list_fmap_1. by apply Hin.
Qed.
Lemma taken_at_most batch ids (l : list uid) : NoDup ids → (∀ x, x ∈ ids → x ∈ exercise_id <$> batch → x ∈ l) →
  taken batch ids ≤ length l.
Proof.
  intros Hnd Hin. unfold taken. apply submseteq_length. apply NoDup_submseteq; [by apply NoDup_filter|].
  intros x Hx. apply elem_of_list_filter in Hx as [H1 H2]. by apply Hin.
Qed.

Lemma pool_apart o k kd kd' x : NoDup (exercise_id <$> mjoin (pool_of o k <$> kinds)) →
  x ∈ exercise_id <$> pool_of o k kd → x ∈ exercise_id <$> pool_of o k kd' → kd = kd'.
Proof.
  unfold kinds. cbn [fmap list_fmap mjoin list_join]. rewrite app_nil_r, !fmap_app, !NoDup_app.
  setoid_rewrite elem_of_app. setoid_rewrite elem_of_app. setoid_rewrite elem_of_app.
  intros H. decompose [and] H. destruct kd, kd'; naive_solver.
Qed.

Lemma mix_right ops e m r o rate pile cs batch : choices_ok r → edges_of (grun ops) e → NoDup (exercise_id <$> cs) →
  (∀ c, c ∈ cs → length (windows_of (oc_filter o) (exercise_score c)) ≤ 1) →
  finish_candidates m r e o rate pile cs = Some batch →
  ∃ k p, knock_out_reviews e (r_units r) cs = Some k ∧ (∀ q, relearn_count (oc_relearn o) = Some q → p ≤ q) ∧
    let b := goal (batch_size (oc_filter o)) (length (ko_candidates k)) in
    let quota kd := window_count b (window_of (adjusted_mastery_windows (oc_filter o) rate) kd) in
    let all kd := length (available (oc_filter o) k kd) in
    let got kd := taken batch (available (oc_filter o) k kd) in
    ∀ kd, allowed (quota kd) (all kd) ≤ got kd ∧
      (∀ q x, quota kd = Some q → most_added b kd = Some x → got kd ≤ q + x + p) ∧
      (used_up b kd (quota kd) (all kd) (got kd) ∨ b * 3 / 4 ≤ length batch) ∧
      (∀ q, quota kd = Some q → q + p < got kd → ∀ kd', turn kd' < turn kd →
         used_up b kd' (quota kd') (all kd') (got kd')).
Proof.
  intros Hr He Hnd Hw H. apply edges_of_weights in He.
  destruct (finish_split _ _ _ _ _ _ _ _ Hr H) as (k & final & extra & Ek & Ef & Hp & He1 & He2 & He3).
  destruct (knock_spec _ _ _ _ He (units_ok r Hr) Hnd Ek) as [(cs' & Hs & Hsub & Hhi) _].
  assert (Hpool : NoDup (exercise_id <$> mjoin (pool (adjusted_mastery_windows (oc_filter o) rate) k).*1)).
  { apply pool_nodup; [|done|].
    - eapply NoDup_ids_sublist; [exact Hsub|]. by rewrite <-(same_ids _ _ Hs).
    - intros c Hc. assert (Hc' : c ∈ cs') by (eapply elem_of_submseteq; [exact Hc|by apply sublist_submseteq]).
      destruct (same_scores _ _ _ Hs Hc') as (d & Hd & Hdc). destruct Hdc as (_ & _ & _ & _ & <- & _). by apply Hw. }
  destruct (filter_parts m r _ rate k final Hr Ef Hpool) as (S & R & A & Hfinal & Hparts).
  exists k, (length extra). split; [done|]. split; [done|]. intros b quota all got. fold b in Hparts.
  rewrite pool_kinds in Hpool. set (o' := adjusted_mastery_windows (oc_filter o) rate) in *.
  assert (Hall : ∀ kd, all kd = length (pool_of o' k kd)).
  { intros kd. unfold all. rewrite <-(pool_of_available _ _ rate), fmap_length. done. }
  assert (Hmem : ∀ kd c, c ∈ S kd ++ A kd → c ∈ batch).
  { intros kd c Hc. rewrite Hp, Hfinal. apply elem_of_app. left. apply elem_of_list_join.
    exists (S kd ++ A kd). split; [done|]. apply elem_of_list_fmap. exists kd. split; [done|]. unfold kinds. destruct kd; set_solver. }
  assert (Hin : ∀ kd, S kd ++ A kd ⊆+ pool_of o' k kd).
  { intros kd. destruct (Hparts kd) as (<- & HA & _). by apply submseteq_skips_l. }
  assert (Hsome : ∀ kd, length (S kd) + length (A kd) ≤ got kd).
  { intros kd. unfold got. rewrite <-(pool_of_available _ _ rate), <-app_length. apply taken_at_least; [apply Hin|apply Hmem]. }
  assert (Hmost : ∀ kd, got kd ≤ length (S kd) + length (A kd) + length extra).
  { intros kd. unfold got. rewrite <-(pool_of_available _ _ rate). fold o'.
    rewrite <-app_length, <-(fmap_length exercise_id), <-app_length. apply taken_at_most.
    - eapply NoDup_submseteq_sub; [apply fmap_sub|exact Hpool]. unfold kinds. cbn [fmap list_fmap mjoin list_join]. rewrite app_nil_r.
      destruct kd; repeat first [done|by apply submseteq_inserts_r|apply submseteq_inserts_l].
    - intros x Hx Hb. rewrite Hp, fmap_app, bare_ids in Hb. apply elem_of_app in Hb as [Hb|Hb]; apply elem_of_app; [left|by right].
      rewrite Hfinal in Hb. apply elem_of_list_fmap in Hb as (c & -> & Hc). apply elem_of_list_fmap_1.
      apply elem_of_list_join in Hc as (l & Hc & Hl). apply elem_of_list_fmap in Hl as (kd' & -> & _).
      assert (kd = kd') as <-; [|done]. eapply pool_apart; [exact Hpool|exact Hx|].
      apply elem_of_list_fmap_1. eapply elem_of_submseteq; [exact Hc|apply Hin]. }
  assert (Htot : ∀ kd, length (S kd) + length (R kd) = all kd).
  { intros kd. rewrite Hall, <-app_length. by destruct (Hparts kd) as (-> & _). }
  assert (Htop : ∀ kd, got kd ≤ all kd).
  { intros kd. unfold got, all, taken. apply filter_length. }
  assert (Hup : ∀ kd, length (A kd) = length (R kd) ∨ most_added b kd = Some (length (A kd)) → used_up b kd (quota kd) (all kd) (got kd)).
  { intros kd HH. pose proof (Hsome kd). pose proof (Htop kd). pose proof (Htot kd).
    destruct HH as [HH|HH]; [left; lia|]. destruct (Hparts kd) as (_ & _ & HS & _). rewrite <-Hall in HS.
    fold (quota kd) in HS. unfold used_up. destruct (quota kd) as [q|]; simpl in HS; [|left; lia].
    destruct (decide (q ≤ all kd)); [right|left; lia]. eexists q, _. split; [done|]. split; [exact HH|]. lia. }
  intros kd. destruct (Hparts kd) as (HP & HA & HS & HX & HF & HT).
  rewrite <-Hall in HS. fold (quota kd) in HS. split_and!.
  - rewrite <-HS. specialize (Hsome kd). lia.
  - intros q x Hq Hx. specialize (HX x Hx). specialize (Hmost kd). rewrite Hq in HS. simpl in HS. lia.
  - destruct HF as [HF|HF]; [right|left; by apply Hup]. rewrite Hp, app_length. lia.
  - intros q Hq Hgt kd' Hkd'. apply Hup. apply HT; [|done]. specialize (Hmost kd). rewrite Hq in HS. simpl in HS.
    intros E. rewrite E in Hmost. simpl in Hmost. lia.
Qed.
