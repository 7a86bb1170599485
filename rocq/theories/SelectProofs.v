(** Proofs about the candidate filter. *)
From stdpp Require Import gmap strings list.
From Coq Require Import ZArith Reals Lra.
From Flocq Require Import IEEE754.BinarySingleNaN.
From Verif Require Import F32 F32Real Graph Options OptionsSpec OptionsProofs Batch BatchSpec KnockProofs.

(** ** Draws *)
Lemma weight_positive m c : flt fzero (candidate_weight m c) = true.
Proof.
  unfold candidate_weight, fmax. set (x := fdiv _ _).
  destruct (fis_nan x) eqn:En; [done|]. change (fis_nan f_0_05) with false. cbv iota.
  destruct (flt x f_0_05) eqn:El; [done|].
  destruct x as [[]|[]| |[] ? ? ?]; try done.
Qed.

Lemma filter_submseteq {A} (P : A → bool) (l k : list A) : l ⊆+ k → List.filter P l ⊆+ List.filter P k.
Proof.
  rewrite !List_filter_filter. intros H. induction H; rewrite ?filter_cons; try done.
  - destruct (decide _); [by apply submseteq_skip|done].
  - destruct (decide _), (decide _); try done. apply submseteq_swap.
  - destruct (decide _); [by apply submseteq_cons|done].
  - by etrans.
Qed.
Lemma filter_all {A} (P : A → bool) (l : list A) : (∀ x, x ∈ l → P x = true) → List.filter P l = l.
Proof.
  induction l as [|x l IH]; intros H; [done|]. simpl. rewrite H by left. f_equal. apply IH. intros. apply H. by right.
Qed.
Lemma filter_split {A} (P : A → bool) (l : list A) : List.filter P l ++ List.filter (λ x, negb (P x)) l ≡ₚ l.
Proof.
  induction l as [|x l IH]; [done|]. simpl. destruct (P x); simpl; [by constructor|].
  rewrite <-Permutation_middle. by constructor.
Qed.

Lemma select_spec m r i cs n : choices_ok r → ∃ sel rem,
  select_candidates m r i cs n = Some (sel, rem) ∧ sel ++ rem ⊆+ cs ∧
  length sel = match n with Some n => Nat.min n (length cs) | None => length cs end.
Proof.
  intros Hr. unfold select_candidates. destruct n as [n|]; [|exists cs, []; rewrite app_nil_r; done].
  destruct (Nat.leb_spec (length cs) n) as [Hle|Hlt].
  { exists cs, []. rewrite app_nil_r. split; [done|]. split; [done|]. lia. }
  destruct (draw_ok r Hr i cs (candidate_weight m <$> cs) n) as (sel & rest & -> & Hp & Hn).
  { by rewrite fmap_length. }
  { apply Forall_fmap, Forall_true. intros c. apply weight_positive. }
  { lia. }
  simpl. eexists _, _. split; [reflexivity|]. split; [|lia].
  set (P := λ c, bool_decide (exercise_id c ∈ (list_to_set (exercise_id <$> sel) : gset uid))).
  assert (Hs : sel ⊆+ List.filter P cs).
  { rewrite <-(filter_all P sel).
    - apply filter_submseteq. rewrite <-Hp. apply submseteq_inserts_r. done.
    - intros x Hx. apply bool_decide_eq_true. apply elem_of_list_to_set, elem_of_list_fmap. eauto. }
  transitivity (List.filter P cs ++ List.filter (λ x, negb (P x)) cs).
  - by apply submseteq_skips_r.
  - by rewrite filter_split.
Qed.

Lemma add_remainder_spec m r i b final rest mx : choices_ok r → ∃ sel,
  add_remainder m r i b final rest mx = Some (final ++ sel) ∧ sel ⊆+ rest ∧
  length (final ++ sel) ≤ Nat.max b (length final).
Proof.
  intros Hr. unfold add_remainder. destruct (Nat.leb_spec (b * 3 / 4) (length final)) as [Hle|Hlt].
  { exists []. rewrite app_nil_r. split; [done|]. split; [apply submseteq_nil_l|lia]. }
  set (n := match mx with Some k => _ | None => _ end).
  destruct (select_spec m r i rest (Some n) Hr) as (sel & rem & -> & Hs & Hn). simpl.
  exists sel. split; [done|]. split.
  - etrans; [|exact Hs]. by apply submseteq_inserts_r.
  - rewrite app_length, Hn. assert (n ≤ b - length final) by (unfold n; destruct mx; lia).
    assert (b * 3 / 4 ≤ b) by (apply Nat.div_le_upper_bound; lia). lia.
Qed.

(** ** The whole filter *)
(** The candidates of the windows as they are drawn from. *)
Definition pool (o : scheduler_options) (k : knockout) : list (list candidate * window) :=
  let enc : gset uid := list_to_set (exercise_id <$> ko_highly k) in
  let w := candidates_in_window (ko_candidates k) enc in
  [(w (mastered_window o) ++ ko_highly k, mastered_window o); (w (easy_window o), easy_window o);
   (w (current_window o), current_window o); (w (target_window o), target_window o);
   (w (new_window o), new_window o)].
Definition drawn (b : nat) (p : list candidate * window) : nat :=
  match window_count b p.2 with Some n => Nat.min n (length p.1) | None => length p.1 end.

Lemma filter_spec m r opts rate k : choices_ok r → 
  let o := adjusted_mastery_windows opts rate in
  let b := dynamic_batch_size (batch_size o) (length (ko_candidates k)) in
  ∃ final, filter_candidates m r opts rate k = Some final ∧
    final ⊆+ mjoin (pool o k).*1 ∧
    length final ≤ Nat.max b (sum_list_with (drawn b) (pool o k)) ∧
    sum_list_with (drawn b) (pool o k) ≤ length final.
Proof.
  intros Hr o b. unfold filter_candidates. fold o. fold b.
  unfold pool. cbv zeta. set (enc := list_to_set _ : gset uid).
  set (W := candidates_in_window (ko_candidates k) enc).
  set (l0 := W (mastered_window o) ++ ko_highly k). set (l1 := W (easy_window o)). set (l2 := W (current_window o)).
  set (l3 := W (target_window o)). set (l4 := W (new_window o)).
  destruct (select_spec m r 0 l0 (window_count b (mastered_window o)) Hr) as (s0 & r0 & -> & S0 & N0).
  destruct (select_spec m r 1 l1 (window_count b (easy_window o)) Hr) as (s1 & r1 & E1 & S1 & N1).
  destruct (select_spec m r 2 l2 (window_count b (current_window o)) Hr) as (s2 & r2 & E2 & S2 & N2).
  destruct (select_spec m r 3 l3 (window_count b (target_window o)) Hr) as (s3 & r3 & E3 & S3 & N3).
  destruct (select_spec m r 4 l4 (window_count b (new_window o)) Hr) as (s4 & r4 & E4 & S4 & N4).
  cbn [mbind option_bind]. rewrite E1. cbn [mbind option_bind]. rewrite E2. cbn [mbind option_bind].
  rewrite E3. cbn [mbind option_bind]. rewrite E4. cbn [mbind option_bind].
  set (f0 := s0 ++ s1 ++ s2 ++ s3 ++ s4). set (base := Nat.max (b / 10) 1).
  destruct (add_remainder_spec m r 5 b f0 r2 None Hr) as (a2 & -> & A2 & L2). cbn [mbind option_bind].
  destruct (add_remainder_spec m r 6 b (f0 ++ a2) r4 (Some (5 * base)) Hr) as (a4 & -> & A4 & L4). cbn [mbind option_bind].
  destruct (add_remainder_spec m r 7 b ((f0 ++ a2) ++ a4) r3 (Some (3 * base)) Hr) as (a3 & -> & A3 & L3). cbn [mbind option_bind].
  destruct (add_remainder_spec m r 8 b (((f0 ++ a2) ++ a4) ++ a3) r1 None Hr) as (a1 & -> & A1 & L1). cbn [mbind option_bind].
  destruct (add_remainder_spec m r 9 b ((((f0 ++ a2) ++ a4) ++ a3) ++ a1) r0 None Hr) as (a0 & -> & A0 & L0).
  eexists. split; [reflexivity|].
  assert (Hsum : sum_list_with (drawn b)
    [(l0, mastered_window o); (l1, easy_window o); (l2, current_window o); (l3, target_window o); (l4, new_window o)] = length f0).
  { cbn [sum_list_with]. unfold drawn. cbn [fst snd]. unfold f0. rewrite !app_length, N0, N1, N2, N3, N4. lia. }
  rewrite Hsum. split_and!.
  - cbn [fmap list_fmap fst mjoin list_join]. unfold f0.
    transitivity ((s0 ++ r0) ++ (s1 ++ r1) ++ (s2 ++ r2) ++ (s3 ++ r3) ++ (s4 ++ r4)).
    + transitivity ((s0 ++ a0) ++ (s1 ++ a1) ++ (s2 ++ a2) ++ (s3 ++ a3) ++ (s4 ++ a4)).
      * apply Permutation_submseteq. solve_Permutation.
      * repeat first [by apply submseteq_skips_l|apply submseteq_app].
    + rewrite app_nil_r. repeat first [done|apply submseteq_app].
  - lia.
  - rewrite !app_length. lia.
Qed.

(** ** No repetitions (C28) *)
Lemma ids_inj (cs : list candidate) c d : NoDup (exercise_id <$> cs) → c ∈ cs → d ∈ cs →
  exercise_id c = exercise_id d → c = d.
Proof.
  intros Hnd Hc Hd He. apply elem_of_list_lookup in Hc as [i Hi]. apply elem_of_list_lookup in Hd as [j Hj].
  assert (i = j) as ->.
  { eapply NoDup_lookup; [exact Hnd| |]; rewrite list_lookup_fmap; [by rewrite Hi|by rewrite Hj, He]. }
  congruence.
Qed.
Lemma NoDup_submseteq_sub {A} (a b : list A) : a ⊆+ b → NoDup b → NoDup a.
Proof. intros [k Hk]%submseteq_Permutation Hnd. rewrite Hk in Hnd. by apply NoDup_app in Hnd as [? _]. Qed.
Lemma fmap_sub {A B} (f : A → B) (a b : list A) : a ⊆+ b → f <$> a ⊆+ f <$> b.
Proof. intros [k Hk]%submseteq_Permutation. rewrite Hk, fmap_app. by apply submseteq_inserts_r. Qed.
Lemma NoDup_ids_sublist (a b : list candidate) : a `sublist_of` b → NoDup (exercise_id <$> b) → NoDup (exercise_id <$> a).
Proof. intros Hs Hnd. eapply NoDup_submseteq_sub; [|exact Hnd]. by apply fmap_sub, sublist_submseteq. Qed.
Lemma windows_nodup (cs : list candidate) (Ps : list (candidate → bool)) : NoDup (exercise_id <$> cs) →
  (∀ c, c ∈ cs → length (filter (λ P : candidate → bool, P c = true) Ps) ≤ 1) →
  NoDup (exercise_id <$> mjoin ((λ P, List.filter P cs) <$> Ps)).
Proof.
  intros Hnd. induction Ps as [|P Ps IH]; intros H; [constructor|].
  rewrite fmap_cons. change (mjoin (?a :: ?l)) with (a ++ mjoin l). rewrite fmap_app. apply NoDup_app. split_and!.
  - eapply NoDup_ids_sublist; [|exact Hnd]. apply sublist_List_filter.
  - intros x Hx Hy. apply elem_of_list_fmap in Hx as (c & -> & Hc).
    rewrite List_filter_filter in Hc. apply elem_of_list_filter in Hc as [HP Hc].
    apply elem_of_list_fmap in Hy as (d & He & Hd). apply elem_of_list_join in Hd as (l & Hd & Hl).
    apply elem_of_list_fmap in Hl as (Q & -> & HQ). rewrite List_filter_filter in Hd.
    apply elem_of_list_filter in Hd as [Hdq Hd].
    assert (c = d) as -> by (by eapply ids_inj).
    specialize (H d Hd). rewrite filter_cons, decide_True in H by done. simpl in H.
    assert (Hq : Q ∈ filter (λ P : candidate → bool, P d = true) Ps) by (apply elem_of_list_filter; done).
    destruct (filter _ Ps); [set_solver|simpl in H; lia].
  - apply IH. intros c Hc. specialize (H c Hc). rewrite filter_cons in H. destruct (decide _); simpl in H; lia.
Qed.

Lemma in_window_adjusted opts rate : ∀ s,
  in_window (mastered_window (adjusted_mastery_windows opts rate)) s = in_window (mastered_window opts) s ∧
  in_window (easy_window (adjusted_mastery_windows opts rate)) s = in_window (easy_window opts) s ∧
  in_window (current_window (adjusted_mastery_windows opts rate)) s = in_window (current_window opts) s ∧
  in_window (target_window (adjusted_mastery_windows opts rate)) s = in_window (target_window opts) s ∧
  in_window (new_window (adjusted_mastery_windows opts rate)) s = in_window (new_window opts) s.
Proof. intros s. unfold adjusted_mastery_windows. by destruct (window_shift rate). Qed.

(** The predicate behind [candidates_in_window]. *)
Definition in_pool (enc : gset uid) (w : window) (c : candidate) : bool :=
  negb (bool_decide (exercise_id c ∈ enc)) && in_window w (exercise_score c).
Lemma candidates_in_window_eq cs enc w : candidates_in_window cs enc w = List.filter (in_pool enc w) cs.
Proof.
  unfold candidates_in_window, in_pool. induction cs as [|c cs IH]; [done|]. simpl.
  destruct (in_window w (exercise_score c)); simpl; rewrite ?IH; [by rewrite andb_true_r|by rewrite andb_false_r].
Qed.

Definition five_windows (o : scheduler_options) : list window :=
  [mastered_window o; easy_window o; current_window o; target_window o; new_window o].
Lemma five_windows_count opts rate s :
  length (filter (λ w, in_window w s = true) (five_windows (adjusted_mastery_windows opts rate))) = length (windows_of opts s).
Proof.
  unfold windows_of, windows, five_windows. destruct (in_window_adjusted opts rate s) as (E1 & E2 & E3 & E4 & E5).
  rewrite !filter_cons, E1, E2, E3, E4, E5.
  destruct (decide (in_window (mastered_window opts) s = true)), (decide (in_window (easy_window opts) s = true)),
    (decide (in_window (current_window opts) s = true)), (decide (in_window (target_window opts) s = true)),
    (decide (in_window (new_window opts) s = true)); done.
Qed.

Lemma pool_perm o k : mjoin (pool o k).*1 ≡ₚ ko_highly k ++
  mjoin ((λ P, List.filter P (ko_candidates k)) <$>
    (in_pool (list_to_set (exercise_id <$> ko_highly k)) <$> five_windows o)).
Proof.
  unfold pool. cbv zeta. rewrite !candidates_in_window_eq. unfold five_windows.
  cbn [fmap list_fmap fst mjoin list_join]. rewrite !app_nil_r. solve_Permutation.
Qed.
Lemma pool_nodup opts rate k : NoDup (exercise_id <$> ko_candidates k) → ko_highly k `sublist_of` ko_candidates k →
  (∀ c, c ∈ ko_candidates k → length (windows_of opts (exercise_score c)) ≤ 1) →
  NoDup (exercise_id <$> mjoin (pool (adjusted_mastery_windows opts rate) k).*1).
Proof.
  intros Hnd Hs Hw. rewrite pool_perm, fmap_app. apply NoDup_app. split_and!.
  - by eapply NoDup_ids_sublist.
  - intros x Hx Hy. apply elem_of_list_fmap in Hy as (d & -> & Hd). apply elem_of_list_join in Hd as (l & Hd & Hl).
    apply elem_of_list_fmap in Hl as (Q & -> & HQ). apply elem_of_list_fmap in HQ as (w & -> & _).
    rewrite List_filter_filter in Hd. apply elem_of_list_filter in Hd as [Hd _].
    unfold in_pool in Hd. apply andb_true_iff in Hd as [Hd _]. apply negb_true_iff, bool_decide_eq_false in Hd.
    apply Hd. by apply elem_of_list_to_set.
  - apply windows_nodup; [done|]. intros c Hc. specialize (Hw c Hc). rewrite <-(five_windows_count opts rate) in Hw.
    etrans; [|exact Hw]. generalize (five_windows (adjusted_mastery_windows opts rate)). intros ws. clear.
    induction ws as [|w ws IH]; [done|]. rewrite fmap_cons, !filter_cons.
    destruct (decide (in_window w (exercise_score c) = true)) as [E|E].
    + destruct (decide _); simpl; lia.
    + rewrite decide_False; [done|]. intros H. unfold in_pool in H. apply andb_true_iff in H as [_ H]. done.
Qed.

(** The pool draws from the candidates that were not knocked out. *)
Lemma pool_incl o k c : ko_highly k `sublist_of` ko_candidates k → c ∈ mjoin (pool o k).*1 → c ∈ ko_candidates k.
Proof.
  intros Hs Hc. rewrite pool_perm in Hc. apply elem_of_app in Hc as [Hc|Hc].
  - by eapply sublist_elem_of || (eapply elem_of_submseteq; [exact Hc|by apply sublist_submseteq]).
  - apply elem_of_list_join in Hc as (l & Hd & Hl). apply elem_of_list_fmap in Hl as (Q & -> & HQ).
    rewrite List_filter_filter in Hd. by apply elem_of_list_filter in Hd as [_ Hd].
Qed.

(** ** Not empty *)
Lemma window_count_pos b w n : window_count b w = Some n → 1 ≤ n.
Proof.
  unfold window_count. set (x := fmul _ _). unfold fmax. destruct (fis_nan x) eqn:En.
  { vm_compute. intros [= <-]. done. }
  change (fis_nan f_1) with false. cbv iota.
  destruct (flt x f_1) eqn:El; [vm_compute; by intros [= <-]|].
  intros H. assert (Hf : fin x).
  { unfold f_to_usize in H. destruct x as [[]|[]| |[] ? ? ?]; done. }
  apply flt_false in El; [|done..]. rewrite val_f_1 in El.
  assert (n = Z.to_nat (Btrunc x)) as ->.
  { unfold f_to_usize in H. destruct x as [[]|[]| |[] ? ? ?]; try done; by injection H as <-. }
  assert (1 <= Btrunc x)%Z; [|lia].
  pose proof (Btrunc_correct 24 128 eq_refl x) as Ht.
  apply le_IZR. rewrite Ht.
  apply (Generic_fmt.round_ge_generic _ _ Raux.Ztrunc); [|exact El].
  replace 1%R with (IZR 1) by done. apply FIX.generic_format_FIX.
  exists (Defs.Float Zaux.radix2 1 0); [|done]. unfold Defs.F2R. simpl. lra.
Qed.
Lemma drawn_pos b p : p.1 ≠ [] → 1 ≤ drawn b p.
Proof.
  intros Hp. assert (1 ≤ length p.1) by (destruct p.1; [done|simpl; lia]). unfold drawn.
  destruct (window_count b p.2) as [n|] eqn:E; [|done]. apply window_count_pos in E. lia.
Qed.
Lemma pool_nonempty opts rate k b : ko_candidates k ≠ [] →
  (∀ c, c ∈ ko_candidates k → 1 ≤ length (windows_of opts (exercise_score c))) →
  1 ≤ sum_list_with (drawn b) (pool (adjusted_mastery_windows opts rate) k).
Proof.
  intros Hne Hw. destruct (ko_candidates k) as [|c cs] eqn:Ek; [done|].
  assert (Hex : ∃ p, p ∈ pool (adjusted_mastery_windows opts rate) k ∧ p.1 ≠ []).
  { destruct (decide (exercise_id c ∈ exercise_id <$> ko_highly k)) as [Hin|Hout].
    - eexists. split; [left|]. cbn [fst]. destruct (ko_highly k); [set_solver|]. by destruct (candidates_in_window _ _ _).
    - specialize (Hw c ltac:(left)). rewrite <-(five_windows_count opts rate) in Hw.
      destruct (filter (λ w, in_window w (exercise_score c) = true) (five_windows (adjusted_mastery_windows opts rate))) as [|w ws] eqn:Ef;
        [simpl in Hw; lia|].
      assert (Hin : w ∈ five_windows (adjusted_mastery_windows opts rate) ∧ in_window w (exercise_score c) = true).
      { assert (w ∈ w :: ws) as H by left. rewrite <-Ef in H. apply elem_of_list_filter in H as [? ?]. done. }
      destruct Hin as [Hin Hiw].
      assert (Hl : candidates_in_window (ko_candidates k) (list_to_set (exercise_id <$> ko_highly k)) w ≠ []).
      { rewrite Ek, candidates_in_window_eq. simpl. unfold in_pool at 1. rewrite Hiw.
        rewrite bool_decide_eq_false_2; [done|]. by rewrite elem_of_list_to_set. }
      unfold five_windows in Hin. unfold pool. cbv zeta.
      repeat (apply elem_of_cons in Hin as [->|Hin]); [..|set_solver].
      all: eexists; split; [|cbn [fst]].
      1: left.
      2: right; left.
      3: do 2 right; left.
      4: do 3 right; left.
      5: do 4 right; left.
      all: try exact Hl.
      destruct (candidates_in_window _ _ _); [done|]. done. }
  destruct Hex as (p & Hp & Hpne). pose proof (drawn_pos b p Hpne).
  clear -H Hp. induction (pool _ k) as [|q qs IH]; [set_solver|].
  cbn [sum_list_with]. apply elem_of_cons in Hp as [->|Hp]; [lia|]. specialize (IH Hp). lia.
Qed.
