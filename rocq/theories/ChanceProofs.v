(** Every candidate that is not knocked out can be drawn (C100). *)
From stdpp Require Import gmap strings list.
From Coq Require Import ZArith.
From Verif Require Import F32 Compute Graph GraphSpec GraphProofs GraphMore Library LibrarySpec Filters Options OptionsSpec OptionsProofs
  Batch BatchSpec KnockProofs SelectProofs ShuffleProofs FinishProofs BatchSample BatchMore
  Search SearchSpec LibFacts WholeProofs ChanceSpec.
Local Open Scope string_scope.
Local Open Scope list_scope.

(** The draw that takes the exercise [x] first. *)
Definition is_ex (x : uid) (c : candidate) : bool := bool_decide (exercise_id c = x).
Definition favour (x : uid) : nat → list candidate → list f32 → nat → option (list candidate) :=
  λ _ cs _ n, Some (take n (List.filter (is_ex x) cs ++ List.filter (λ c, negb (is_ex x c)) cs)).
Lemma favour_ok r x : choices_ok r → choices_ok (with_draw r (favour x)).
Proof.
  intros Hr. constructor; cbn [with_draw r_units r_draw r_sample r_shuffle]; try apply Hr.
  intros i cs ws n _ _ Hn. set (l := List.filter (is_ex x) cs ++ List.filter (λ c, negb (is_ex x c)) cs).
  assert (Hp : l ≡ₚ cs) by apply filter_split.
  exists (take n l), (drop n l). split; [done|]. rewrite take_drop. split; [done|].
  apply take_length_le. by rewrite Hp.
Qed.

Section favour.
  Context (m : libm) (r : choices) (Hr : choices_ok r) (x : uid).
  Notation r' := (with_draw r (favour x)).

  Lemma favour_select i cs n sel rem c : c ∈ cs → exercise_id c = x →
    (∀ k, n = Some k → 1 ≤ k) → select_candidates m r' i cs n = Some (sel, rem) → x ∈ exercise_id <$> sel.
  Proof using.
    intros Hc Hx Hn. assert (Hall : x ∈ exercise_id <$> cs) by (subst; by apply elem_of_list_fmap_1).
    unfold select_candidates. destruct n as [n|]; [|by intros [= <- _]]. specialize (Hn n eq_refl).
    destruct (Nat.leb _ _); [by intros [= <- _]|]. cbn [with_draw r_draw favour mbind option_bind].
    intros [= <- _]. destruct (List.filter (is_ex x) cs) as [|d l] eqn:E.
    - exfalso. assert (H : c ∈ List.filter (is_ex x) cs).
      { apply elem_of_list_In, filter_In. split; [by apply elem_of_list_In|]. by apply bool_decide_eq_true. }
      rewrite E in H. by apply elem_of_nil in H.
    - destruct n as [|n]; [lia|]. cbn [app take]. rewrite fmap_cons.
      assert (H : d ∈ List.filter (is_ex x) cs) by (rewrite E; left).
      apply elem_of_list_In, filter_In in H as [_ H]. apply bool_decide_eq_true in H. rewrite H. left.
  Qed.

  (** The pools hold every candidate that is left. *)
  Lemma in_a_pool opts rate k c : ko_highly k `sublist_of` ko_candidates k → c ∈ ko_candidates k →
    1 ≤ length (windows_of opts (exercise_score c)) →
    ∃ p d, p ∈ pool (adjusted_mastery_windows opts rate) k ∧ d ∈ p.1 ∧ exercise_id d = exercise_id c.
  Proof using.
    intros Hsub Hc Hw. destruct (decide (exercise_id c ∈ exercise_id <$> ko_highly k)) as [Hin|Hout].
    - apply elem_of_list_fmap in Hin as (d & Hd & Hin). eexists _, d. split; [left|]. split; [|done].
      cbn [fst]. apply elem_of_app. by right.
    - rewrite <-(five_windows_count opts rate) in Hw.
      destruct (filter (λ w, in_window w (exercise_score c) = true) (five_windows (adjusted_mastery_windows opts rate)))
        as [|w ws] eqn:Ef; [simpl in Hw; lia|].
      assert (Hin : w ∈ five_windows (adjusted_mastery_windows opts rate) ∧ in_window w (exercise_score c) = true).
      { assert (w ∈ w :: ws) as H by left. rewrite <-Ef in H. apply elem_of_list_filter in H as [? ?]. done. }
      destruct Hin as [Hin Hiw].
      assert (Hl : c ∈ candidates_in_window (ko_candidates k) (list_to_set (exercise_id <$> ko_highly k)) w).
      { rewrite candidates_in_window_eq. apply elem_of_list_In, filter_In. split; [by apply elem_of_list_In|].
        unfold in_pool. rewrite Hiw. rewrite bool_decide_eq_false_2; [done|]. by rewrite elem_of_list_to_set. }
      unfold five_windows in Hin. unfold pool. cbv zeta.
      repeat (apply elem_of_cons in Hin as [->|Hin]); [..|by apply elem_of_nil in Hin].
      all: eexists _, c; split; [|split; [cbn [fst]|reflexivity]].
      1: left.
      2: right; left.
      3: do 2 right; left.
      4: do 3 right; left.
      5: do 4 right; left.
      all: try exact Hl.
      apply elem_of_app. by left.
  Qed.

  Lemma favour_filter opts rate k final c : ko_highly k `sublist_of` ko_candidates k → c ∈ ko_candidates k →
    1 ≤ length (windows_of opts (exercise_score c)) → exercise_id c = x →
    filter_candidates m r' opts rate k = Some final → x ∈ exercise_id <$> final.
  Proof using Hr.
    intros Hsub Hc Hw Hx H. destruct (in_a_pool opts rate k c Hsub Hc Hw) as (p & d & Hp & Hd & Hdx).
    rewrite Hx in Hdx. pose proof (favour_ok r x Hr) as Hr'.
    unfold filter_candidates in H. set (o := adjusted_mastery_windows opts rate) in *.
    set (b := dynamic_batch_size _ _) in H. unfold pool in Hp. cbv zeta in Hp, H. set (enc := list_to_set _ : gset uid) in *.
    set (W := candidates_in_window (ko_candidates k) enc) in *.
    set (l0 := W (mastered_window o) ++ ko_highly k) in *. set (l1 := W (easy_window o)) in *. set (l2 := W (current_window o)) in *.
    set (l3 := W (target_window o)) in *. set (l4 := W (new_window o)) in *.
    destruct (select_spec m r' 0 l0 (window_count b (mastered_window o)) Hr') as (s0 & r0 & E0 & _).
    destruct (select_spec m r' 1 l1 (window_count b (easy_window o)) Hr') as (s1 & r1 & E1 & _).
    destruct (select_spec m r' 2 l2 (window_count b (current_window o)) Hr') as (s2 & r2 & E2 & _).
    destruct (select_spec m r' 3 l3 (window_count b (target_window o)) Hr') as (s3 & r3 & E3 & _).
    destruct (select_spec m r' 4 l4 (window_count b (new_window o)) Hr') as (s4 & r4 & E4 & _).
    rewrite E0 in H. cbn [mbind option_bind] in H. rewrite E1 in H. cbn [mbind option_bind] in H.
    rewrite E2 in H. cbn [mbind option_bind] in H. rewrite E3 in H. cbn [mbind option_bind] in H.
    rewrite E4 in H. cbn [mbind option_bind] in H.
    set (f0 := s0 ++ s1 ++ s2 ++ s3 ++ s4) in *. set (base := Nat.max (b / 10) 1) in H.
    assert (Hf0 : x ∈ exercise_id <$> f0).
    { unfold f0. rewrite !fmap_app, !elem_of_app.
      repeat (apply elem_of_cons in Hp as [->|Hp]); [..|by apply elem_of_nil in Hp]; cbn [fst] in Hd.
      - left. exact (favour_select _ _ _ _ _ _ Hd Hdx (λ n, window_count_pos _ _ _) E0).
      - right; left. exact (favour_select _ _ _ _ _ _ Hd Hdx (λ n, window_count_pos _ _ _) E1).
      - do 2 right; left. exact (favour_select _ _ _ _ _ _ Hd Hdx (λ n, window_count_pos _ _ _) E2).
      - do 3 right; left. exact (favour_select _ _ _ _ _ _ Hd Hdx (λ n, window_count_pos _ _ _) E3).
      - do 4 right. exact (favour_select _ _ _ _ _ _ Hd Hdx (λ n, window_count_pos _ _ _) E4). }
    destruct (add_remainder_spec m r' 5 b f0 r2 None Hr') as (a2 & A2 & _). rewrite A2 in H. cbn [mbind option_bind] in H.
    destruct (add_remainder_spec m r' 6 b (f0 ++ a2) r4 (Some (5 * base)) Hr') as (a4 & A4 & _). rewrite A4 in H. cbn [mbind option_bind] in H.
    destruct (add_remainder_spec m r' 7 b ((f0 ++ a2) ++ a4) r3 (Some (3 * base)) Hr') as (a3 & A3 & _). rewrite A3 in H. cbn [mbind option_bind] in H.
    destruct (add_remainder_spec m r' 8 b (((f0 ++ a2) ++ a4) ++ a3) r1 None Hr') as (a1 & A1 & _). rewrite A1 in H. cbn [mbind option_bind] in H.
    destruct (add_remainder_spec m r' 9 b ((((f0 ++ a2) ++ a4) ++ a3) ++ a1) r0 None Hr') as (a0 & A0 & _). rewrite A0 in H.
    injection H as <-. clearbody f0. rewrite !fmap_app, !elem_of_app.
    clear - Hf0. tauto.
  Qed.

  Lemma favour_batch e o rate pile cs batch c : weights_ok e → NoDup (exercise_id <$> cs) →
    c ∈ cs → 1 ≤ length (windows_of (oc_filter o) (exercise_score c)) → exercise_id c = x →
    fge (exercise_score c) f_4_5 = false ∨ ¬ covered_times e cs c 10 →
    finish_candidates m r' e o rate pile cs = Some batch → x ∈ exercise_id <$> batch.
  Proof using Hr.
    intros He Hnd Hc Hw Hx Hkeep H. pose proof (favour_ok r x Hr) as Hr'.
    destruct (finish_split _ _ _ _ _ _ _ _ Hr' H) as (k & final & extra & Ek & Ef & Hp & _ & _ & _).
    destruct (knock_spec _ _ _ _ He (units_ok _ Hr') Hnd Ek) as [(cs' & Hs & Hsub & Hhi) [Hdrop _]].
    assert (Hin : exercise_id c ∈ exercise_id <$> ko_candidates k).
    { destruct (decide (exercise_id c ∈ exercise_id <$> ko_candidates k)) as [|Hout]; [done|].
      destruct (Hdrop c Hc Hout) as [H1 H2]. destruct Hkeep as [Hk|Hk]; [congruence|done]. }
    apply elem_of_list_fmap in Hin as (d & Hcd & Hd).
    assert (Hd' : d ∈ cs') by (eapply elem_of_submseteq; [exact Hd|by apply sublist_submseteq]).
    destruct (same_scores _ _ _ Hs Hd') as (d' & Hdd & Heq).
    assert (d' = c) as ->.
    { apply (ids_inj cs); [done|done|done|]. destruct Heq as (-> & _). done. }
    destruct Heq as (_ & _ & _ & _ & Hsc & _). rewrite Hsc in Hw.
    assert (Hfin : x ∈ exercise_id <$> final).
    { apply (favour_filter (oc_filter o) rate k final d); [done|done|done|congruence|done]. }
    rewrite Hp, fmap_app. apply elem_of_app. by left.
  Qed.
End favour.

Lemma can_be_chosen ops e m r o rate pile cs c : choices_ok r → edges_of (grun ops) e →
  NoDup (exercise_id <$> cs) → c ∈ cs → 1 ≤ length (windows_of (oc_filter o) (exercise_score c)) →
  fge (exercise_score c) f_4_5 = false ∨ ¬ covered_times e cs c 10 →
  ∃ draw batch, choices_ok (with_draw r draw) ∧
    finish_candidates m (with_draw r draw) e o rate pile cs = Some batch ∧ exercise_id c ∈ exercise_id <$> batch.
Proof.
  intros Hr He Hnd Hc Hw Hkeep. pose proof (favour_ok r (exercise_id c) Hr) as Hr'.
  assert (Hok : edges_ok e) by apply He.
  destruct (batch_total m _ e o rate pile cs Hr' Hok) as [batch Hb].
  exists (favour (exercise_id c)), batch. split; [done|]. split; [done|].
  eapply favour_batch; [done|by eapply edges_of_weights|done|exact Hc|done|done|done|exact Hb].
Qed.

Lemma request_can_give env os fuel checks time m r e oc rate pile f uf cs c :
  opened (s_lib env) → (∀ i, orders_ok (os i)) → choices_ok r → uses env checks time f uf →
  edges_of (s_graph env) e → lists_once uf → (∀ x, x ∈ pile → get_unit_type (s_graph env) x = Some Exercise) →
  initial_candidates env os fuel checks time f = Found cs → c ∈ cs →
  1 ≤ length (windows_of (oc_filter oc) (exercise_score c)) →
  fge (exercise_score c) f_4_5 = false ∨ ¬ covered_times e cs c 10 →
  ∃ draw es, choices_ok (with_draw r draw) ∧
    get_exercise_batch env os fuel checks time m (with_draw r draw) e oc rate pile f = BatchOf es ∧
    exercise_id c ∈ em_id <$> es.
Proof.
  intros Hlib Ho Hr Hu He Hl Hpile Hi Hc Hw Hkeep. pose proof (opened_ok _ Hlib) as K.
  pose proof (favour_ok r (exercise_id c) Hr) as Hr'. assert (Hok : edges_ok e) by apply He.
  assert (Hcs : unit_candidates env os fuel uf = Found cs) by (by rewrite <-(uses_initial _ _ _ _ _ _ _ Hu)).
  destruct (batch_succeeds env K m (with_draw r (favour (exercise_id c))) Hr' e oc rate pile cs) as [es Hes]; [done| |done|].
  { intros d Hd. by eapply candidates_in_place. }
  exists (favour (exercise_id c)), es. split; [done|]. unfold get_exercise_batch. rewrite Hi. split; [exact Hes|].
  apply batch_ids_of in Hes as (cs' & batch & [= <-] & Hf & ->); [|done].
  eapply (favour_batch m r Hr); [| |exact Hc|done|done|exact Hkeep|exact Hf].
  - eapply graph_weights; [apply (k_inv _ K)|done].
  - by eapply candidates_once.
Qed.
