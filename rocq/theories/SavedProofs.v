(** Facts about the managers of saved filters and study sessions. *)
From stdpp Require Import gmap strings list sorting.
From Verif Require Import Library StrFacts FileSystem FileSpec.
Local Open Scope string_scope.
Local Open Scope list_scope.

Section saved.
  Context {A : Type} (id : A → string).
  Definition pairs (items : list A) : list (string * A) := (λ a, (id a, a)) <$> items.
  Lemma pairs_ids items : (pairs items).*1 = id <$> items.
  Proof. unfold pairs. rewrite <- list_fmap_compose. done. Qed.
  Lemma scan_saved_some entries : ∀ found m, scan_saved id found entries = Some m →
    ∃ items, entries = Some <$> items ∧ NoDup (id <$> items) ∧ (∀ a, a ∈ items → found !! id a = None) ∧ m = list_to_map (pairs items) ∪ found.
  Proof.
    induction entries as [|[a|] entries IH]; intros found m; cbn [scan_saved].
    - intros [= <-]. exists []. split; [done|]. split; [apply NoDup_nil_2|]. split; [intros a Ha; inversion Ha|]. cbn. rewrite map_empty_union. done.
    - case_bool_decide as Ha; [done|]. intros H. apply IH in H as (items & -> & Hnd & Hnew & ->). apply eq_None_not_Some in Ha.
      assert (id a ∉ id <$> items) as Hn.
      { intros (b & Hb & Hin)%elem_of_list_fmap. apply Hnew in Hin. rewrite <- Hb, lookup_insert in Hin. done. }
      exists (a :: items). split; [done|]. split; [apply NoDup_cons; done|]. split.
      + intros b [->|Hb]%elem_of_cons; [done|]. pose proof (Hnew b Hb) as Hf. rewrite lookup_insert_ne in Hf; [done|].
        intros E. apply Hn. rewrite E. apply elem_of_list_fmap_1. done.
      + cbn. rewrite <- insert_union_l, insert_union_r; [done|]. apply not_elem_of_list_to_map. fold (pairs items). rewrite pairs_ids. done.
    - done.
  Qed.
  Lemma scan_saved_run items : ∀ found, NoDup (id <$> items) → (∀ a, a ∈ items → found !! id a = None) →
    scan_saved id found (Some <$> items) = Some (list_to_map (pairs items) ∪ found).
  Proof.
    induction items as [|a items IH]; intros found Hnd Hnew; cbn.
    - rewrite map_empty_union. done.
    - apply NoDup_cons in Hnd as [Hn Hnd]. rewrite bool_decide_eq_false_2 by (rewrite (Hnew a); [intros [? ?]; done|left]).
      change (list_fmap A (option A) Some items) with (Some <$> items). rewrite IH; [|done|].
      + rewrite <- insert_union_l, insert_union_r; [done|]. apply not_elem_of_list_to_map. fold (pairs items). rewrite pairs_ids. done.
      + intros b Hb. rewrite lookup_insert_ne; [apply Hnew; right; done|]. intros E. apply Hn. rewrite E. apply elem_of_list_fmap_1. done.
  Qed.
  Lemma saved_some entries m : open_saved id entries = Some m → ∃ items, entries = Some <$> items ∧ NoDup (id <$> items) ∧ m = list_to_map (pairs items).
  Proof. intros H. apply scan_saved_some in H as (items & H1 & H2 & _ & ->). exists items. rewrite map_union_empty. done. Qed.
  Lemma saved_run items : NoDup (id <$> items) → open_saved id (Some <$> items) = Some (list_to_map (pairs items)).
  Proof. intros H. unfold open_saved. rewrite scan_saved_run; [rewrite map_union_empty; done|done|]. intros a _. apply lookup_empty. Qed.
  Lemma saved_opens entries : is_Some (open_saved id entries) ↔ ∃ items, entries = Some <$> items ∧ NoDup (id <$> items).
  Proof.
    split; [intros [m H]; apply saved_some in H as (items & H1 & H2 & _); eauto|]. intros (items & -> & H). rewrite saved_run by done. eauto.
  Qed.
  Lemma saved_items (items items' : list A) : Some <$> items = Some <$> items' → items = items'.
  Proof. intros H. apply (inj (fmap Some)) in H. done. Qed.
  Lemma saved_get items m : open_saved id (Some <$> items) = Some m → ∀ i a, get_saved m i = Some a ↔ a ∈ items ∧ id a = i.
  Proof.
    intros H. apply saved_some in H as (items' & E & Hnd & ->). apply saved_items in E. subst items'. intros i a. unfold get_saved.
    assert (NoDup (pairs items).*1) as Hp by (rewrite pairs_ids; done).
    rewrite <- elem_of_list_to_map by done. unfold pairs. rewrite elem_of_list_fmap. split; [intros (b & [= -> ->] & Hb); done|intros [Ha <-]; eauto].
  Qed.
  Context (describe : A → string).
  Definition shown (a : A) : string * string := (id a, describe a).
  Lemma saved_list items m visited : open_saved id (Some <$> items) = Some m → visited ≡ₚ map_to_list m →
    list_saved describe visited ≡ₚ shown <$> items ∧ Sorted uid_le (list_saved describe visited).*1 ∧ NoDup (list_saved describe visited).*1.
  Proof.
    intros H Hv. apply saved_some in H as (items' & E & Hnd & ->). apply saved_items in E. subst items'.
    rewrite map_to_list_to_map in Hv by (rewrite pairs_ids; done).
    assert (list_saved describe visited ≡ₚ shown <$> items) as HP.
    { unfold list_saved. rewrite merge_sort_Permutation, Hv. unfold pairs. rewrite <- list_fmap_compose. done. }
    split; [done|]. split.
    - assert (Sorted pair_le (list_saved describe visited)) as HS.
      { unfold list_saved. apply Sorted_merge_sort. intros a b. unfold pair_le. apply (total uid_le). }
      revert HS. generalize (list_saved describe visited). clear. induction l as [|a l IH]; intros HS; cbn; [constructor|].
      apply Sorted_inv in HS as [H1 H2]. constructor; [auto|]. destruct l as [|b l]; cbn; constructor. inversion H2. done.
    - assert ((list_saved describe visited).*1 ≡ₚ id <$> items) as ->; [|done]. rewrite HP, <- list_fmap_compose. done.
  Qed.
  Lemma saved_order entries entries' m : entries' ≡ₚ entries → open_saved id entries = Some m → open_saved id entries' = Some m.
  Proof.
    intros HP H. apply saved_some in H as (items & -> & Hnd & ->). apply Permutation_map_inv in HP as (items' & -> & HP). change (map Some items') with (Some <$> items').
    rewrite saved_run by (rewrite <- HP; done). f_equal. symmetry. apply list_to_map_proper; [rewrite pairs_ids; done|]. unfold pairs. rewrite HP. done.
  Qed.
  Lemma saved_list_order m visited visited' : visited ≡ₚ map_to_list m → visited' ≡ₚ map_to_list m → list_saved describe visited = list_saved describe visited'.
  Proof.
    intros H1 H2. assert (NoDup visited.*1) as Hnd by (rewrite H1; apply NoDup_fst_map_to_list). rewrite <- H2 in H1. unfold list_saved.
    set (g := λ x : string * A, (x.1, describe x.2)). 
    assert (NoDup (g <$> visited).*1) as Hnd' by (rewrite <- list_fmap_compose; exact Hnd).
    assert (g <$> visited ≡ₚ g <$> visited') as HP by (rewrite H1; done). revert Hnd' HP. generalize (g <$> visited) (g <$> visited'). clear. intros l l' Hnd HP.
    assert (merge_sort pair_le l ≡ₚ merge_sort pair_le l') as HM by (rewrite !merge_sort_Permutation; done).
    assert (∀ l, Sorted pair_le (merge_sort pair_le l)) as HS by (intros k; apply Sorted_merge_sort; intros a b; apply (total uid_le)).
    assert (Transitive pair_le) as HT by (intros a b c; unfold pair_le; apply (transitivity (R := uid_le))).
    assert (NoDup (merge_sort pair_le l).*1) as Hnd2 by (rewrite merge_sort_Permutation; done).
    assert (S1 := Sorted_StronglySorted pair_le _ (HS l)). assert (S2 := Sorted_StronglySorted pair_le _ (HS l')).
    revert HM Hnd2 S1 S2. generalize (merge_sort pair_le l) (merge_sort pair_le l'). clear. intros l. induction l as [|a l IH]; intros l' HP Hnd S1 S2.
    - apply Permutation_nil_l in HP. done.
    - destruct l' as [|b l']; [apply Permutation_nil_r in HP; done|].
      assert (a = b) as <-.
      { apply StronglySorted_inv in S1 as [_ F1], S2 as [_ F2].
        assert (b ∈ a :: l) as Hb by (rewrite HP; left). assert (a ∈ b :: l') as Ha by (rewrite <- HP; left).
        apply elem_of_cons in Hb as [->|Hb]; [done|]. apply elem_of_cons in Ha as [->|Ha]; [done|].
        rewrite Forall_forall in F1, F2. apply F1 in Hb as L1. apply F2 in Ha as L2. exfalso.
        rewrite fmap_cons in Hnd. apply NoDup_cons in Hnd as [Hn _]. apply Hn. rewrite (anti_symm uid_le a.1 b.1 L1 L2). apply elem_of_list_fmap_1. done. }
      f_equal. apply IH; [apply Permutation_cons_inv in HP; done|rewrite fmap_cons in Hnd; apply NoDup_cons in Hnd as [_ ?]; done|apply StronglySorted_inv in S1 as [? _]; done|apply StronglySorted_inv in S2 as [? _]; done].
  Qed.
End saved.
