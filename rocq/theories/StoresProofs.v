(** Proofs about LIKE, and about the score and delta stores. *)
From stdpp Require Import gmap strings list sorting.
From Coq Require Import ZArith Ascii Lia.
From Verif Require Import F32 Graph Sql Stores StoresSpec.

(** * LIKE *)
Lemma app_cons a (s t : string) : String a s +:+ t = String a (s +:+ t).
Proof. done. Qed.
Lemma chars_nil s : chars s = [] → s = "".
Proof. destruct s as [|a s]; [done|]. simpl. destruct (chars s) as [|c cs]; [done|]. by destruct (starts_cont c). Qed.
Lemma chars_first s c cs : chars s = c :: cs → starts_cont c = starts_cont s.
Proof.
  destruct s as [|a s]; [done|]. simpl.
  destruct (chars s) as [|d ds] eqn:E; [by intros [= <- <-]|].
  destruct (starts_cont d); by intros [= <- <-].
Qed.
Lemma chars_app s t : starts_cont t = false → chars (s +:+ t) = chars s ++ chars t.
Proof.
  intros Ht. induction s as [|a s IH]; [done|].
  change (String a s +:+ t) with (String a (s +:+ t)). cbn [chars]. rewrite IH.
  destruct (chars s) as [|c cs] eqn:E.
  - simpl. destruct (chars t) as [|d ds] eqn:E'; [done|].
    rewrite (chars_first _ _ _ E'), Ht. done.
  - simpl. by destruct (starts_cont c).
Qed.
Definition cat (l : list string) : string := foldr (λ c s, c +:+ s) "" l.
Lemma cat_chars s : cat (chars s) = s.
Proof.
  induction s as [|a s IH]; [done|]. simpl. destruct (chars s) as [|c cs] eqn:E.
  - by rewrite (chars_nil s E).
  - destruct (starts_cont c); cbn [cat foldr] in *; rewrite ?app_cons; f_equal; exact IH.
Qed.
Lemma string_app_assoc (a b c : string) : (a +:+ b) +:+ c = a +:+ (b +:+ c).
Proof. induction a as [|x a IH]; [done|]. rewrite !app_cons. f_equal. exact IH. Qed.
Lemma cat_app a b : cat (a ++ b) = cat a +:+ cat b.
Proof. induction a as [|x a IH]; [done|]. simpl. rewrite IH. by rewrite string_app_assoc. Qed.
Lemma lower_case_app a b : lower_case (a +:+ b) = lower_case a +:+ lower_case b.
Proof. induction a as [|x a IH]; [done|]. rewrite app_cons. cbn [lower_case]. rewrite app_cons. f_equal. exact IH. Qed.

Lemma like_percent p s :
  like_chars ("%" :: p) s = like_chars p s || match s with [] => false | _ :: s => like_chars ("%" :: p) s end.
Proof. by destruct s. Qed.
Lemma like_all s : like_chars ["%"] s = true.
Proof. induction s as [|c s IH]; [done|]. rewrite like_percent. rewrite IH. by rewrite orb_true_r. Qed.
Lemma same_char_refl c : same_char c c = true.
Proof. unfold same_char. by rewrite String.eqb_refl. Qed.
Lemma like_self p s : like_chars (p ++ ["%"]) (p ++ s) = true.
Proof.
  induction p as [|x p IH]; [apply like_all|].
  destruct (String.eqb_spec x "%") as [->|H1].
  - change (("%" :: p) ++ ["%"]) with ("%" :: (p ++ ["%"])).
    rewrite like_percent. apply orb_true_iff. right.
    change (("%" :: p) ++ s) with ("%" :: (p ++ s)). cbv beta iota.
    destruct (p ++ s) eqn:E; rewrite like_percent, IH; done.
  - simpl. destruct (String.eqb_spec x "%"); [done|].
    destruct (String.eqb_spec x "_"); [apply IH|]. by rewrite same_char_refl, IH.
Qed.
Lemma like_prefix_complete p u : begins_with p u → like_prefix p u = true.
Proof.
  intros (r & -> & Hr). unfold like_prefix, like. rewrite (chars_app p "%") by done.
  rewrite (chars_app p r) by done. apply like_self.
Qed.

Lemma same_char_lower x c : same_char x c = true → lower_case x = lower_case c.
Proof.
  unfold same_char. intros [->%String.eqb_eq|H]%orb_true_iff; [done|].
  destruct x as [|a [|]], c as [|b [|]]; try done. simpl. by apply Ascii.eqb_eq in H as ->.
Qed.
Lemma like_plain p s : "%" ∉ p → "_" ∉ p → like_chars (p ++ ["%"]) s = true →
  ∃ q r, s = q ++ r ∧ lower_case (cat q) = lower_case (cat p).
Proof.
  revert s. induction p as [|x p IH]; intros s H1 H2 H.
  - by exists [], s.
  - apply not_elem_of_cons in H1 as [? ?]. apply not_elem_of_cons in H2 as [? ?].
    simpl in H. destruct (String.eqb_spec x "%"); [congruence|].
    destruct (String.eqb_spec x "_"); [congruence|].
    destruct s as [|c s]; [done|]. apply andb_true_iff in H as [Hc H].
    destruct (IH s) as (q & r & -> & Hq); [done..|].
    exists (c :: q), r. split; [done|]. simpl. rewrite !lower_case_app, Hq.
    by rewrite (same_char_lower _ _ Hc).
Qed.
Lemma like_prefix_plain p u : plain p → like_prefix p u = true → begins_with_nocase p u.
Proof.
  intros [H1 H2]. unfold like_prefix, like. rewrite (chars_app p "%") by done.
  intros (q & r & Hs & Hq)%like_plain; [|done..].
  exists (cat q), (cat r). rewrite <-cat_app, <-Hs, cat_chars. split; [done|].
  by rewrite Hq, cat_chars.
Qed.
(** * Newest items *)
Lemma newer_perm l l' ts : l ≡ₚ l' → newer l ts = newer l' ts.
Proof. intros H. unfold newer. by rewrite H. Qed.
Lemma tops_newer l : ∀ ts n, StronglySorted (λ a b, (b <= a)%Z) l → ts ∈ l →
  (ts ∈ take n l ↔ newer l ts < n).
Proof.
  induction l as [|x l IH]; intros ts n Hs Hin; [by apply elem_of_nil in Hin|].
  apply StronglySorted_inv in Hs as [Hs Hx].
  destruct n as [|n]; [simpl; split; [by intros ?%elem_of_nil|lia]|].
  cbn [take]. unfold newer. rewrite filter_cons. rewrite Forall_forall in Hx.
  destruct (decide (ts < x)%Z) as [Hlt|Hge].
  - simpl. apply elem_of_cons in Hin as [->|Hin]; [lia|].
    rewrite elem_of_cons. specialize (IH ts n Hs Hin). unfold newer in IH. split.
    + intros [->|H]; [lia|]. apply IH in H. lia.
    + intros H. right. apply IH. lia.
  - assert (ts = x) as ->.
    { apply elem_of_cons in Hin as [|Hin]; [done|]. apply Hx in Hin. lia. }
    assert (Hf : filter (λ y, (x < y)%Z) l = []).
    { clear -Hx. induction l as [|y l IH]; [done|]. rewrite filter_cons_False.
      - apply IH. intros z Hz. apply Hx. by right.
      - specialize (Hx y). assert (y ≤ x)%Z by (apply Hx; by left). lia. }
    rewrite Hf. simpl. split; [lia|]. intros _. by left.
Qed.

Section sorted.
  Context {B : Type} (f : B → Z).
  Lemma sorted_map l : StronglySorted (λ a b, (f b <= f a)%Z) l → StronglySorted (λ a b, (b <= a)%Z) (f <$> l).
  Proof using.
    induction 1 as [|x l Hs IH Hx]; simpl; constructor; [done|].
    rewrite Forall_fmap. done.
  Qed.
  Lemma sorted_take n l : StronglySorted (λ a b, (f b <= f a)%Z) l → StronglySorted (λ a b, (f b <= f a)%Z) (take n l).
  Proof using.
    intros H. revert n. induction H as [|x l Hs IH Hx]; intros [|n]; simpl; try constructor; [apply IH|].
    by apply Forall_take.
  Qed.
  Lemma sorted_split n l x y : StronglySorted (λ a b, (f b <= f a)%Z) l →
    x ∈ take n l → y ∈ drop n l → (f y <= f x)%Z.
  Proof using.
    intros H. revert n. induction H as [|z l Hs IH Hz]; intros [|n]; simpl; try by (intros ?%elem_of_nil || intros ? ?%elem_of_nil).
    intros [->|Hx]%elem_of_cons Hy; [|by eapply IH].
    rewrite Forall_forall in Hz. apply Hz. rewrite <-(take_drop n l). apply elem_of_app. by right.
  Qed.
End sorted.

Lemma newest_take {A} (l : list (row A)) n : StronglySorted later_first l →
  newest n ((λ r, (r_val r, r_ts r)) <$> l) ((λ r, (r_val r, r_ts r)) <$> take n l).
Proof.
  intros Hs. exists ((λ r, (r_val r, r_ts r)) <$> drop n l). split; [|split; [|split]].
  - by rewrite <-fmap_app, take_drop.
  - by rewrite !fmap_length, take_length.
  - assert (Ht := sorted_take r_ts n l Hs). clear Hs. induction Ht as [|x l' Hs IH Hx]; simpl; constructor; [done|].
    rewrite Forall_fmap. exact Hx.
  - intros x y Hx Hy. apply elem_of_list_fmap in Hx as (rx & -> & Hx). apply elem_of_list_fmap in Hy as (ry & -> & Hy).
    simpl. by apply (sorted_split r_ts n l).
Qed.
Lemma newest_perm {A} n (es es' l : list (item A)) : es ≡ₚ es' → newest n es l → newest n es' l.
Proof.
  intros H (rest & H1 & H2 & H3 & H4). exists rest. split; [by rewrite <-H|]. split; [by rewrite <-H|]. done.
Qed.

(** * Keys of units *)
Lemma uid_of_Some uids u k : uid_of uids u = Some k → uids !! k = Some u.
Proof.
  unfold uid_of. intros H. apply fmap_Some in H as ([i x] & H & ->).
  apply list_find_Some in H as (H & -> & _). done.
Qed.
Lemma uid_of_None uids u : uid_of uids u = None → u ∉ uids.
Proof.
  unfold uid_of. intros H. apply fmap_None in H. apply list_find_None in H.
  rewrite Forall_forall in H. intros Hu. by apply (H u).
Qed.
Lemma uid_of_lookup uids u k : NoDup uids → uids !! k = Some u → uid_of uids u = Some k.
Proof.
  intros Hn H. destruct (uid_of uids u) as [k'|] eqn:E.
  - apply uid_of_Some in E. f_equal. by eapply NoDup_lookup.
  - apply uid_of_None in E. exfalso. apply E. by eapply elem_of_list_lookup_2.
Qed.
Lemma add_uid_NoDup uids u : NoDup uids → NoDup (add_uid uids u).
Proof.
  unfold add_uid. case_bool_decide as H; [done|]. intros Hn. apply NoDup_app. split; [done|]. split; [|apply NoDup_singleton].
  intros x Hx ->%elem_of_list_singleton. done.
Qed.
Lemma add_uid_elem uids u : u ∈ add_uid uids u.
Proof. unfold add_uid. case_bool_decide as H; [done|]. apply elem_of_app. right. by left. Qed.
Lemma add_uid_prefix uids u k v : uids !! k = Some v → add_uid uids u !! k = Some v.
Proof. unfold add_uid. case_bool_decide; [done|]. intros H'. by apply lookup_app_l_Some. Qed.
Lemma add_uid_of uids u : NoDup uids → ∃ k, uid_of (add_uid uids u) u = Some k ∧
  (uid_of uids u = Some k ∨ (uid_of uids u = None ∧ k = length uids)).
Proof.
  intros Hn. destruct (uid_of uids u) as [k|] eqn:E.
  - exists k. split; [|by left]. apply uid_of_lookup; [by apply add_uid_NoDup|].
    apply add_uid_prefix. by apply uid_of_Some.
  - exists (length uids). split; [|by right]. apply uid_of_None in E.
    apply uid_of_lookup; [by apply add_uid_NoDup|]. unfold add_uid. case_bool_decide; [done|].
    rewrite lookup_app_r by lia. by rewrite Nat.sub_diag.
Qed.
Lemma add_uid_other uids u v : NoDup uids → v ≠ u → uid_of (add_uid uids u) v = uid_of uids v.
Proof.
  intros Hn Hv. destruct (uid_of uids v) as [k|] eqn:E.
  - apply uid_of_lookup; [by apply add_uid_NoDup|]. apply add_uid_prefix. by apply uid_of_Some.
  - apply uid_of_None in E. destruct (uid_of (add_uid uids u) v) as [k|] eqn:E'; [|done].
    apply uid_of_Some in E'. apply elem_of_list_lookup_2 in E'. exfalso. revert E'.
    unfold add_uid. case_bool_decide; [done|]. intros [?|?%elem_of_list_singleton]%elem_of_app; done.
Qed.

Lemma sublist_NoDup {B} (k l : list B) : NoDup k → l `sublist_of` k → NoDup l.
Proof.
  intros Hn H. induction H as [|x l k H IH|x l k H IH]; [constructor|..]; apply NoDup_cons in Hn as [Hx Hn].
  - apply NoDup_cons. split; [|by apply IH]. intros Hin. apply Hx.
    clear -H Hin. induction H as [|y l k H IH|y l k H IH]; [done|..].
    + apply elem_of_cons in Hin as [->|Hin]; [by left|right; by apply IH].
    + right. by apply IH.
  - by apply IH.
Qed.

(** * Tables *)
Section table_proofs.
  Context {A : Type} (bind : A → option A).
  Implicit Types (t : table A) (rows : list (row A)).
  Definition rows_of rows (k : nat) : list (row A) := filter (λ r, r_uid r = k) rows.
  Definition good_rows rows : Prop := NoDup (r_id <$> rows).
  Definition good t : Prop :=
    NoDup (t_uids t) ∧ good_rows (t_rows t) ∧ Forall (λ r, r_uid r < length (t_uids t)) (t_rows t).
  Definition item_row (r : row A) : item A := (r_val r, r_ts r).
  Lemma stored_eq t u : stored t u = match uid_of (t_uids t) u with None => [] | Some k => item_row <$> rows_of (t_rows t) k end.
  Proof using. done. Qed.

  Lemma rows_of_filter (P : row A → Prop) `{HdP : !∀ x, Decision (P x)} rows k :
    rows_of (filter P rows) k = filter P (rows_of rows k).
  Proof using.
    unfold rows_of. induction rows as [|r rows IH]; [done|].
    rewrite !filter_cons. destruct (decide (P r)) as [HP|HP], (decide (r_uid r = k)) as [Hk|Hk];
      rewrite ?filter_cons; repeat destruct (decide _); try done; by rewrite IH.
  Qed.
  Lemma filter_all (P : row A → Prop) `{HdP : !∀ x, Decision (P x)} (l : list (row A)) : (∀ r, r ∈ l → P r) → filter P l = l.
  Proof using.
    induction l as [|r l IH]; intros H; [done|]. rewrite filter_cons_True by (apply H; by left).
    f_equal. apply IH. intros x Hx. apply H. by right.
  Qed.
  Lemma filter_none (P : row A → Prop) `{HdP : !∀ x, Decision (P x)} (l : list (row A)) : (∀ r, r ∈ l → ¬ P r) → filter P l = [].
  Proof using.
    induction l as [|r l IH]; intros H; [done|]. rewrite filter_cons_False by (apply H; by left).
    apply IH. intros x Hx. apply H. by right.
  Qed.
  Lemma filter_ext_in {B} (P Q : B → Prop) `{HdP : !∀ x, Decision (P x)} `{HdQ : !∀ x, Decision (Q x)} (l : list B) :
    (∀ r, r ∈ l → P r ↔ Q r) → filter P l = filter Q l.
  Proof using.
    induction l as [|r l IH]; intros H; [done|]. rewrite !filter_cons.
    rewrite IH by (intros x Hx; apply H; by right).
    assert (P r ↔ Q r) by (apply H; by left).
    destruct (decide (P r)), (decide (Q r)); tauto.
  Qed.
  Lemma elem_of_rows_of rows k r : r ∈ rows_of rows k ↔ r_uid r = k ∧ r ∈ rows.
  Proof using. unfold rows_of. by rewrite elem_of_list_filter. Qed.
  Lemma sublist_filter (P : row A → Prop) `{HdP : !∀ x, Decision (P x)} (l : list (row A)) : filter P l `sublist_of` l.
  Proof using.
    induction l as [|r l IH]; [done|]. rewrite filter_cons. destruct (decide (P r)); [by apply sublist_skip|by apply sublist_cons].
  Qed.
  Lemma good_rows_filter (P : row A → Prop) `{HdP : !∀ x, Decision (P x)} rows : good_rows rows → good_rows (filter P rows).
  Proof using.
    unfold good_rows. intros H. eapply sublist_NoDup; [exact H|].
    apply fmap_sublist. apply sublist_filter.
  Qed.

  (** Trims. *)
  Lemma trim_unit_other q n k rows k' : k' ≠ k → rows_of (trim_unit q n k rows) k' = rows_of rows k'.
  Proof using.
    intros Hk. unfold trim_unit. rewrite rows_of_filter. apply filter_all.
    intros r [Hr _]%elem_of_rows_of [? _]. congruence.
  Qed.
  Lemma trim_unit_same q n k rows : sorts_newest_first q →
    item_row <$> rows_of (trim_unit q n k rows) k =
    filter (λ x, newer (item_row <$> rows_of rows k).*2 x.2 < n) (item_row <$> rows_of rows k).
  Proof using.
    intros Hq. unfold trim_unit. rewrite rows_of_filter. unfold newest_rows.
    change (filter (λ r, r_uid r = k) rows) with (rows_of rows k).
    destruct (Hq (rows_of rows k)) as [Hp Hs].
    set (l := rows_of rows k) in *.
    assert (Hts : (item_row <$> l).*2 = r_ts <$> l) by (rewrite <-list_fmap_compose; done).
    rewrite Hts.
    assert (Heq : ∀ r, r ∈ l → ¬ (r_uid r = k ∧ r_ts r ∉ r_ts <$> take n (q l)) ↔ newer (r_ts <$> l) (r_ts r) < n).
    { intros r Hr. rewrite fmap_take.
      rewrite (newer_perm (r_ts <$> l) (r_ts <$> q l)) by (by rewrite Hp).
      rewrite <-(tops_newer (r_ts <$> q l)).
      - assert (r_uid r = k) by (by apply elem_of_rows_of in Hr as [? _]).
        destruct (decide (r_ts r ∈ take n (r_ts <$> q l))); tauto.
      - by apply sorted_map.
      - rewrite Hp. by apply elem_of_list_fmap_1. }
    rewrite (filter_ext_in _ _ l Heq). clear.
    generalize (r_ts <$> l). intros ts. induction l as [|r l IH]; [done|].
    rewrite fmap_cons, !filter_cons. change ((item_row r).2) with (r_ts r).
    destruct (decide (newer ts (r_ts r) < n)); [|exact IH]. rewrite fmap_cons. by rewrite IH.
  Qed.
  Lemma trim_unit_by_id_other q n k rows k' : sorts_newest_first q → good_rows rows → k' ≠ k →
    rows_of (trim_unit_by_id q n k rows) k' = rows_of rows k'.
  Proof using.
    intros Hq Hg Hk. unfold trim_unit_by_id. rewrite rows_of_filter. apply filter_all.
    intros r [Hr Hin]%elem_of_rows_of Hid. unfold newest_rows in Hid.
    apply elem_of_list_fmap in Hid as (r' & Hid & Hr').
    assert (Hr'' : r' ∈ q (filter (λ r, r_uid r = k) rows)).
    { rewrite <-(take_drop n (q _)). apply elem_of_app. by right. }
    rewrite (proj1 (Hq _)) in Hr''. apply elem_of_list_filter in Hr'' as [Hr2 Hin'].
    assert (r = r') as ->; [|congruence].
    apply elem_of_list_lookup in Hin as [i Hi]. apply elem_of_list_lookup in Hin' as [j Hj].
    assert (i = j) as ->; [|congruence].
    eapply (NoDup_lookup (r_id <$> rows)); [exact Hg| |].
    - rewrite list_lookup_fmap, Hi. done.
    - rewrite list_lookup_fmap, Hj. simpl. by rewrite Hid.
  Qed.
  Lemma rows_of_NoDup rows k : good_rows rows → NoDup (r_id <$> rows_of rows k).
  Proof using. intros H. by apply (good_rows_filter (λ r, r_uid r = k)). Qed.
  Lemma trim_unit_by_id_same q n k rows : sorts_newest_first q → good_rows rows →
    rows_of (trim_unit_by_id q n k rows) k ≡ₚ take n (q (rows_of rows k)).
  Proof using.
    intros Hq Hg. unfold trim_unit_by_id. rewrite rows_of_filter. unfold newest_rows.
    change (filter (λ r, r_uid r = k) rows) with (rows_of rows k).
    pose proof (rows_of_NoDup rows k Hg) as Hn.
    destruct (Hq (rows_of rows k)) as [Hp _]. revert Hp Hn.
    generalize (q (rows_of rows k)) as s. generalize (rows_of rows k) as l. clear. intros l s Hp Hn.
    trans (filter (λ r, r_id r ∉ r_id <$> drop n s) s); [by apply filter_Permutation|].
    rewrite <-Hp in Hn. rewrite <-(take_drop n s) in Hn. rewrite fmap_app in Hn.
    apply NoDup_app in Hn as (_ & Hd & _).
    assert (Hs : filter (λ r, r_id r ∉ r_id <$> drop n s) s =
      filter (λ r, r_id r ∉ r_id <$> drop n s) (take n s) ++ filter (λ r, r_id r ∉ r_id <$> drop n s) (drop n s)).
    { rewrite <-filter_app. by rewrite take_drop. }
    rewrite Hs. rewrite filter_all; [rewrite filter_none; [by rewrite app_nil_r|]|].
    - intros r Hr H. apply H. by apply elem_of_list_fmap_1.
    - intros r Hr. apply Hd. by apply elem_of_list_fmap_1.
  Qed.

  (** Loops over keys. *)
  Lemma fold_uids (P : list (row A) → Prop) (f : nat → list (row A) → list (row A)) ks :
    (∀ k rows, P rows → P (f k rows) ∧ ∀ k', k' ≠ k → rows_of (f k rows) k' = rows_of rows k') →
    NoDup ks → ∀ rows, P rows → P (fold_left (λ rows k, f k rows) ks rows) ∧
      ∀ k', (k' ∉ ks → rows_of (fold_left (λ rows k, f k rows) ks rows) k' = rows_of rows k') ∧
        (k' ∈ ks → ∃ rows', P rows' ∧ rows_of rows' k' = rows_of rows k' ∧
           rows_of (fold_left (λ rows k, f k rows) ks rows) k' = rows_of (f k' rows') k').
  Proof using.
    intros Hf. induction ks as [|k ks IH]; intros Hn rows HP.
    - split; [done|]. intros k'. split; [done|]. by intros ?%elem_of_nil.
    - apply NoDup_cons in Hn as [Hk Hn]. simpl. destruct (Hf k rows HP) as [HP' Ho].
      destruct (IH Hn (f k rows) HP') as [HP'' H]. split; [done|]. intros k'.
      destruct (H k') as [H1 H2]. split.
      + intros [Hne Hnin]%not_elem_of_cons. rewrite H1 by done. by apply Ho.
      + intros [->|Hin]%elem_of_cons.
        * exists rows. split; [done|]. split; [done|]. by apply H1.
        * destruct (H2 Hin) as (rows' & ? & Heq & ?). exists rows'. split; [done|]. split; [|done].
          rewrite Heq. apply Ho. intros ->. done.
  Qed.
  Lemma upto_NoDup stop ks : NoDup ks → NoDup (upto stop ks).
  Proof using. destruct stop as [i|]; [|done]. simpl. intros H. eapply sublist_NoDup; [exact H|]. apply sublist_take. Qed.
  Lemma upto_elem stop ks k : k ∈ upto stop ks → k ∈ ks.
  Proof using. destruct stop as [i|]; [|done]. simpl. intros H. rewrite <-(take_drop i ks). apply elem_of_app. by left. Qed.
  Lemma all_uids_NoDup t : NoDup (all_uids t).
  Proof using. apply NoDup_seq. Qed.
  Lemma all_uids_elem t k : k ∈ all_uids t ↔ k < length (t_uids t).
  Proof using. unfold all_uids. rewrite elem_of_seq. lia. Qed.

  (** Whatever the loop does to the unit it is at, in a good table. *)
  Lemma for_uids_spec stop f ks t (R : list (item A) → list (item A) → Prop) :
    good t → NoDup ks → (∀ k, k ∈ ks → k < length (t_uids t)) →
    (∀ k rows, good_rows rows → good_rows (f k rows) ∧ (∀ r, r ∈ f k rows → r ∈ rows) ∧
       (∀ k', k' ≠ k → rows_of (f k rows) k' = rows_of rows k') ∧
       R (item_row <$> rows_of rows k) (item_row <$> rows_of (f k rows) k)) →
    good (for_uids stop f ks t) ∧
    ∀ u, match uid_of (t_uids t) u with
         | Some k => if bool_decide (k ∈ ks)
             then R (stored t u) (stored (for_uids stop f ks t) u) ∨
                  (stop ≠ None ∧ stored (for_uids stop f ks t) u = stored t u)
             else stored (for_uids stop f ks t) u = stored t u
         | None => stored (for_uids stop f ks t) u = stored t u
         end.
  Proof using.
    intros (Hn & Hg & Hb) Hks Hkb Hf.
    destruct (fold_uids (λ rows, good_rows rows ∧ ∀ r, r ∈ rows → r ∈ t_rows t) f (upto stop ks))
      with (rows := t_rows t) as [[Hg' Hsub] H].
    { intros k rows [HP1 HP2]. destruct (Hf k rows HP1) as (H1 & H2 & H3 & _). split; [|done]. split; [done|].
      intros r Hr. by apply HP2, H2. }
    { by apply upto_NoDup. }
    { done. }
    split.
    { split; [done|]. split; [done|]. rewrite Forall_forall in *. intros r Hr. apply Hb. by apply Hsub. }
    intros u. unfold stored, for_uids. simpl. destruct (uid_of (t_uids t) u) as [k|] eqn:E; [|done].
    destruct (H k) as [H1 H2]. fold (rows_of (t_rows t) k). unfold rows_of in H1, H2 |- *.
    case_bool_decide as Hin.
    - destruct (decide (k ∈ upto stop ks)) as [Hup|Hup].
      + left. destruct (H2 Hup) as (rows' & [HP' _] & Heq & ->). rewrite <-Heq.
        apply (Hf k rows' HP').
      + right. split; [by intros ->|]. f_equal. by apply H1.
    - f_equal. apply H1. intros ?%upto_elem. done.
  Qed.

  Lemma trim_entries_spec q stop n t : sorts_newest_first q → good t →
    good (trim_entries q stop n t) ∧
    ∀ u, stored (trim_entries q stop n t) u = filter (λ x, newer (stored t u).*2 x.2 < n) (stored t u) ∨
         (stop ≠ None ∧ stored (trim_entries q stop n t) u = stored t u).
  Proof using.
    intros Hq Hg. destruct (for_uids_spec stop (trim_unit q n) (all_uids t) t
      (λ l l', l' = filter (λ x, newer l.*2 x.2 < n) l)) as [H1 H2]; [done|apply all_uids_NoDup|by intros ? ?%all_uids_elem| |].
    { intros k rows Hr. split; [by apply good_rows_filter|]. split; [by intros r [_ ?]%elem_of_list_filter|].
      split; [intros; by apply trim_unit_other|]. by apply trim_unit_same. }
    split; [done|]. intros u. specialize (H2 u). unfold trim_entries.
    destruct (uid_of (t_uids t) u) as [k|] eqn:E.
    - case_bool_decide as Hk; [exact H2|]. exfalso. apply Hk. apply all_uids_elem.
      apply uid_of_Some in E. by eapply lookup_lt_Some.
    - left. rewrite H2. assert (H0 : stored t u = []) by (unfold stored; by rewrite E). by rewrite H0.
  Qed.
  Lemma trim_by_id_spec q stop n t : sorts_newest_first q → good t →
    good (trim_entries_by_id q stop n t) ∧
    ∀ u, keeps_newest n (stored t u) (stored (trim_entries_by_id q stop n t) u) ∨
         (stop ≠ None ∧ stored (trim_entries_by_id q stop n t) u = stored t u).
  Proof using.
    intros Hq Hg. destruct (for_uids_spec stop (trim_unit_by_id q n) (all_uids t) t
      (λ l l', keeps_newest n l l')) as [H1 H2]; [done|apply all_uids_NoDup|by intros ? ?%all_uids_elem| |].
    { intros k rows Hr. split; [by apply good_rows_filter|]. split; [by intros r [_ ?]%elem_of_list_filter|].
      split; [intros; by apply trim_unit_by_id_other|].
      exists (item_row <$> take n (q (rows_of rows k))). split.
      - by rewrite trim_unit_by_id_same.
      - destruct (Hq (rows_of rows k)) as [Hp Hs].
        eapply newest_perm; [|by apply newest_take]. by rewrite Hp. }
    split; [done|]. intros u. specialize (H2 u). unfold trim_entries_by_id.
    destruct (uid_of (t_uids t) u) as [k|] eqn:E.
    - case_bool_decide as Hk; [exact H2|]. exfalso. apply Hk. apply all_uids_elem.
      apply uid_of_Some in E. by eapply lookup_lt_Some.
    - left. rewrite H2. unfold stored. rewrite E. exists []. split; [done|]. exists [].
      split; [done|]. split; [simpl; lia|]. split; [constructor|]. by intros ? ? ?%elem_of_nil.
  Qed.
  Lemma remove_prefix_spec stop p t : good t → good (remove_prefix stop p t) ∧
    ∀ u, if like_prefix p u then stored (remove_prefix stop p t) u = [] ∨
           (stop ≠ None ∧ stored (remove_prefix stop p t) u = stored t u)
         else stored (remove_prefix stop p t) u = stored t u.
  Proof using.
    intros Hg. destruct (for_uids_spec stop delete_unit (matching_uids p t) t (λ l l', l' = [])) as [H1 H2].
    { done. } { apply NoDup_filter, all_uids_NoDup. }
    { intros k Hk. apply elem_of_list_filter in Hk as [_ Hk]. by apply all_uids_elem. }
    { intros k rows Hr. unfold delete_unit. split; [by apply good_rows_filter|].
      split; [by intros r [_ ?]%elem_of_list_filter|].
      split.
      - intros k' Hk. rewrite rows_of_filter. apply filter_all. intros r [Hr' _]%elem_of_rows_of. congruence.
      - rewrite rows_of_filter. rewrite filter_none; [done|]. intros r [Hr' _]%elem_of_rows_of. tauto. }
    split; [done|]. intros u. specialize (H2 u).
    change (for_uids stop delete_unit (matching_uids p t) t) with (remove_prefix stop p t) in H2.
    destruct (uid_of (t_uids t) u) as [k|] eqn:E.
    - apply uid_of_Some in E. assert (Hk : k ∈ matching_uids p t ↔ like_prefix p u = true).
      { unfold matching_uids. rewrite elem_of_list_filter, E. rewrite all_uids_elem.
        apply lookup_lt_Some in E. tauto. }
      case_bool_decide as Hm.
      + apply Hk in Hm. rewrite Hm. exact H2.
      + destruct (like_prefix p u); [tauto|done].
    - assert (H0 : stored t u = []) by (unfold stored; by rewrite E).
      destruct (like_prefix p u); [|done]. left. by rewrite H2.
  Qed.

  (** Recording. *)
  Lemma fresh_id_fresh rows r : r ∈ rows → (r_id r < fresh_id rows)%Z.
  Proof using.
    unfold fresh_id. induction rows as [|x rows IH]; [by intros ?%elem_of_nil|].
    intros [->|Hr]%elem_of_cons; simpl; [lia|]. specialize (IH Hr). lia.
  Qed.
  Lemma insert_entry_spec t e : good t → ∃ t' k, insert_entry bind t e = Some t' ∧ good t' ∧
    uid_of (t_uids t') (e_unit e) = Some k ∧
    rows_of (t_rows t') k = (match uid_of (t_uids t) (e_unit e) with Some k => rows_of (t_rows t) k | None => [] end)
       ++ [Row (fresh_id (t_rows t)) k (bind (e_val e)) (e_ts e)] ∧
    ∀ u, stored t' u = stored t u ++ if bool_decide (e_unit e = u) then [(bind (e_val e), e_ts e)] else [].
  Proof using.
    intros (Hn & Hg & Hb). destruct (add_uid_of (t_uids t) (e_unit e) Hn) as (k & Hk & Hold).
    unfold insert_entry. rewrite Hk. eexists _, k. split; [done|].
    assert (Hlt : k < length (add_uid (t_uids t) (e_unit e))).
    { apply uid_of_Some in Hk. by eapply lookup_lt_Some. }
    assert (Hle : length (t_uids t) <= length (add_uid (t_uids t) (e_unit e))).
    { unfold add_uid. case_bool_decide; [done|]. rewrite app_length. lia. }
    set (r := Row (fresh_id (t_rows t)) k (bind (e_val e)) (e_ts e)).
    assert (Hnone : uid_of (t_uids t) (e_unit e) = None → rows_of (t_rows t) k = []).
    { intros E. destruct Hold as [?|[_ ->]]; [congruence|]. apply filter_none. intros x Hx.
      rewrite Forall_forall in Hb. specialize (Hb x Hx). lia. }
    assert (Hrows : rows_of (t_rows t ++ [r]) k = rows_of (t_rows t) k ++ [r]).
    { unfold rows_of. rewrite filter_app. f_equal. rewrite filter_cons_True; done. }
    assert (Hsame : (match uid_of (t_uids t) (e_unit e) with Some k => rows_of (t_rows t) k | None => [] end) = rows_of (t_rows t) k).
    { destruct Hold as [->|[E ->]]; [done|]. rewrite E. symmetry. by apply Hnone. }
    split; [|split; [|split]].
    - split; [by apply add_uid_NoDup|]. simpl. split.
      + unfold good_rows. rewrite fmap_app. apply NoDup_app. split; [done|]. split; [|apply NoDup_singleton].
        intros i Hi ->%elem_of_list_singleton. apply elem_of_list_fmap in Hi as (x & Hx & Hin).
        apply fresh_id_fresh in Hin. subst r. simpl in Hx. lia.
      + apply Forall_app. split; [|by constructor]. eapply Forall_impl; [exact Hb|]. simpl. intros; lia.
    - done.
    - simpl. by rewrite Hrows, Hsame.
    - intros u. unfold stored. simpl. case_bool_decide as Hu.
      + subst u. rewrite Hk. fold (rows_of (t_rows t ++ [r]) k). rewrite Hrows, fmap_app. f_equal.
        rewrite <-Hsame. by destruct (uid_of (t_uids t) (e_unit e)).
      + rewrite add_uid_other by congruence. rewrite app_nil_r.
        destruct (uid_of (t_uids t) u) as [k'|] eqn:E; [|done]. f_equal.
        rewrite filter_app. rewrite (filter_cons_False _ r); [by rewrite app_nil_r|].
        subst r. simpl. intros ->. apply uid_of_Some in Hk. apply uid_of_Some in E.
        apply (add_uid_prefix _ (e_unit e)) in E. congruence.
  Qed.
  Lemma insert_entries_spec es : ∀ t, good t → ∃ t', insert_entries bind t es = Some t' ∧ good t' ∧
    ∀ u, stored t' u = stored t u ++ ((λ x, (bind (e_val x), e_ts x)) <$> filter (λ x, e_unit x = u) es).
  Proof using.
    induction es as [|e es IH]; intros t Hg.
    - exists t. split; [done|]. split; [done|]. intros u. by rewrite app_nil_r.
    - destruct (insert_entry_spec t e Hg) as (t1 & k & E & Hg1 & _ & _ & Hs). simpl. rewrite E.
      destruct (IH t1 Hg1) as (t' & E' & Hg' & Hs'). exists t'. split; [done|]. split; [done|].
      intros u. rewrite Hs', Hs. rewrite filter_cons. rewrite <-app_assoc. f_equal.
      case_bool_decide; destruct (decide (e_unit e = u)); done.
  Qed.
  Lemma record_spec fault es t : good t → good (fst (record_entries bind fault t es)) ∧
    snd (record_entries bind fault t es) = negb fault ∧
    ∀ u, stored (fst (record_entries bind fault t es)) u = stored t u ++
      if fault then [] else (λ x, (bind (e_val x), e_ts x)) <$> filter (λ x, e_unit x = u) es.
  Proof using.
    intros Hg. unfold record_entries. destruct fault; simpl.
    - split; [done|]. split; [done|]. intros. by rewrite app_nil_r.
    - destruct (insert_entries_spec es t Hg) as (t' & E & Hg' & Hs). by rewrite E.
  Qed.

  (** Histories. *)
  Lemma good_empty : good empty_table.
  Proof using. split; [constructor|]. split; [constructor|]. constructor. Qed.
  Lemma store_step_spec t op : good t → op_ok op →
    good (store_step bind t op) ∧ effect bind op (stored t) (stored (store_step bind t op)).
  Proof using.
    intros Hg Hop. destruct op as [fault es|q stop n|stop p]; simpl in *.
    - destruct (record_spec fault es t Hg) as (H1 & _ & H2). split; [done|]. intros u. by rewrite H2.
    - destruct (trim_entries_spec q stop n t Hop Hg) as [H1 H2]. split; [done|]. intros u.
      destruct (H2 u) as [->|[? ->]]; [by left|by right].
    - destruct (remove_prefix_spec stop p t Hg) as [H1 H2]. split; [done|]. intros u. specialize (H2 u).
      destruct (like_prefix p u); [|by rewrite H2]. destruct H2 as [->|[? ->]]; [by left|by right].
  Qed.
  Lemma store_run_spec ops : Forall op_ok ops →
    good (store_run bind ops) ∧ holds_after bind ops (stored (store_run bind ops)).
  Proof using.
    induction ops as [|op ops IH] using rev_ind; intros Hok.
    - split; [apply good_empty|]. constructor.
    - apply Forall_app in Hok as [Hok Hop]. rewrite Forall_singleton in Hop. destruct (IH Hok) as [Hg Hh].
      unfold store_run. rewrite fold_left_app. simpl. fold (store_run bind ops).
      destruct (store_step_spec (store_run bind ops) op Hg Hop) as [H1 H2]. split; [done|].
      econstructor; done.
  Qed.

  (** Reading. *)
  Lemma get_entries_spec q t u n : sorts_newest_first q →
    match get_entries q t u n with
    | Some l => Forall (λ x, e_unit x = u) l ∧ newest n (stored t u) (item_of <$> l)
    | None => ∃ x, x ∈ stored t u ∧ x.1 = None
    end.
  Proof using.
    intros Hq. unfold get_entries, stored. destruct (uid_of (t_uids t) u) as [k|].
    - unfold newest_rows. fold (rows_of (t_rows t) k). set (l := rows_of (t_rows t) k).
      destruct (Hq l) as [Hp Hs]. destruct (mapM (decode_row u) (take n (q l))) as [es|] eqn:E.
      + apply mapM_Some in E.
        assert (Hes : item_of <$> es = item_row <$> take n (q l) ∧ Forall (λ x, e_unit x = u) es).
        { clear -E. induction E as [|r e rs es Hr E IH]; [done|]. destruct IH as [IH1 IH2].
          unfold decode_row in Hr. destruct (r_val r) as [a|] eqn:Ea; [|done]. simplify_eq/=.
          assert (Hi : item_row r = (Some a, r_ts r)) by (unfold item_row; by rewrite Ea).
          rewrite IH1, Hi. split; [done|]. by constructor. }
        destruct Hes as [Hes Hu]. split; [done|]. rewrite Hes.
        eapply newest_perm; [|by apply newest_take]. by rewrite Hp.
      + apply mapM_None in E. apply Exists_exists in E as (r & Hr & Hd).
        exists (item_row r). split.
        * apply elem_of_list_fmap_1. rewrite <-Hp, <-(take_drop n (q l)). apply elem_of_app. by left.
        * unfold decode_row in Hd. unfold item_row. simpl. by destruct (r_val r).
    - split; [constructor|]. exists []. split; [done|]. split; [simpl; lia|].
      split; [constructor|]. by intros ? ? ?%elem_of_nil.
  Qed.
  Lemma no_nulls_spec ops before : holds_after bind ops before → Forall (no_nulls bind) ops →
    ∀ u x, x ∈ before u → is_Some x.1.
  Proof using.
    induction 1 as [|ops op before after H IH He]; intros Hn u x Hx; [by apply elem_of_nil in Hx|].
    apply Forall_app in Hn as [Hn Hop]. rewrite Forall_singleton in Hop. specialize (IH Hn).
    destruct op as [fault es|q stop n|stop p]; simpl in *; specialize (He u).
    - rewrite He in Hx. apply elem_of_app in Hx as [Hx|Hx]; [by eapply IH|].
      destruct fault; [by apply elem_of_nil in Hx|].
      apply elem_of_list_fmap in Hx as (e & -> & Hin). apply elem_of_list_filter in Hin as [_ Hin].
      rewrite Forall_forall in Hop. simpl. rewrite (Hop e Hin). eauto.
    - destruct He as [He|[_ He]]; rewrite He in Hx; [apply elem_of_list_filter in Hx as [_ Hx]|]; by eapply IH.
    - destruct (like_prefix p u); [destruct He as [He|[_ He]]|]; rewrite He in Hx; [by apply elem_of_nil in Hx|by eapply IH..].
  Qed.
  Lemma store_history ops : Forall op_ok ops → ∃ held, holds_after bind ops held ∧
    ∀ q u n, sorts_newest_first q →
      match get_entries q (store_run bind ops) u n with
      | Some l => Forall (λ x, e_unit x = u) l ∧ newest n (held u) (item_of <$> l)
      | None => ∃ x, x ∈ held u ∧ x.1 = None
      end.
  Proof using.
    intros Hok. destruct (store_run_spec ops Hok) as [_ H].
    exists (stored (store_run bind ops)). split; [done|]. intros. by apply get_entries_spec.
  Qed.
  Lemma store_reads_succeed ops q u n : Forall op_ok ops → Forall (no_nulls bind) ops → sorts_newest_first q →
    is_Some (get_entries q (store_run bind ops) u n).
  Proof using.
    intros Hok Hn Hq. destruct (store_run_spec ops Hok) as [_ H].
    pose proof (get_entries_spec q (store_run bind ops) u n Hq) as Hg.
    destruct (get_entries q (store_run bind ops) u n); [by eexists|].
    destruct Hg as (x & Hx & Hx1). destruct (no_nulls_spec _ _ H Hn u x Hx). congruence.
  Qed.
End table_proofs.
