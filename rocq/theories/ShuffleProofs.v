(** Proofs about the final order of a batch. *)
From stdpp Require Import gmap strings list sorting.
From Coq Require Import ZArith Ascii.
From Verif Require Import F32 Graph Library LibraryQueries Options Batch BatchSpec KnockProofs SelectProofs.

(** ** The order on strings is transitive *)
Lemma ascii_compare_trans a b c : (Ascii.compare a b ≠ Gt → Ascii.compare b c ≠ Gt → Ascii.compare a c ≠ Gt) ∧
  (Ascii.compare a b = Lt → Ascii.compare b c ≠ Gt → Ascii.compare a c = Lt) ∧
  (Ascii.compare a b ≠ Gt → Ascii.compare b c = Lt → Ascii.compare a c = Lt).
Proof. unfold Ascii.compare. rewrite <-!N.le_ngt || idtac. split_and!; rewrite ?N.compare_gt_iff, ?N.compare_lt_iff; lia. Qed.
Lemma ascii_compare_eq a b : Ascii.compare a b = Eq ↔ a = b.
Proof. split; [apply Ascii.compare_eq_iff|intros ->]. unfold Ascii.compare. by apply N.compare_eq_iff. Qed.
Lemma string_leb_trans a : ∀ b c, String.leb a b = true → String.leb b c = true → String.leb a c = true.
Proof.
  unfold String.leb. induction a as [|x a IH]; intros [|y b] [|z c]; simpl; try done.
  specialize (IH b c). destruct (ascii_compare_trans x y z) as (T1 & T2 & T3).
  destruct (Ascii.compare x y) eqn:E1, (Ascii.compare y z) eqn:E2; try done; intros H1 H2.
  - apply ascii_compare_eq in E1 as ->. rewrite E2. by apply IH.
  - by rewrite T3.
  - by rewrite T2.
  - by rewrite T2.
Qed.
Global Instance course_le_trans : Transitive course_le.
Proof. intros a b c. unfold course_le, uid_le. apply string_leb_trans. Qed.
Global Instance course_le_total : Total course_le.
Proof. intros a b. apply uid_le_total. Qed.
Lemma course_le_antisym a b : course_le a b → course_le b a → course_id a = course_id b.
Proof. intros H1 H2. by apply String.leb_antisym. Qed.

(** ** Chunks *)
Lemma chunk_spec cs : StronglySorted course_le cs → ∃ keys, mjoin (chunk_by_course cs) = cs ∧
  Forall2 (λ k g, g ≠ [] ∧ Forall (λ c, course_id c = k) g) keys (chunk_by_course cs) ∧ NoDup keys.
Proof.
  induction cs as [|c cs IH]; intros Hs; [exists []; split_and!; constructor|].
  apply StronglySorted_inv in Hs as [Hs Hc]. destruct (IH Hs) as (keys & Hj & Hk & Hnd). simpl.
  destruct (chunk_by_course cs) as [|[|d g] gs] eqn:Eg.
  - inversion Hk; subst. exists [course_id c]. split_and!; [by simpl|by repeat constructor|apply NoDup_singleton].
  - inversion Hk; subst. destruct H2 as [? _]. done.
  - inversion Hk as [|k ? keys' ? [_ Hg] Hk']; subst.
    apply Forall_cons in Hg as [Hd Hg]. case_bool_decide as Ec.
    + exists (k :: keys'). split_and!; [done| |done].
      constructor; [split; [done|]; constructor; [congruence|by constructor]|done].
    + exists (course_id c :: k :: keys'). split_and!; [done| |].
      * constructor; [by repeat constructor|]. constructor; [split; [done|by constructor]|done].
      * apply NoDup_cons. split; [|done]. intros Hin. apply elem_of_cons in Hin as [Hin|Hin]; [congruence|].
        apply elem_of_list_lookup in Hin as [i Hi]. destruct (Forall2_lookup_l _ _ _ _ _ Hk' Hi) as (h & Hh & Hne & Hall).
        destruct h as [|x h]; [done|]. apply Forall_cons in Hall as [Hx _].
        assert (Hx' : x ∈ mjoin gs).
        { apply elem_of_list_join. exists (x :: h). split; [left|]. by eapply elem_of_list_lookup_2. }
        change (mjoin ((d :: g) :: gs)) with (d :: g ++ mjoin gs) in *. assert (Hdx : course_le d x).
        { apply StronglySorted_inv in Hs as [_ Hs].
          rewrite Forall_forall in Hs. apply Hs. set_solver. }
        rewrite Forall_forall in Hc. assert (course_le c d) by (apply Hc; set_solver).
        apply Ec. apply course_le_antisym; [done|]. unfold course_le in *. by rewrite <-Hx.
Qed.

Lemma chunks3_ind (P : list candidate → Prop) : P [] → (∀ a, P [a]) → (∀ a b, P [a; b]) →
  (∀ a b c l, P l → P (a :: b :: c :: l)) → ∀ l, P l.
Proof.
  intros H0 H1 H2 H3. fix F 1. intros [|a [|b [|c l]]]; [exact H0|apply H1|apply H2|apply H3, F].
Qed.
Lemma chunks3_join l : mjoin (chunks3 l) = l.
Proof. induction l using chunks3_ind; try done. simpl. by do 3 f_equal. Qed.
Lemma chunks3_length l : Forall (λ g, 1 ≤ length g ≤ 3) (chunks3 l).
Proof. induction l using chunks3_ind; repeat constructor; try done; simpl; lia. Qed.
Lemma chunks3_short l : length (filter (λ g, length g < 3) (chunks3 l)) ≤ 1.
Proof.
  induction l as [|a|a b|a b c l IH] using chunks3_ind; cbn [chunks3]; rewrite ?filter_cons.
  - simpl. lia.
  - destruct (decide _); simpl; lia.
  - destruct (decide _); simpl; lia.
  - rewrite decide_False; [done|]. simpl. lia.
Qed.

Lemma join_perm {A} (a b : list (list A)) : a ≡ₚ b → mjoin a ≡ₚ mjoin b.
Proof.
  intros H. induction H; [done| | |by etrans].
  - by apply Permutation_app_head.
  - simpl. rewrite !app_assoc. apply Permutation_app_tail, Permutation_app_comm.
Qed.
Lemma join_app {A} (a b : list (list A)) : mjoin (a ++ b) = mjoin a ++ mjoin b.
Proof. induction a as [|x a IH]; [done|]. simpl. by rewrite <-app_assoc, <-IH. Qed.
Lemma join_join {A} (l : list (list (list A))) : mjoin (mjoin l) = mjoin ((λ x, mjoin x) <$> l).
Proof.
  induction l as [|x l IH]; [done|]. rewrite fmap_cons. change (mjoin (?a :: ?l)) with (a ++ mjoin l).
  by rewrite join_app, IH.
Qed.
Lemma join_singletons {A} (l : list A) : mjoin ((λ c, [c]) <$> l) = l.
Proof. induction l as [|x l IH]; [done|]. simpl. f_equal. exact IH. Qed.
Lemma imap_perm {A} (f : nat → list A → list A) (l : list (list A)) : (∀ i x, f i x ≡ₚ x) →
  mjoin (imap f l) ≡ₚ mjoin l.
Proof.
  revert f. induction l as [|x l IH]; intros f Hf; [done|]. rewrite imap_cons.
  change (mjoin (?a :: ?l)) with (a ++ mjoin l). apply Permutation_app; [apply Hf|]. apply IH. intros. apply Hf.
Qed.
Lemma imap_snd {A B} (f : nat → A) (l : list B) : (imap (λ i g, (f i, g)) l).*2 = l.
Proof.
  revert f. induction l as [|x l IH]; intros f; [done|]. rewrite imap_cons, fmap_cons. cbn [snd]. f_equal.
  exact (IH (λ i, f (S i))).
Qed.

Section shuffle.
  Context (r : choices) (Hr : choices_ok r) (o : scheduler_options) (cs : list candidate).
  Definition final_groups : list (list candidate) :=
    (merge_sort key_le (imap (λ i g, (r_key r i, g)) (shuffle_groups r o cs))).*2.
  Lemma final_groups_perm : final_groups ≡ₚ shuffle_groups r o cs.
  Proof using. unfold final_groups. rewrite merge_sort_Permutation. by rewrite imap_snd. Qed.

  Lemma low_sorted_perm P : mjoin (chunk_by_course (merge_sort course_le (List.filter P cs))) ≡ₚ List.filter P cs.
  Proof using.
    destruct (chunk_spec (merge_sort course_le (List.filter P cs))) as (keys & -> & _).
    - apply (StronglySorted_merge_sort course_le).
    - apply merge_sort_Permutation.
  Qed.
  Lemma shuffle_perm : shuffle_candidates r o cs ≡ₚ cs.
  Proof using Hr.
    unfold shuffle_candidates. fold final_groups. rewrite (join_perm _ _ final_groups_perm).
    unfold shuffle_groups. rewrite join_app, join_singletons, join_join, fmap_imap.
    rewrite imap_perm; [rewrite low_sorted_perm; apply filter_split|].
    intros i x. simpl. rewrite chunks3_join. apply shuffle_ok, Hr.
  Qed.

  Definition short_of (course : uid) (g : list candidate) : Prop := low_group o course g ∧ length g < 3.
  Global Instance low_dec c : Decision (low o c).
  Proof using. unfold low. apply _. Defined.
  Global Instance low_group_dec course g : Decision (low_group o course g).
  Proof using. unfold low_group. apply _. Defined.
  Global Instance short_of_dec course g : Decision (short_of course g).
  Proof using. unfold short_of. apply _. Defined.

  Lemma filter_nil {A} (P : A → Prop) `{∀ x, Decision (P x)} (l : list A) : (∀ x, x ∈ l → ¬ P x) → filter P l = [].
  Proof using.
    induction l as [|x l IH]; intros Hl; [done|]. rewrite filter_cons, decide_False by (apply Hl; left).
    apply IH. intros. apply Hl. by right.
  Qed.
  Lemma filter_imp {A} (P Q : A → Prop) `{∀ x, Decision (P x)} `{∀ x, Decision (Q x)} (l : list A) :
    (∀ x, x ∈ l → P x → Q x) → length (filter P l) ≤ length (filter Q l).
  Proof using.
    induction l as [|x l IH]; intros Hl; [done|]. rewrite !filter_cons.
    assert (length (filter P l) ≤ length (filter Q l)) by (apply IH; intros; apply Hl; [by right|done]).
    destruct (decide (P x)) as [Hp|]; [rewrite decide_True by (apply Hl; [left|done]); simpl; lia|].
    destruct (decide (Q x)); simpl; lia.
  Qed.

  Lemma chunk_groups (keys : list uid) : ∀ (gs : list (list candidate)) (f : nat → list candidate → list candidate),
    (∀ i x, f i x ≡ₚ x) → NoDup keys →
    Forall2 (λ k g, g ≠ [] ∧ Forall (λ c, course_id c = k) g) keys gs →
    ∀ course, length (filter (short_of course) (mjoin (imap (λ i ch, chunks3 (f i ch)) gs))) ≤ 1 ∧
      (course ∉ keys → filter (short_of course) (mjoin (imap (λ i ch, chunks3 (f i ch)) gs)) = []).
  Proof using Hr.
    induction keys as [|k keys IH]; intros gs f Hf Hnd Hk course; inversion Hk as [|? g ? gs' [Hg Hall] Hk']; subst.
    { simpl. split; [lia|done]. }
    apply NoDup_cons in Hnd as [Hnk Hnd].
    destruct (IH gs' (λ i, f (S i)) ltac:(intros; apply Hf) Hnd Hk' course) as [H1 H2].
    rewrite imap_cons. change (mjoin (?a :: ?l)) with (a ++ mjoin l). rewrite filter_app, app_length.
    change (imap ((λ i ch, chunks3 (f i ch)) ∘ S) gs') with (imap (λ i ch, chunks3 (f (S i) ch)) gs').
    assert (Hoff : course ≠ k → filter (short_of course) (chunks3 (f 0 g)) = []).
    { intros Hne. apply filter_nil. intros x Hx [[Hl Hc] _].
      destruct x as [|y x]; [simpl in Hl; lia|]. apply Forall_cons in Hc as [[_ Hy] _].
      assert (Hin : y ∈ g).
      { rewrite <-(Hf 0 g), <-(chunks3_join (f 0 g)). apply elem_of_list_join. exists (y :: x). split; [left|done]. }
      rewrite Forall_forall in Hall. apply Hall in Hin. congruence. }
    split.
    - destruct (decide (course = k)) as [->|Hne].
      + rewrite H2 by done. simpl. rewrite Nat.add_0_r.
        etrans; [apply (filter_imp _ (λ g, length g < 3))|apply chunks3_short]. by intros x _ [_ ?].
      + by rewrite (Hoff Hne).
    - intros Hni. rewrite Hoff, H2; [done| |]; set_solver.
  Qed.

  Lemma groups_short course : length (filter (short_of course) (shuffle_groups r o cs)) ≤ 1.
  Proof using Hr.
    unfold shuffle_groups. rewrite filter_app, app_length.
    rewrite (filter_nil (short_of course) (_ <$> _)).
    - rewrite Nat.add_0_r.
      destruct (chunk_spec (merge_sort course_le (List.filter (λ c, fle (exercise_score c) (range_hi (target_window o))) cs)))
        as (keys & _ & Hk & Hnd); [apply (StronglySorted_merge_sort course_le)|].
      apply (chunk_groups keys); [intros; apply shuffle_ok, Hr|done|done].
    - intros x Hx [[_ Hc] _]. apply elem_of_list_fmap in Hx as (c & -> & Hx).
      apply Forall_cons in Hc as [[Hlow _] _]. rewrite List_filter_filter in Hx. apply elem_of_list_filter in Hx as [Hx _].
      unfold low in Hlow. rewrite Hlow in Hx. done.
  Qed.
  Lemma groups_ok : Forall (group_ok o) (shuffle_groups r o cs).
  Proof using Hr.
    unfold shuffle_groups. apply Forall_app. split.
    - destruct (chunk_spec (merge_sort course_le (List.filter (λ c, fle (exercise_score c) (range_hi (target_window o))) cs)))
        as (keys & Hj & Hk & Hnd); [apply (StronglySorted_merge_sort course_le)|].
      apply Forall_forall. intros g Hg. right. apply elem_of_list_join in Hg as (l & Hg & Hl).
      apply elem_of_lookup_imap in Hl as (i & ch & -> & Hi).
      destruct (Forall2_lookup_r _ _ _ _ _ Hk Hi) as (k & _ & _ & Hall). exists k. split.
      + pose proof (chunks3_length (r_shuffle r i ch)) as H3. rewrite Forall_forall in H3. by apply H3.
      + apply Forall_forall. intros c Hc.
        assert (Hin : c ∈ ch).
        { rewrite <-(shuffle_ok r Hr i ch), <-(chunks3_join (r_shuffle r i ch)). apply elem_of_list_join. by exists g. }
        rewrite Forall_forall in Hall. split; [|by apply Hall].
        assert (Hc' : c ∈ mjoin (chunk_by_course (merge_sort course_le (List.filter (λ c, fle (exercise_score c) (range_hi (target_window o))) cs)))).
        { apply elem_of_list_join. exists ch. split; [done|]. by eapply elem_of_list_lookup_2. }
        rewrite low_sorted_perm, List_filter_filter in Hc'. by apply elem_of_list_filter in Hc' as [? _].
    - apply Forall_forall. intros g Hg. apply elem_of_list_fmap in Hg as (c & -> & Hc). left. exists c. split; [done|].
      rewrite List_filter_filter in Hc. apply elem_of_list_filter in Hc as [Hc _].
      unfold low. destruct (fle _ _); done.
  Qed.

  Lemma count_unique {A} (P : A → Prop) `{∀ x, Decision (P x)} (l : list A) i j x y : length (filter P l) ≤ 1 →
    l !! i = Some x → l !! j = Some y → P x → P y → i = j.
  Proof using Hr.
    revert i j. induction l as [|z l IH]; intros i j Hl Hi Hj Hx Hy; [done|]. rewrite filter_cons in Hl.
    assert (Hnone : ∀ n w, P z → l !! n = Some w → P w → False).
    { intros n w Hz Hn Hw. rewrite decide_True in Hl by done. simpl in Hl.
      assert (Hin : w ∈ filter P l) by (apply elem_of_list_filter; split; [done|by eapply elem_of_list_lookup_2]).
      destruct (filter P l); [set_solver|simpl in Hl; lia]. }
    destruct i as [|i], j as [|j]; simpl in Hi, Hj; [done| | |].
    - exfalso. injection Hi as <-. by eapply Hnone.
    - exfalso. injection Hj as <-. by eapply Hnone.
    - f_equal. eapply IH; try done. destruct (decide (P z)); simpl in Hl; lia.
  Qed.

  Lemma shuffle_grouped : well_grouped o (shuffle_candidates r o cs).
  Proof using Hr.
    exists final_groups. split; [done|]. split.
    - rewrite final_groups_perm. apply groups_ok.
    - intros i j g h course Hi Hj Hg Hh Lg Lh.
      eapply (count_unique (short_of course)); [|exact Hi|exact Hj|done|done].
      rewrite final_groups_perm. apply groups_short.
  Qed.
End shuffle.
