(** The listing queries of an opened library, serialization, and independence of the
    order in which the manifests are processed. *)
From stdpp Require Import gmap strings list relations sorting.
From Verif Require Import F32 Graph GraphSpec GraphProofs CycleProofs GraphMore Library LibrarySpec LibraryProofs LoadProofs.

Global Instance uid_le_total : Total uid_le.
Proof.
  intros a b. unfold uid_le. pose proof (String.leb_total a b) as H. done.
Qed.

Lemma sort_ids_perm l : sort_ids l ≡ₚ l.
Proof. apply merge_sort_Permutation. Qed.
Lemma sort_ids_sorted l : Sorted uid_le (sort_ids l).
Proof. apply Sorted_merge_sort. apply _. Qed.

Lemma sort_elements (s : gset uid) (P : uid → Prop) : (∀ u, u ∈ s ↔ P u) → lists_exactly (sort_ids (elements s)) P.
Proof.
  intros H. split; [apply sort_ids_sorted|]. split.
  - rewrite sort_ids_perm. apply NoDup_elements.
  - intros u. rewrite sort_ids_perm, elem_of_elements. apply H.
Qed.

Lemma declared_manifests courses d : d ∈ declared courses ↔
  (∃ cm, cm ∈ oc_manifest <$> courses ∧ d = course_decl cm) ∨
  (∃ lm, lm ∈ all_lessons courses ∧ d = lesson_decl lm) ∨
  (∃ em, em ∈ all_exercises courses ∧ d = exercise_decl em).
Proof.
  split.
  - unfold declared. rewrite elem_of_list_join. intros (l & Hd & Hl).
    apply elem_of_list_fmap in Hl as (oc & -> & Hoc). unfold course_decls in Hd.
    apply elem_of_cons in Hd as [->|Hd].
    { left. eexists. split; [|done]. apply elem_of_list_fmap. eauto. }
    apply elem_of_list_join in Hd as (l & Hd & Hl). apply elem_of_list_fmap in Hl as (le & -> & Hle).
    assert (le ∈ mjoin (oc_lessons <$> courses)) as Hin.
    { apply elem_of_list_join. exists (oc_lessons oc). split; [done|]. apply elem_of_list_fmap. eauto. }
    unfold lesson_decls in Hd. right. apply elem_of_cons in Hd as [->|Hd].
    { left. eexists. split; [|done]. apply elem_of_list_fmap. eauto. }
    apply elem_of_list_fmap in Hd as (em & -> & Hem). right. eexists. split; [|done].
    apply elem_of_list_join. exists le.2. split; [done|]. apply elem_of_list_fmap. eauto.
  - destruct (ids_sublists courses) as (H1 & H2 & H3).
    intros [(x & Hx & ->)|[(x & Hx & ->)|(x & Hx & ->)]].
    + eapply sublist_elem; [exact H1|]. apply elem_of_list_fmap. eauto.
    + eapply sublist_elem; [exact H2|]. apply elem_of_list_fmap. eauto.
    + eapply sublist_elem; [exact H3|]. apply elem_of_list_fmap. eauto.
Qed.

Lemma answers_default (s : option (gset uid)) x : x ∈ default ∅ s ↔ answers s x.
Proof. destruct s; simpl; [done|]. set_solver. Qed.

Lemma NoDup_mjoin (f : uid → list uid) (ls : list uid) :
  NoDup ls → (∀ l, l ∈ ls → NoDup (f l)) →
  (∀ l l' x, l ∈ ls → l' ∈ ls → x ∈ f l → x ∈ f l' → l = l') → NoDup (mjoin (f <$> ls)).
Proof.
  induction ls as [|l ls IH]; simpl; [constructor|].
  intros [Hl Hn]%NoDup_cons Hf Hd. apply NoDup_app. split_and!.
  - apply Hf. left.
  - intros x Hx (k & Hxk & Hk)%elem_of_list_join. apply elem_of_list_fmap in Hk as (l' & -> & Hl').
    assert (l = l') as -> by (eapply Hd; [left|right; done|done|done]). done.
  - apply IH; [done|intros; apply Hf; by right|]. intros l1 l2 x ????. apply (Hd l1 l2 x); [by right|by right|done|done].
Qed.

Lemma prefix_spec (p s : string) : String.prefix p s = true ↔ ∃ r, s = (p +:+ r)%string.
Proof.
  revert s. induction p as [|a p IH]; intros s.
  - split; [|by destruct s]. intros _. by exists s.
  - destruct s as [|b s]; [split; [done|]; intros [r Hr]; done|].
    change (String.prefix (String a p) (String b s)) with
      (if Ascii.ascii_dec a b then String.prefix p s else false).
    destruct (Ascii.ascii_dec a b) as [->|Hne].
    + rewrite IH. split; intros [r Hr]; exists r; [by rewrite Hr|by injection Hr].
    + split; [done|]. intros [r Hr]. injection Hr as -> _. done.
Qed.

Section queries.
  Context (o : order) (courses : list open_course) (lib : library).
  Context (Hc : Forall consistent courses) (Ho : open_library o courses = Some lib).

  Lemma types_by_manifest u :
    (says_type courses u Course ↔ ∃ cm, cm ∈ oc_manifest <$> courses ∧ cm_id cm = u) ∧
    (says_type courses u Lesson ↔ ∃ lm, lm ∈ all_lessons courses ∧ lm_id lm = u) ∧
    (says_type courses u Exercise ↔ ∃ em, em ∈ all_exercises courses ∧ em_id em = u).
  Proof using.
    unfold says_type. setoid_rewrite declared_manifests. split_and!; split.
    all: try (intros (d & [(x & Hx & ->)|[(x & Hx & ->)|(x & Hx & ->)]] & Hid & Ht); simpl in *; try done; eauto).
    - intros (x & Hx & <-). exists (course_decl x). eauto 10.
    - intros (x & Hx & <-). exists (lesson_decl x). eauto 10.
    - intros (x & Hx & <-). exists (exercise_decl x). eauto 10.
  Qed.

  Lemma dom_maps u :
    (u ∈ dom (course_map lib) ↔ says_type courses u Course) ∧
    (u ∈ dom (lesson_map lib) ↔ says_type courses u Lesson) ∧
    (u ∈ dom (exercise_map lib) ↔ says_type courses u Exercise).
  Proof using Hc Ho.
    destruct (manifests_lookup o courses lib Hc Ho) as (M1 & M2 & M3).
    destruct (types_by_manifest u) as (-> & -> & ->). rewrite !elem_of_dom. unfold is_Some.
    setoid_rewrite M1. setoid_rewrite M2. setoid_rewrite M3. done.
  Qed.

  Lemma course_ids : lists_exactly (get_course_ids lib) (λ u, says_type courses u Course).
  Proof using Hc Ho. apply sort_elements. intros u. apply dom_maps. Qed.

  Lemma lesson_ids c : 
    match get_lesson_ids lib c with
    | Some ls => lists_exactly ls (λ u, says_parent courses Lesson u c)
    | None => ∀ u, ¬ says_parent courses Lesson u c
    end.
  Proof using Hc Ho.
    pose proof (open_library_loaded o courses lib Hc Ho) as L. unfold get_lesson_ids.
    pose proof (λ l, l_cl _ _ L l c) as H. unfold answers in H.
    destruct (get_course_lessons _ c) as [s|]; simpl.
    - by apply sort_elements.
    - intros u Hu. by apply (H u).
  Qed.
  Lemma exercise_ids l :
    match get_exercise_ids lib l with
    | Some es => lists_exactly es (λ u, says_parent courses Exercise u l)
    | None => ∀ u, ¬ says_parent courses Exercise u l
    end.
  Proof using Hc Ho.
    pose proof (open_library_loaded o courses lib Hc Ho) as L. unfold get_exercise_ids.
    pose proof (λ e, l_le _ _ L e l) as H. unfold answers in H.
    destruct (get_lesson_exercises _ l) as [s|]; simpl.
    - by apply sort_elements.
    - intros u Hu. by apply (H u).
  Qed.

  Lemma lib_distinct : distinct_ids courses.
  Proof using Hc Ho.
    revert Ho. rewrite open_library_eq. destruct (load_decls_empty courses Hc) as [_ HS].
    destruct (try_fold gdecl (declared courses) empty_graph) as [g|] eqn:E; simpl; [|done].
    intros _. apply HS. eauto.
  Qed.
  Lemma declared_inj d d' : d ∈ declared courses → d' ∈ declared courses → d_id d = d_id d' → d = d'.
  Proof using Hc Ho.
    pose proof lib_distinct as Hn. unfold distinct_ids in Hn. revert Hn.
    induction (declared courses) as [|x ds IH]; simpl; [by intros _ ?%elem_of_nil|].
    intros [Hx Hn]%NoDup_cons. intros Hd Hd' Heq.
    apply elem_of_cons in Hd as [->|Hd], Hd' as [->|Hd']; [done| | |by apply IH].
    - exfalso. apply Hx. rewrite Heq. apply elem_of_list_fmap. eauto.
    - exfalso. apply Hx. rewrite <- Heq. apply elem_of_list_fmap. eauto.
  Qed.
  Lemma parent_types t u p : says_parent courses t u p →
    (t = Lesson → says_type courses p Course) ∧ (t = Exercise → says_type courses p Lesson).
  Proof using Hc Ho.
    pose proof (open_library_loaded o courses lib Hc Ho) as L. intros H. split; intros ->.
    - apply (l_lc _ _ L) in H. apply (l_type _ _ L). by apply (i_lc_t _ (l_inv _ _ L) u).
    - apply (l_el _ _ L) in H. apply (l_type _ _ L). by apply (i_el_t _ (l_inv _ _ L) u).
  Qed.
  Lemma says_type_fun u t t' : says_type courses u t → says_type courses u t' → t = t'.
  Proof using Hc Ho.
    pose proof (open_library_loaded o courses lib Hc Ho) as L.
    rewrite <- !(l_type _ _ L). congruence.
  Qed.



  Lemma all_exercise_ids u : lists_exactly (get_all_exercise_ids lib u) (says_exercise_of courses u).
  Proof using Hc Ho.
    pose proof (open_library_loaded o courses lib Hc Ho) as L.
    unfold get_all_exercise_ids. destruct u as [u|]; [|apply sort_elements; intros e; apply dom_maps].
    assert (∀ t, get_unit_type (lib_graph lib) u = Some t ↔ says_type courses u t) as HT by (intros; apply L).
    destruct (get_unit_type (lib_graph lib) u) as [t|] eqn:E.
    - assert (says_type courses u t) as Ht by by apply HT.
      assert (∀ t', says_type courses u t' → t' = t) as Huniq by (intros; by eapply says_type_fun).
      assert (∀ e, e ∈ default ∅ (get_lesson_exercises (lib_graph lib) u) ↔ says_parent courses Exercise e u) as HE.
      { intros e. rewrite answers_default. apply L. }
      destruct t; simpl.
      + split; [apply sort_ids_sorted|]. rewrite sort_ids_perm. split; [apply NoDup_singleton|].
        intros e. rewrite sort_ids_perm, elem_of_list_singleton. split; [by left|].
        intros [[_ ->]|[H|(l & H & _)]]; [done| |].
        * apply parent_types in H as [_ H]. specialize (Huniq _ (H eq_refl)). done.
        * apply parent_types in H as [H _]. specialize (Huniq _ (H eq_refl)). done.
      + apply sort_elements. intros e. rewrite HE. split; [by right; left|].
        intros [[H _]|[H|(l & H & _)]]; [|done|].
        * specialize (Huniq _ H). done.
        * apply parent_types in H as [H _]. specialize (Huniq _ (H eq_refl)). done.
      + split; [apply sort_ids_sorted|]. rewrite sort_ids_perm. split.
        * apply NoDup_mjoin; [apply NoDup_elements|intros; apply NoDup_elements|].
          intros l l' x _ _ H1 H2. rewrite elem_of_elements, answers_default in H1, H2.
          apply (l_le _ _ L), (l_el _ _ L) in H1. apply (l_le _ _ L), (l_el _ _ L) in H2. congruence.
        * intros e. rewrite sort_ids_perm, elem_of_list_join. split.
          -- intros (k & He & Hk). apply elem_of_list_fmap in Hk as (l & -> & Hl).
             rewrite elem_of_elements, answers_default in Hl, He.
             apply (l_cl _ _ L) in Hl. apply (l_le _ _ L) in He. right. right. eauto.
          -- intros [[H _]|[H|(l & Hl & He)]].
             ++ specialize (Huniq _ H). done.
             ++ apply parent_types in H as [_ H]. specialize (Huniq _ (H eq_refl)). done.
             ++ eexists. split; [|apply elem_of_list_fmap; exists l; split; [done|]].
                ** rewrite elem_of_elements, answers_default. by apply L.
                ** rewrite elem_of_elements, answers_default. by apply L.
    - assert (∀ t', ¬ says_type courses u t') as Hno.
      { intros t' H. apply HT in H. congruence. }
      split; [apply sort_ids_sorted|]. rewrite sort_ids_perm. split; [constructor|].
      intros e. rewrite sort_ids_perm. split; [by intros ?%elem_of_nil|].
      intros [[H _]|[H|(l & H & _)]].
      + by apply Hno in H.
      + apply parent_types in H as [_ H]. specialize (H eq_refl). by apply Hno in H.
      + apply parent_types in H as [H _]. specialize (H eq_refl). by apply Hno in H.
  Qed.


  Lemma matching_prefix p t u :
    u ∈ get_matching_prefix lib p t ↔
    (∃ r, u = (p +:+ r)%string) ∧ ∃ t', says_type courses u t' ∧ (t = None ∨ t = Some t').
  Proof using Hc Ho.
    destruct (dom_maps u) as (D1 & D2 & D3). unfold get_matching_prefix, starts_with.
    destruct t as [[]|]; rewrite elem_of_filter, prefix_spec, ?elem_of_union, ?D1, ?D2, ?D3.
    all: split; [naive_solver|].
    all: intros (Hp & t & Ht & [?|?]); try done; split; try done.
    1-3: congruence. destruct t; auto.
  Qed.
End queries.

(** * Serialization *)
Lemma serialize_round_trip lib : deserialize_library (serialize_library lib) = lib.
Proof.
  destruct lib. unfold deserialize_library, serialize_library. simpl. by rewrite !list_to_map_to_list.
Qed.
Lemma deserialize_any_order lib cs ls es :
  cs ≡ₚ map_to_list (course_map lib) → ls ≡ₚ map_to_list (lesson_map lib) →
  es ≡ₚ map_to_list (exercise_map lib) →
  deserialize_library (SerializedLibrary (lib_graph lib) cs ls es) = lib.
Proof.
  intros H1 H2 H3. destruct lib as [g cm lm em]. unfold deserialize_library. simpl in *.
  assert (∀ {A} (m : gmap uid A) l, l ≡ₚ map_to_list m → list_to_map l = m) as H.
  { intros A m l Hl. rewrite <- (list_to_map_to_list m). apply list_to_map_proper; [|done].
    rewrite Hl. apply NoDup_fst_map_to_list. }
  by rewrite (H _ cm), (H _ lm), (H _ em).
Qed.

(** * Order of processing *)
Lemma alike_perm {A B : Type} (R : A → A → Prop) (F : A → B) l l' : (∀ x y, R x y → F x = F y) → alike R l l' → F <$> l ≡ₚ F <$> l'.
Proof.
  intros HF (k & Hk & H). rewrite Hk. clear Hk l. induction H as [|x y k l' Hxy _ IH]; [done|]. cbn. by rewrite (HF x y Hxy), IH.
Qed.
Lemma alike_join {A B : Type} (R : A → A → Prop) (F : A → list B) l l' : (∀ x y, R x y → F x ≡ₚ F y) → alike R l l' → mjoin (F <$> l) ≡ₚ mjoin (F <$> l').
Proof.
  intros HF (k & Hk & H). rewrite Hk. clear Hk l. induction H as [|x y k l' Hxy _ IH]; [done|]. cbn. by rewrite (HF x y Hxy), IH.
Qed.
Lemma alike_joins {A B : Type} (R : A → A → Prop) (S : B → B → Prop) (F : A → list B) l l' :
  (∀ x y, R x y → alike S (F x) (F y)) → alike R l l' → alike S (mjoin (F <$> l)) (mjoin (F <$> l')).
Proof.
  intros HF (k & Hk & H). assert (alike S (mjoin (F <$> k)) (mjoin (F <$> l'))) as (m & Hm & HS).
  { clear Hk l. induction H as [|x y k l' Hxy _ IH]; [exists []; split; [done|constructor]|]. cbn. destruct (HF x y Hxy) as (m1 & P1 & Q1), IH as (m2 & P2 & Q2).
    exists (m1 ++ m2). split; [by rewrite P1, P2|by apply Forall2_app]. }
  exists m. split; [|done]. by rewrite Hk.
Qed.
Lemma alike_refl {A : Type} (R : A → A → Prop) l l' : (∀ x, R x x) → l ≡ₚ l' → alike R l l'.
Proof. intros HR H. exists l'. split; [done|]. clear H. induction l' as [|x l' IH]; [constructor|]. by constructor. Qed.
Lemma perm_same_courses cs cs' : cs ≡ₚ cs' → same_courses cs cs'.
Proof. apply alike_refl. intros x. split; [done|]. apply alike_refl; [done|done]. Qed.
Lemma same_course_decls x y : same_course x y → course_decls x ≡ₚ course_decls y.
Proof.
  intros [E H]. unfold course_decls. rewrite E. f_equiv. apply (alike_join same_lesson); [|done].
  intros l l' [E1 E2]. unfold lesson_decls. by rewrite E1, E2.
Qed.
Lemma declared_perm cs cs' : same_courses cs cs' → declared cs ≡ₚ declared cs'.
Proof. apply alike_join. apply same_course_decls. Qed.
Lemma same_consistent cs cs' : same_courses cs cs' → Forall consistent cs → Forall consistent cs'.
Proof.
  intros (k & Hk & H). rewrite Hk. clear Hk cs. induction H as [|x y k l' [E (m & Hm & Hl)] _ IH]; [done|]. rewrite !Forall_cons.
  intros [H1 H2]. split; [|by apply IH]. intros lm exs Hin. apply elem_of_list_lookup in Hin as [i Hi].
  destruct (Forall2_lookup_r _ _ _ _ _ Hl Hi) as ([lm' exs'] & Hi' & [E1 E2]). cbn in E1, E2. subst lm'. rewrite <- E.
  destruct (H1 lm exs') as [A B]; [rewrite Hm; by apply elem_of_list_lookup_2 in Hi'|]. split; [done|]. intros em. rewrite <- E2. apply B.
Qed.

Section perm.
  Context (cs cs' : list open_course) (Hp : same_courses cs cs').
  Lemma says_perm :
    (∀ u t, says_type cs u t ↔ says_type cs' u t) ∧
    (∀ t u p, says_parent cs t u p ↔ says_parent cs' t u p) ∧
    (∀ u x, says_dep cs u x ↔ says_dep cs' u x) ∧
    (∀ u x, says_sup cs u x ↔ says_sup cs' u x) ∧
    (∀ u x w, says_enc cs u x w ↔ says_enc cs' u x w) ∧
    (∀ c l, says_starting cs c l ↔ says_starting cs' c l).
  Proof using Hp.
    pose proof (declared_perm _ _ Hp) as H. unfold says_starting, says_type, says_parent, says_dep, says_sup, says_enc.
    setoid_rewrite H. done.
  Qed.

  Lemma order_irrelevant o o' : order_ok o → order_ok o' → Forall consistent cs →
    (is_Some (open_library o cs) ↔ is_Some (open_library o' cs')) ∧
    ∀ lib lib', open_library o cs = Some lib → open_library o' cs' = Some lib' →
      let g := lib_graph lib in let g' := lib_graph lib' in
      course_map lib = course_map lib' ∧ lesson_map lib = lesson_map lib' ∧ exercise_map lib = exercise_map lib' ∧
      (∀ u, get_unit_type g u = get_unit_type g' u) ∧
      (∀ u, get_lesson_course g u = get_lesson_course g' u) ∧
      (∀ u, get_exercise_lesson g u = get_exercise_lesson g' u) ∧
      (∀ u, get_course_lessons g u = get_course_lessons g' u) ∧
      (∀ u, get_lesson_exercises g u = get_lesson_exercises g' u) ∧
      (∀ u x, depends_on g u x ↔ depends_on g' u x) ∧ (∀ u x, dependent_of g u x ↔ dependent_of g' u x) ∧
      (∀ u x, supersedes g u x ↔ supersedes g' u x) ∧ (∀ u x, is_superseded_by g u x ↔ is_superseded_by g' u x) ∧
      (∀ u x w, encompasses g u x w ↔ encompasses g' u x w) ∧
      (∀ u x w, is_encompassed_by g u x w ↔ is_encompassed_by g' u x w) ∧
      (∀ c l, answers (get_starting_lessons g c) l ↔ answers (get_starting_lessons g' c) l) ∧
      get_dependency_sinks g = get_dependency_sinks g'.
  Proof using Hp.
    intros Ho Ho' Hc. pose proof (same_consistent _ _ Hp Hc) as Hc'.
    destruct says_perm as (S1 & S2 & S3 & S4 & S5 & S6).
    pose proof (declared_perm _ _ Hp) as HD. split.
    - rewrite !open_library_iff by done. f_equiv; [|f_equiv].
      + unfold distinct_ids. by rewrite HD.
      + unfold valid_weights. setoid_rewrite HD. done.
      + unfold no_cycles. f_equiv; [|f_equiv]; apply acyclic_ext; [done..|]. intros u v. by setoid_rewrite S5.
    - intros lib lib' E E' g g'.
      pose proof (open_library_loaded _ _ _ Hc E) as L. pose proof (open_library_loaded _ _ _ Hc' E') as L'.
      fold g in L. fold g' in L'.
      destruct (manifests_lookup _ _ _ Hc E) as (M1 & M2 & M3). destruct (manifests_lookup _ _ _ Hc' E') as (M1' & M2' & M3').
      assert (alike same_lesson (mjoin (oc_lessons <$> cs)) (mjoin (oc_lessons <$> cs'))) as HJ.
      { apply (alike_joins same_course); [|done]. by intros x y [_ H]. }
      assert (all_lessons cs ≡ₚ all_lessons cs') as HL.
      { apply (alike_perm same_lesson fst); [|done]. by intros x y [H _]. }
      assert (all_exercises cs ≡ₚ all_exercises cs') as HX.
      { apply (alike_join same_lesson snd); [|done]. by intros x y [_ H]. }
      assert (oc_manifest <$> cs ≡ₚ oc_manifest <$> cs') as HM.
      { apply (alike_perm same_course); [|done]. by intros x y [H _]. }
      assert (∀ {A} (m m' : option A), (∀ x, m = Some x ↔ m' = Some x) → m = m') as Hopt.
      { intros A m m' H. destruct m as [x|]; [symmetry; by apply H|].
        destruct m' as [x|]; [|done]. by apply H. }
      split_and!.
      + apply map_eq. intros u. apply Hopt. intros x. by rewrite M1, M1', HM.
      + apply map_eq. intros u. apply Hopt. intros x. by rewrite M2, M2', HL.
      + apply map_eq. intros u. apply Hopt. intros x. by rewrite M3, M3', HX.
      + intros u. apply Hopt. intros x. by rewrite (l_type _ _ L), (l_type _ _ L').
      + intros u. apply Hopt. intros x. by rewrite (l_lc _ _ L), (l_lc _ _ L').
      + intros u. apply Hopt. intros x. by rewrite (l_el _ _ L), (l_el _ _ L').
      + intros u. pose proof (λ l, l_cl _ _ L l u) as A. pose proof (λ l, l_cl _ _ L' l u) as A'.
        pose proof (l_cl_dom _ _ L u) as B. pose proof (l_cl_dom _ _ L' u) as B'.
        setoid_rewrite <- S2 in A'. setoid_rewrite <- S2 in B'.
        rewrite <- B in B'. unfold answers in *.
        destruct (get_course_lessons g u) as [s|], (get_course_lessons g' u) as [s'|]; try done.
        * f_equal. apply set_eq. intros x. by rewrite A, A'.
        * destruct B' as [_ B']. by destruct B' as [? ?]; eauto.
        * destruct B' as [B' _]. by destruct B' as [? ?]; eauto.
      + intros u. pose proof (λ l, l_le _ _ L l u) as A. pose proof (λ l, l_le _ _ L' l u) as A'.
        pose proof (l_le_dom _ _ L u) as B. pose proof (l_le_dom _ _ L' u) as B'.
        setoid_rewrite <- S2 in A'. setoid_rewrite <- S2 in B'.
        rewrite <- B in B'. unfold answers in *.
        destruct (get_lesson_exercises g u) as [s|], (get_lesson_exercises g' u) as [s'|]; try done.
        * f_equal. apply set_eq. intros x. by rewrite A, A'.
        * destruct B' as [_ B']. by destruct B' as [? ?]; eauto.
        * destruct B' as [B' _]. by destruct B' as [? ?]; eauto.
      + intros. by rewrite (l_dep _ _ L), (l_dep _ _ L').
      + intros. by rewrite (l_dept _ _ L), (l_dept _ _ L').
      + intros. by rewrite (l_sup _ _ L), (l_sup _ _ L').
      + intros. by rewrite (l_supby _ _ L), (l_supby _ _ L').
      + intros. by rewrite (l_enc _ _ L), (l_enc _ _ L').
      + intros. by rewrite (l_encby _ _ L), (l_encby _ _ L').
      + intros. by rewrite (l_start _ _ L), (l_start _ _ L').
      + apply set_eq. intros u. rewrite (l_sinks _ _ L), (l_sinks _ _ L').
        setoid_rewrite S1. setoid_rewrite S2. setoid_rewrite S3. setoid_rewrite S6. done.
  Qed.
End perm.

(** * Dropping the redundant encompassing maps *)
Lemma equals_invisible courses lib : Forall consistent courses → no_encompassed courses = true →
  try_fold process_course courses empty_library = Some lib →
  let g := lib_graph lib in let g' := set_encompasing_equals_dependency g in
  (∀ u x w, encompasses g u x w ↔ encompasses g' u x w) ∧
  (∀ u x w, is_encompassed_by g u x w ↔ is_encompassed_by g' u x w).
Proof.
  intros Hc Hn. rewrite process_courses_eq. simpl.
  destruct (load_decls_empty courses Hc) as [HR _].
  destruct (try_fold gdecl (declared courses) empty_graph) as [g|] eqn:E; simpl; [|done].
  intros [= <-]. simpl. specialize (HR _ eq_refl). split; intros u x w.
  - by rewrite (rep_encompasses courses g HR), (equals_encompasses courses g HR).
  - by rewrite (rep_encompassed_by courses g HR), (equals_encompassed_by courses g HR).
Qed.
