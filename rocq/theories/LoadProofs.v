(** Opening a library: when it succeeds and what the result answers. *)
From stdpp Require Import gmap strings list relations sorting.
From Verif Require Import F32 Graph GraphSpec GraphProofs CycleProofs GraphMore Library LibrarySpec LibraryProofs.

Lemma no_encompassed_spec courses :
  no_encompassed courses = true ↔ ∀ d, d ∈ declared courses → d_enc d = [].
Proof.
  unfold no_encompassed, declared. induction courses as [|oc courses IH]; simpl.
  { split; [|done]. by intros _ d ?%elem_of_nil. }
  rewrite !andb_true_iff, IH. clear IH.
  assert (forallb (λ le : lesson_manifest * list exercise_manifest,
     match lm_encompassed le.1 with [] => true | _ => false end) (oc_lessons oc) = true ↔
     ∀ d, d ∈ mjoin (lesson_decls <$> oc_lessons oc) → d_enc d = []) as ->.
  { induction (oc_lessons oc) as [|[lm exs] les IH]; simpl.
    { split; [|done]. by intros _ d ?%elem_of_nil. }
    rewrite andb_true_iff, IH. split.
    - intros [Hl Hr] d. rewrite elem_of_cons, elem_of_app. intros [->|[Hd|Hd]].
      + simpl. by destruct (lm_encompassed lm).
      + apply elem_of_list_fmap in Hd as (em & -> & _). done.
      + by apply Hr.
    - intros H. split.
      + specialize (H (lesson_decl lm)). simpl in H. rewrite H; [done|left].
      + intros d Hd. apply H. rewrite elem_of_cons, elem_of_app. auto. }
  split.
  - intros [[Hc Hl] Hr] d. rewrite elem_of_cons, elem_of_app. intros [->|[Hd|Hd]].
    + simpl. by destruct (cm_encompassed _).
    + by apply Hl.
    + by apply Hr.
  - intros H. split; [split|].
    + specialize (H (course_decl (oc_manifest oc))). simpl in H. rewrite H; [done|left].
    + intros d Hd. apply H. rewrite elem_of_cons, elem_of_app. auto.
    + intros d Hd. apply H. rewrite elem_of_cons, elem_of_app. auto.
Qed.

Lemma elem_answers_fmap (os : option (gset uid)) (x : uid) (w : f32) :
  lists ((λ s : gset uid, (λ d, (d, f_1)) <$> elements s) <$> os) (x, w) ↔ w = f_1 ∧ answers os x.
Proof.
  destruct os as [s|]; simpl; [|naive_solver]. rewrite elem_of_list_fmap. split.
  - intros (d & [= -> ->] & Hd). rewrite elem_of_elements in Hd. done.
  - intros [-> Hx]. exists x. by rewrite elem_of_elements.
Qed.

Section enc.
  Context (courses : list open_course) (g : graph) (R : Rep (declared courses) g).

  Lemma rep_dept x u : dependent_of g x u ↔ says_dep courses u x.
  Proof using R.
    rewrite <- (rep_dep courses g R). unfold dependent_of, depends_on, get_dependents, get_dependencies.
    rewrite !answers_mget. symmetry. apply (i_dep _ (r_inv _ _ R)).
  Qed.
  Lemma rep_supby x u : is_superseded_by g x u ↔ says_sup courses u x.
  Proof using R.
    rewrite <- (rep_sup courses g R). unfold is_superseded_by, supersedes, get_superseded_by, get_supersedes.
    rewrite !answers_mget. symmetry. apply (i_sup _ (r_inv _ _ R)).
  Qed.

  Lemma says_enc_none u x w : no_encompassed courses = true →
    says_enc courses u x w ↔ w = f_1 ∧ says_dep courses u x.
  Proof using.
    rewrite no_encompassed_spec. intros Hn. unfold says_enc, says_dep. split.
    - intros (d & Hd & Hid & H). rewrite (Hn d Hd) in H. destruct H as [[]%elem_of_nil|(-> & Hx & _)]. eauto.
    - intros (-> & d & Hd & Hid & Hx). exists d. rewrite (Hn d Hd). split_and!; try done. right.
      split_and!; try done. by intros w' ?%elem_of_nil.
  Qed.

  (** The getters on the graph before the redundant maps are dropped. *)
  Lemma rep_encompasses u x w : encompasses g u x w ↔ says_enc courses u x w.
  Proof using R.
    unfold encompasses, get_encompasses. case_decide as He.
    - rewrite elem_answers_fmap. fold (depends_on g u x). rewrite (rep_dep courses g R).
      assert (∀ u x w, ¬ says_enc courses u x w) as Hno.
      { intros u' x' w' H. apply (rep_enc_stored courses g R) in H. rewrite He in H.
        unfold vget in H. rewrite lookup_empty in H. by apply elem_of_nil in H. }
      assert (∀ u x, ¬ says_dep courses u x) as Hnd.
      { intros u' x' (d & Hd & Hid & Hx). 
        assert (d_type d ≠ Exercise) as Ht.
        { intros Ht. destruct (declared_exercise _ _ Hd Ht) as (Hz & _). rewrite Hz in Hx. by apply elem_of_nil in Hx. }
        assert (encompasses_graph g !! u' = Some (full_encompassed (d_deps d) (d_enc d))) as H.
        { apply R. eauto. }
        rewrite He, lookup_empty in H. done. }
      naive_solver.
    - rewrite lists_vget. apply (rep_enc_stored courses g R).
  Qed.
  Lemma rep_encompassed_by x u w : is_encompassed_by g x u w ↔ says_enc courses u x w.
  Proof using R.
    unfold is_encompassed_by, get_encompassed_by. case_decide as He.
    - rewrite elem_answers_fmap. fold (dependent_of g x u). rewrite rep_dept.
      assert (∀ u x w, ¬ says_enc courses u x w) as Hno.
      { intros u' x' w' H. apply (rep_enc_stored courses g R) in H.
        rewrite (i_enc _ (r_inv _ _ R)), He in H.
        unfold vget in H. rewrite lookup_empty in H. by apply elem_of_nil in H. }
      assert (∀ u x, ¬ says_dep courses u x) as Hnd.
      { intros u' x' (d & Hd & Hid & Hx).
        destruct (existsb (λ e : uid * f32, bool_decide (e.1 = x')) (d_enc d)) eqn:Hex.
        - apply existsb_exists in Hex as ([x2 w2] & Hin & Heq). rewrite bool_decide_eq_true in Heq.
          simpl in Heq. subst x2. apply elem_of_list_In in Hin. apply (Hno u' x' w2). exists d. auto.
        - apply (Hno u' x' f_1). exists d. split_and!; try done. right. split_and!; try done.
          intros w' Hw'. apply not_true_iff_false in Hex. apply Hex. apply existsb_exists.
          exists (x', w'). rewrite bool_decide_eq_true. split; [by apply elem_of_list_In|done]. }
      naive_solver.
    - rewrite lists_vget, <- (i_enc _ (r_inv _ _ R)). apply (rep_enc_stored courses g R).
  Qed.
  (** The getters afterwards. *)
  Lemma equals_encompasses u x w : no_encompassed courses = true →
    encompasses (set_encompasing_equals_dependency g) u x w ↔ says_enc courses u x w.
  Proof using R.
    intros Hn. rewrite says_enc_none by done. unfold encompasses, get_encompasses. simpl.
    rewrite decide_True by done. rewrite elem_answers_fmap. change (get_dependencies _ u) with (get_dependencies g u).
    fold (depends_on g u x). by rewrite (rep_dep courses g R).
  Qed.
  Lemma equals_encompassed_by u x w : no_encompassed courses = true →
    is_encompassed_by (set_encompasing_equals_dependency g) x u w ↔ says_enc courses u x w.
  Proof using R.
    intros Hn. rewrite says_enc_none by done. unfold is_encompassed_by, get_encompassed_by. simpl.
    rewrite decide_True by done. rewrite elem_answers_fmap. change (get_dependents _ x) with (get_dependents g x).
    fold (dependent_of g x u). by rewrite rep_dept.
  Qed.
End enc.

(** * The loaded graph *)
Definition finish (courses : list open_course) (g : graph) : graph :=
  let g := update_starting_lessons g in
  if no_encompassed courses then set_encompasing_equals_dependency g else g.

Lemma open_library_eq o courses :
  open_library o courses =
  g ← try_fold gdecl (declared courses) empty_graph;
  if check_cycles o (finish courses g) then
    Some (Library (finish courses g) (add_cms courses ∅) (add_lms (mjoin (oc_lessons <$> courses)) ∅)
            (add_ems (mjoin (mjoin (oc_lessons <$> courses)).*2) ∅))
  else None.
Proof.
  unfold open_library, process_results. rewrite process_courses_eq. simpl.
  destruct (try_fold gdecl (declared courses) empty_graph) as [g|]; simpl; [|done].
  unfold finish. simpl. by destruct (check_cycles o _).
Qed.

(** What a loaded graph answers. *)
Record Loaded (courses : list open_course) (g : graph) : Prop := {
  l_inv : GInv g;
  l_type : ∀ u t, get_unit_type g u = Some t ↔ says_type courses u t;
  l_lc : ∀ l c, get_lesson_course g l = Some c ↔ says_parent courses Lesson l c;
  l_cl : ∀ l c, answers (get_course_lessons g c) l ↔ says_parent courses Lesson l c;
  l_el : ∀ e l, get_exercise_lesson g e = Some l ↔ says_parent courses Exercise e l;
  l_le : ∀ e l, answers (get_lesson_exercises g l) e ↔ says_parent courses Exercise e l;
  l_dep : ∀ u x, depends_on g u x ↔ says_dep courses u x;
  l_dept : ∀ u x, dependent_of g x u ↔ says_dep courses u x;
  l_sup : ∀ u x, supersedes g u x ↔ says_sup courses u x;
  l_supby : ∀ u x, is_superseded_by g x u ↔ says_sup courses u x;
  l_enc : ∀ u x w, encompasses g u x w ↔ says_enc courses u x w;
  l_encby : ∀ u x w, is_encompassed_by g x u w ↔ says_enc courses u x w;
  l_start : ∀ c l, answers (get_starting_lessons g c) l ↔ says_starting courses c l;
  l_sinks : ∀ u, u ∈ get_dependency_sinks g ↔
    ((∃ t, t ≠ Exercise ∧ says_type courses u t) ∨ (∃ v, says_dep courses v u)) ∧
    (∀ x, ¬ says_dep courses u x) ∧ (∀ c, ¬ says_parent courses Lesson u c) ∧
    ¬ (∃ l, says_starting courses u l ∧ (∃ x, says_dep courses l x) ∧
            ∀ x, says_dep courses l x → ∃ t, says_type courses x t);
  (** Entries exist only where there is something to answer. *)
  l_cl_dom : ∀ c, is_Some (get_course_lessons g c) ↔ ∃ l, says_parent courses Lesson l c;
  l_le_dom : ∀ l, is_Some (get_lesson_exercises g l) ↔ ∃ e, says_parent courses Exercise e l;
  l_dep_dom : ∀ u, is_Some (get_dependencies g u) ↔ ∃ t, t ≠ Exercise ∧ says_type courses u t
}.

Lemma Rep_loaded courses g : Rep (declared courses) g → Loaded courses (finish courses g).
Proof.
  intros R.
  set (g1 := update_starting_lessons g).
  destruct (update_starting_lessons_eq g) as (s & m & Heq). fold g1 in Heq.
  assert (Hs1 : ∀ c, starting_lessons_map g1 !! c = if decide (is_Some (course_lesson_map g !! c)) then Some (course_starting_lessons g c)
     else starting_lessons_map g !! c) by (intros; apply update_starting_lookup).
  assert (Hk1 : ∀ u, u ∈ dependency_sinks g1 ↔ u ∈ dependency_sinks g ∧ ¬ (is_Some (course_lesson_map g !! u) ∧ loses_sink g u))
    by (intros; apply update_starting_sinks).
  assert (I1 : GInv g1) by (apply update_starting_inv, R).
  assert (R1 : ∀ u x w, encompasses g1 u x w ↔ says_enc courses u x w).
  { intros. rewrite <- (rep_encompasses courses g R). rewrite Heq. done. }
  assert (R2 : ∀ u x w, is_encompassed_by g1 x u w ↔ says_enc courses u x w).
  { intros. rewrite <- (rep_encompassed_by courses g R). rewrite Heq. done. }
  assert (R1' : no_encompassed courses = true → ∀ u x w, encompasses (set_encompasing_equals_dependency g1) u x w ↔ says_enc courses u x w).
  { intros. rewrite <- (equals_encompasses courses g R) by done. rewrite Heq. done. }
  assert (R2' : no_encompassed courses = true → ∀ u x w, is_encompassed_by (set_encompasing_equals_dependency g1) x u w ↔ says_enc courses u x w).
  { intros. rewrite <- (equals_encompassed_by courses g R) by done. rewrite Heq. done. }
  assert (∃ eg eb, finish courses g = set_encompassed_by (λ _, eb) (set_encompasses_graph (λ _, eg) g1) ∧
     GInv (finish courses g) ∧
     (∀ u x w, encompasses (finish courses g) u x w ↔ says_enc courses u x w) ∧
     (∀ u x w, is_encompassed_by (finish courses g) x u w ↔ says_enc courses u x w)) as (eg & eb & Hfin & IF & HE & HEB).
  { unfold finish. fold g1. destruct (no_encompassed courses).
    - eexists _, _. split; [reflexivity|]. split; [by apply set_equals_inv|]. eauto.
    - exists (encompasses_graph g1), (encompassed_by g1). split; [by destruct g1|]. eauto. }
  assert (HCL : ∀ l c, answers (get_course_lessons g c) l ↔ says_parent courses Lesson l c).
  { intros l c. unfold get_course_lessons. rewrite answers_mget, <- (i_lc _ (r_inv _ _ R)). apply (rep_lc courses g R). }
  assert (HLE : ∀ l c, answers (get_lesson_exercises g c) l ↔ says_parent courses Exercise l c).
  { intros l c. unfold get_lesson_exercises. rewrite answers_mget, <- (i_el _ (r_inv _ _ R)). apply (rep_el courses g R). }
  assert (HST : ∀ c l, l ∈ course_starting_lessons g c ↔ says_starting courses c l).
  { intros c l. rewrite course_starting_lessons_spec. unfold says_starting. rewrite HCL.
    setoid_rewrite (rep_dep courses g R). setoid_rewrite HCL. done. }
  assert (HCD : ∀ c, is_Some (course_lesson_map g !! c) ↔ ∃ l, says_parent courses Lesson l c).
  { intros c. setoid_rewrite <- HCL. unfold get_course_lessons, answers. split.
    - intros [s0 Hs0]. pose proof (r_cl_ne _ _ R _ _ Hs0) as Hne. rewrite Hs0.
      apply set_choose_L in Hne as [l Hl]. eauto.
    - intros [l Hl]. destruct (course_lesson_map g !! c); [eauto|done]. }
  assert (HLS : ∀ u, loses_sink g u ↔ ∃ l, says_starting courses u l ∧ (∃ x, says_dep courses l x) ∧
            ∀ x, says_dep courses l x → ∃ t, says_type courses x t).
  { intros u. unfold loses_sink, has_starting_dependencies. rewrite existsb_exists.
    setoid_rewrite <- elem_of_list_In. setoid_rewrite elem_of_elements.
    setoid_rewrite HST. setoid_rewrite <- (rep_dep courses g R). setoid_rewrite <- (rep_type courses g R).
    unfold depends_on, answers. 
    assert (∀ l, match get_dependencies g l with
       | Some ds => negb (bool_decide (ds = ∅)) && forallb (λ d, bool_decide (is_Some (get_unit_type g d))) (elements ds)
       | None => false end = true ↔
       (∃ x, match get_dependencies g l with Some s => x ∈ s | None => False end) ∧
       (∀ x, match get_dependencies g l with Some s => x ∈ s | None => False end → ∃ t, get_unit_type g x = Some t)) as HH.
    { intros l. destruct (get_dependencies g l) as [ds|]; [|naive_solver].
      rewrite andb_true_iff, negb_true_iff, bool_decide_eq_false, forallb_forall.
      setoid_rewrite <- elem_of_list_In. setoid_rewrite elem_of_elements. setoid_rewrite bool_decide_eq_true.
      split.
      - intros [Hne H]. split; [by apply set_choose_L in Hne|]. intros x Hx. by apply H.
      - intros [[x Hx] H]. split; [set_solver|]. intros y Hy. by apply H. }
    setoid_rewrite HH. done. }
  assert (Hget : get_dependencies (finish courses g) = get_dependencies g ∧ get_dependents (finish courses g) = get_dependents g ∧
    get_unit_type (finish courses g) = get_unit_type g ∧ get_lesson_course (finish courses g) = get_lesson_course g ∧
    get_course_lessons (finish courses g) = get_course_lessons g ∧ get_exercise_lesson (finish courses g) = get_exercise_lesson g ∧
    get_lesson_exercises (finish courses g) = get_lesson_exercises g ∧ get_supersedes (finish courses g) = get_supersedes g ∧
    get_superseded_by (finish courses g) = get_superseded_by g ∧ get_starting_lessons (finish courses g) = get_starting_lessons g1 ∧
    get_dependency_sinks (finish courses g) = get_dependency_sinks g1).
  { rewrite Hfin. split_and!; try done; by rewrite Heq. }
  destruct Hget as (G1 & G2 & G3 & G4 & G5 & G6 & G7 & G8 & G9 & G10 & G11).
  split; try done.
  - intros. rewrite G3. apply (rep_type courses g R).
  - intros. rewrite G4. apply (rep_lc courses g R).
  - intros. rewrite G5. apply HCL.
  - intros. rewrite G6. apply (rep_el courses g R).
  - intros. rewrite G7. apply HLE.
  - intros. unfold depends_on. rewrite G1. apply (rep_dep courses g R).
  - intros. unfold dependent_of. rewrite G2. apply (rep_dept courses g R).
  - intros. unfold supersedes. rewrite G8. apply (rep_sup courses g R).
  - intros. unfold is_superseded_by. rewrite G9. apply (rep_supby courses g R).
  - intros c l. rewrite G10. unfold get_starting_lessons. rewrite Hs1. case_decide as Hc.
    + simpl. apply HST.
    + rewrite (r_start _ _ R), lookup_empty. simpl. split; [done|]. intros [Hp _].
      apply Hc, HCD. eauto.
  - intros u. rewrite G11. unfold get_dependency_sinks. rewrite Hk1, (r_sinks _ _ R), HCD, HLS.
    assert (mget (dependency_graph g) u = ∅ ↔ ∀ x, ¬ says_dep courses u x) as ->.
    { setoid_rewrite <- (rep_dep courses g R). unfold depends_on, get_dependencies. setoid_rewrite answers_mget. set_solver. }
    assert (lesson_course_map g !! u = None ↔ ∀ c, ¬ says_parent courses Lesson u c) as ->.
    { setoid_rewrite <- (rep_lc courses g R). unfold get_lesson_course. destruct (lesson_course_map g !! u); naive_solver. }
    assert ((∃ d, d ∈ declared courses ∧ d_type d ≠ Exercise ∧ (d_id d = u ∨ u ∈ d_deps d)) ↔
      (∃ t, t ≠ Exercise ∧ says_type courses u t) ∨ (∃ v, says_dep courses v u)) as ->.
    { unfold says_type, says_dep. split.
      - intros (d & Hd & Ht & [<-|Hu]); [left; exists (d_type d); eauto|]. right. eauto.
      - intros [(t & Ht & d & Hd & <- & <-)|(v & d & Hd & <- & Hu)]; [eauto|].
        exists d. split_and!; [done| |by right]. intros Ht.
        destruct (declared_exercise _ _ Hd Ht) as (Hz & _). rewrite Hz in Hu. by apply elem_of_nil in Hu. }
    split; [|naive_solver].
    intros ((? & ? & ?) & Hno). split_and!; try done. intros (l & Hl & Hl2). apply Hno. split; [|exists l; done].
    exists l. apply Hl.
  - intros c. rewrite G5. apply HCD.
  - intros l. rewrite G7. setoid_rewrite <- HLE. unfold get_lesson_exercises, answers. split.
    + intros [s0 Hs0]. pose proof (r_le_ne _ _ R _ _ Hs0) as Hne. rewrite Hs0.
      apply set_choose_L in Hne as [x Hx]. eauto.
    + intros [x Hx]. destruct (lesson_exercise_map g !! l); [eauto|done].
  - intros u. rewrite G1. unfold get_dependencies, says_type. split.
    + intros [s0 (d & Hd & Hid & Ht & _)%(r_dep _ _ R)]. exists (d_type d). split; [done|]. exists d. done.
    + intros (t & Ht & d & Hd & Hid & <-). exists (list_to_set (d_deps d)). apply (r_dep _ _ R). exists d. done.
Qed.

(** * When opening succeeds *)
Lemma loaded_acyclic courses g : Loaded courses g →
  (acyclic (depends_on g) ∧ acyclic (supersedes g) ∧ acyclic (encompasses_some g)) ↔ no_cycles courses.
Proof.
  intros L. unfold no_cycles.
  rewrite (acyclic_ext _ _ (l_dep _ _ L)), (acyclic_ext _ _ (l_sup _ _ L)).
  assert (∀ u v, encompasses_some g u v ↔ ∃ w, says_enc courses u v w) as HE.
  { intros u v. unfold encompasses_some. by setoid_rewrite (l_enc _ _ L). }
  by rewrite (acyclic_ext _ _ HE).
Qed.

Lemma open_library_iff o courses : order_ok o → Forall consistent courses →
  is_Some (open_library o courses) ↔ distinct_ids courses ∧ valid_weights courses ∧ no_cycles courses.
Proof.
  intros Ho Hc. rewrite open_library_eq. destruct (load_decls_empty courses Hc) as [HR HS].
  assert (decls_ok (declared courses) ↔ distinct_ids courses ∧ valid_weights courses ∧
     ∀ d, d ∈ declared courses → d_id d ∉ d_deps d) as Hok.
  { unfold decls_ok, distinct_ids, valid_weights, weights_ok. naive_solver. }
  destruct (try_fold gdecl (declared courses) empty_graph) as [g|] eqn:E; simpl.
  - pose proof (Rep_loaded courses g (HR g eq_refl)) as L.
    rewrite <- (loaded_acyclic _ _ L), <- (check_cycles_iff o Ho _ (l_inv _ _ L)).
    assert (distinct_ids courses ∧ valid_weights courses) as [? ?].
    { destruct HS as [HS _]. destruct Hok as [Hok _]. destruct Hok as (? & ? & ?); [apply HS; eauto|done]. }
    destruct (check_cycles o (finish courses g)).
    + split; [done|]. intros _. eauto.
    + split; [by intros [? ?]|]. naive_solver.
  - split; [by intros [? ?]|]. intros (Hd & Hw & Hnc). exfalso.
    assert (is_Some (None : option graph)) as [? ?]; [|done]. apply HS, Hok. split_and!; try done.
    intros d Hin Hself. destruct Hnc as [Ha _]. apply (Ha (d_id d)). apply tc_once. exists d. eauto.
Qed.

Lemma open_library_loaded o courses lib : Forall consistent courses →
  open_library o courses = Some lib → Loaded courses (lib_graph lib).
Proof.
  intros Hc. rewrite open_library_eq. destruct (load_decls_empty courses Hc) as [HR HS].
  destruct (try_fold gdecl (declared courses) empty_graph) as [g|] eqn:E; simpl; [|done].
  destruct (check_cycles _ _); [|done]. intros [= <-]. simpl. apply Rep_loaded. by apply HR.
Qed.

(** * The manifests *)
Lemma fold_insert_manifests {A} (key : A → uid) (l : list A) (m : gmap uid A) k a :
  NoDup (key <$> l) → (∀ x, x ∈ l → m !! key x = None) →
  fold_left (λ m x, <[key x := x]> m) l m !! k = Some a ↔ (a ∈ l ∧ key a = k) ∨ m !! k = Some a.
Proof.
  revert m. induction l as [|x l IH]; intros m Hn Hm; simpl.
  { split; [by right|]. intros [[[]%elem_of_nil _]|?]; done. }
  apply NoDup_cons in Hn as [Hx Hn]. rewrite IH; [|done|].
  - destruct (decide (key x = k)) as [<-|Hne].
    + rewrite lookup_insert, elem_of_cons. split.
      * intros [[? ?]|[= <-]]; left; [|auto]. auto.
      * intros [[[->|Ha] Hk]|Hs]; [by right| |].
        -- exfalso. apply Hx. rewrite <- Hk. apply elem_of_list_fmap. eauto.
        -- rewrite Hm in Hs; [done|left].
    + rewrite lookup_insert_ne by done. rewrite elem_of_cons. naive_solver.
  - intros y Hy. rewrite lookup_insert_ne; [apply Hm; by right|].
    intros Heq. apply Hx. rewrite Heq. apply elem_of_list_fmap. eauto.
Qed.

Lemma sublist_mjoin {A B} (f : A → list B) (l : list A) x : x ∈ l → f x `sublist_of` mjoin (f <$> l).
Proof.
  induction l as [|y l IH]; [by intros ?%elem_of_nil|].
  intros [->|Hx]%elem_of_cons; simpl.
  - by apply sublist_inserts_r.
  - apply sublist_inserts_l. by apply IH.
Qed.

Lemma ids_sublists courses :
  (course_decl <$> (oc_manifest <$> courses)) `sublist_of` declared courses ∧
  (lesson_decl <$> all_lessons courses) `sublist_of` declared courses ∧
  (exercise_decl <$> all_exercises courses) `sublist_of` declared courses.
Proof.
  unfold all_lessons, all_exercises, declared.
  induction courses as [|oc courses (IH1 & IH2 & IH3)]; [split_and!; constructor|].
  simpl.
  rewrite !fmap_app. split_and!.
  - constructor. by apply sublist_inserts_l.
  - simpl. constructor. apply sublist_app; [|done].
    clear. induction (oc_lessons oc) as [|[lm exs] les IH]; simpl; [done|].
    constructor. by apply sublist_inserts_l.
  - simpl. constructor. rewrite mjoin_app, fmap_app. apply sublist_app; [|done].
    clear. induction (oc_lessons oc) as [|[lm exs] les IH]; simpl; [done|].
    constructor. rewrite fmap_app. by apply sublist_app.
Qed.

Lemma sublist_elem {A} (l l' : list A) x : l `sublist_of` l' → x ∈ l → x ∈ l'.
Proof. intros Hs Hx. eapply elem_of_submseteq; [exact Hx|]. by apply sublist_submseteq. Qed.
Lemma sublist_NoDup {A} (l l' : list A) : l `sublist_of` l' → NoDup l' → NoDup l.
Proof.
  induction 1 as [|x l l' Hs IH|x l l' Hs IH]; [done| |].
  - rewrite !NoDup_cons. intros [Hx ?]. split; [|by apply IH]. intros Hin. apply Hx.
    by eapply sublist_elem.
  - rewrite NoDup_cons. intros [_ ?]. by apply IH.
Qed.
Lemma sublist_NoDup_ids (ds ds' : list decl) : ds `sublist_of` ds' → NoDup (d_id <$> ds') → NoDup (d_id <$> ds).
Proof. intros Hs. apply sublist_NoDup. by apply fmap_sublist. Qed.

Lemma manifests_lookup o courses lib : Forall consistent courses →
  open_library o courses = Some lib →
  (∀ u cm, course_map lib !! u = Some cm ↔ cm ∈ oc_manifest <$> courses ∧ cm_id cm = u) ∧
  (∀ u lm, lesson_map lib !! u = Some lm ↔ lm ∈ all_lessons courses ∧ lm_id lm = u) ∧
  (∀ u em, exercise_map lib !! u = Some em ↔ em ∈ all_exercises courses ∧ em_id em = u).
Proof.
  intros Hc. rewrite open_library_eq. destruct (load_decls_empty courses Hc) as [_ HS].
  destruct (try_fold gdecl (declared courses) empty_graph) as [g|] eqn:E; simpl; [|done].
  destruct (check_cycles _ _); [|done]. intros [= <-]. simpl.
  assert (decls_ok (declared courses)) as [Hn _] by (apply HS; eauto).
  destruct (ids_sublists courses) as (H1 & H2 & H3).
  apply sublist_NoDup_ids in H1, H2, H3; [|done..].
  rewrite <- (list_fmap_compose course_decl d_id) in H1. rewrite <- (list_fmap_compose lesson_decl d_id) in H2.
  rewrite <- (list_fmap_compose exercise_decl d_id) in H3.
  assert (∀ (ocs : list open_course) m, add_cms ocs m =
     fold_left (λ m cm, <[cm_id cm := cm]> m) (oc_manifest <$> ocs) m) as Ec.
  { induction ocs as [|oc ocs IH]; intros m; simpl; [done|]. apply IH. }
  assert (∀ les m, add_lms les m = fold_left (λ m lm, <[lm_id lm := lm]> m) les.*1 m) as El.
  { induction les as [|oc ocs IH]; intros m; simpl; [done|]. apply IH. }
  rewrite Ec, El. unfold add_ems. split_and!; intros u x.
  - rewrite (fold_insert_manifests cm_id) by (done || (intros; apply lookup_empty)).
    rewrite lookup_empty. naive_solver.
  - rewrite (fold_insert_manifests lm_id) by (done || (intros; apply lookup_empty)).
    rewrite lookup_empty. naive_solver.
  - rewrite (fold_insert_manifests em_id) by (done || (intros; apply lookup_empty)).
    rewrite lookup_empty. naive_solver.
Qed.
