From stdpp Require Import gmap strings list relations sorting.
From Verif Require Import F32 Graph GraphSpec GraphProofs CycleProofs GraphMore Library LibrarySpec.

Local Arguments try_graph : simpl never.

(** * The library as a fold over declarations *)
Definition gdecl (g : graph) (d : decl) : option graph :=
  match d_type d with
  | Exercise => try_graph (add_exercise g (d_id d) (d_parent d))
  | Lesson => g ← try_graph (add_lesson g (d_id d) (d_parent d));
              add_relations g (d_id d) Lesson (d_deps d) (d_enc d) (d_sup d)
  | Course => g ← try_graph (add_course g (d_id d));
              add_relations g (d_id d) Course (d_deps d) (d_enc d) (d_sup d)
  end.

Lemma try_fold_app {A B} (f : A → B → option A) l1 l2 a :
  try_fold f (l1 ++ l2) a = a' ← try_fold f l1 a; try_fold f l2 a'.
Proof.
  revert a. induction l1 as [|b l1 IH]; intros a; simpl; [done|].
  destruct (f a b); simpl; [apply IH|done].
Qed.

Lemma try_graph_true p : p.2 = true → try_graph p = Some p.1.
Proof. unfold try_graph. by intros ->. Qed.

Lemma mjoin_app {A} (ls ks : list (list A)) : mjoin (ls ++ ks) = mjoin ls ++ mjoin ks.
Proof. induction ls as [|l ls IH]; simpl; [done|]. by rewrite IH, app_assoc. Qed.

Definition add_ems (exs : list exercise_manifest) (m : gmap uid exercise_manifest) :=
  fold_left (λ m em, <[em_id em := em]> m) exs m.
Definition add_lms (les : list (lesson_manifest * list exercise_manifest)) (m : gmap uid lesson_manifest) :=
  fold_left (λ m le, <[lm_id le.1 := le.1]> m) les m.
Definition add_cms (ocs : list open_course) (m : gmap uid course_manifest) :=
  fold_left (λ m oc, <[cm_id (oc_manifest oc) := oc_manifest oc]> m) ocs m.

Lemma process_exercise_eq lib em : process_exercise lib em =
  (λ g, Library g (course_map lib) (lesson_map lib) (<[em_id em := em]> (exercise_map lib))) <$>
    gdecl (lib_graph lib) (exercise_decl em).
Proof. unfold process_exercise, gdecl. simpl. by destruct (try_graph _). Qed.
Lemma process_exercises_eq exs lib :
  try_fold process_exercise exs lib =
  (λ g, Library g (course_map lib) (lesson_map lib) (add_ems exs (exercise_map lib))) <$>
    try_fold gdecl (exercise_decl <$> exs) (lib_graph lib).
Proof.
  revert lib. induction exs as [|em exs IH]; intros lib; cbn [try_fold fmap list_fmap]; [by destruct lib|].
  rewrite process_exercise_eq.
  destruct (gdecl _ _) as [g|]; simpl; [|done]. by rewrite IH.
Qed.

Lemma process_lesson_eq lib lm exs : process_lesson lib (lm, exs) =
  (λ g, Library g (course_map lib) (<[lm_id lm := lm]> (lesson_map lib)) (add_ems exs (exercise_map lib))) <$>
    try_fold gdecl (lesson_decls (lm, exs)) (lib_graph lib).
Proof.
  unfold process_lesson, lesson_decls. cbn [try_fold fst snd].
  unfold gdecl at 2. simpl.
  destruct (try_graph _) as [g|]; simpl; [|done].
  destruct (add_relations _ _ _ _ _ _) as [g'|]; simpl; [|done].
  by rewrite process_exercises_eq.
Qed.
Lemma process_lessons_eq les lib :
  try_fold process_lesson les lib =
  (λ g, Library g (course_map lib) (add_lms les (lesson_map lib))
          (add_ems (mjoin les.*2) (exercise_map lib))) <$>
    try_fold gdecl (mjoin (lesson_decls <$> les)) (lib_graph lib).
Proof.
  revert lib. induction les as [|[lm exs] les IH]; intros lib; [by destruct lib|].
  cbn [try_fold]. rewrite process_lesson_eq, (fmap_cons lesson_decls).
  change (mjoin (lesson_decls (lm, exs) :: (lesson_decls <$> les))) with
    (lesson_decls (lm, exs) ++ mjoin (lesson_decls <$> les)).
  rewrite try_fold_app.
  destruct (try_fold gdecl (lesson_decls (lm, exs)) _) as [g2|]; simpl; [|done].
  rewrite IH. simpl. unfold add_ems. rewrite fold_left_app. done.
Qed.

Lemma process_course_eq lib oc : process_course lib oc =
  (λ g, Library g (<[cm_id (oc_manifest oc) := oc_manifest oc]> (course_map lib))
          (add_lms (oc_lessons oc) (lesson_map lib))
          (add_ems (mjoin (oc_lessons oc).*2) (exercise_map lib))) <$>
    try_fold gdecl (course_decls oc) (lib_graph lib).
Proof.
  unfold process_course, course_decls. cbn [try_fold].
  unfold gdecl at 2. simpl.
  destruct (try_graph _) as [g|]; simpl; [|done].
  destruct (add_relations _ _ _ _ _ _) as [g'|]; simpl; [|done].
  by rewrite process_lessons_eq.
Qed.
Lemma process_courses_eq ocs lib :
  try_fold process_course ocs lib =
  (λ g, Library g (add_cms ocs (course_map lib)) (add_lms (mjoin (oc_lessons <$> ocs)) (lesson_map lib))
          (add_ems (mjoin (mjoin (oc_lessons <$> ocs)).*2) (exercise_map lib))) <$>
    try_fold gdecl (declared ocs) (lib_graph lib).
Proof.
  unfold declared. revert lib. induction ocs as [|oc ocs IH]; intros lib; [by destruct lib|].
  cbn [try_fold]. rewrite process_course_eq, (fmap_cons course_decls).
  change (mjoin (course_decls oc :: (course_decls <$> ocs))) with
    (course_decls oc ++ mjoin (course_decls <$> ocs)).
  rewrite try_fold_app.
  destruct (try_fold gdecl (course_decls oc) _) as [g2|]; simpl; [|done].
  rewrite IH. simpl. unfold add_ems, add_lms. rewrite fmap_app.
  rewrite mjoin_app, !fold_left_app. done.
Qed.

(** * What the graph holds after some declarations *)
Record Rep (ds : list decl) (g : graph) : Prop := {
  r_inv : GInv g;
  r_type : ∀ u t, type_map g !! u = Some t ↔ ∃ d, d ∈ ds ∧ d_id d = u ∧ d_type d = t;
  r_lc : ∀ l c, lesson_course_map g !! l = Some c ↔
           ∃ d, d ∈ ds ∧ d_id d = l ∧ d_type d = Lesson ∧ d_parent d = c;
  r_el : ∀ e l, exercise_lesson_map g !! e = Some l ↔
           ∃ d, d ∈ ds ∧ d_id d = e ∧ d_type d = Exercise ∧ d_parent d = l;
  r_cl_ne : ∀ c s, course_lesson_map g !! c = Some s → s ≠ ∅;
  r_le_ne : ∀ l s, lesson_exercise_map g !! l = Some s → s ≠ ∅;
  r_dep : ∀ u s, dependency_graph g !! u = Some s ↔
            ∃ d, d ∈ ds ∧ d_id d = u ∧ d_type d ≠ Exercise ∧ s = list_to_set (d_deps d);
  r_dept_ne : ∀ u s, dependent_graph g !! u = Some s → s ≠ ∅;
  r_enc : ∀ u v, encompasses_graph g !! u = Some v ↔
            ∃ d, d ∈ ds ∧ d_id d = u ∧ d_type d ≠ Exercise ∧ v = full_encompassed (d_deps d) (d_enc d);
  r_sup : ∀ u s, supersedes_graph g !! u = Some s ↔
            ∃ d, d ∈ ds ∧ d_id d = u ∧ d_sup d ≠ [] ∧ s = list_to_set (d_sup d);
  r_supby_ne : ∀ u s, superseded_by g !! u = Some s → s ≠ ∅;
  r_start : starting_lessons_map g = ∅;
  r_sinks : ∀ u, u ∈ dependency_sinks g ↔
            (∃ d, d ∈ ds ∧ d_type d ≠ Exercise ∧ (d_id d = u ∨ u ∈ d_deps d)) ∧
            mget (dependency_graph g) u = ∅ ∧ lesson_course_map g !! u = None
}.

Lemma Rep_empty : Rep [] empty_graph.
Proof.
  split; try (intros; cbn in *; rewrite ?lookup_empty in *; split; [done|]; intros (d & []%elem_of_nil & _)).
  - apply GInv_empty.
  - intros *; simpl; by rewrite lookup_empty.
  - intros *; simpl; by rewrite lookup_empty.
  - intros *; simpl; by rewrite lookup_empty.
  - intros *; simpl; by rewrite lookup_empty.
  - done.
  - intros u. simpl. split; [set_solver|]. intros [(d & []%elem_of_nil & _) _].
Qed.

(** ** Sinks *)
Lemma update_sink_unit_sinks g u b x :
  x ∈ dependency_sinks (update_sink_unit g u b) ↔
  (x = u ∧ mget (dependency_graph g) u = ∅ ∧ b = true ∧ lesson_course_map g !! u = None) ∨
  (x ≠ u ∧ x ∈ dependency_sinks g).
Proof.
  unfold update_sink_unit, get_lesson_course, mget.
  destruct (bool_decide (default ∅ (dependency_graph g !! u) = ∅)) eqn:Hb; destruct b; simpl;
    destruct (lesson_course_map g !! u) eqn:Hl; simpl;
    rewrite ?bool_decide_eq_true, ?bool_decide_eq_false in Hb;
    destruct (decide (x = u)); set_solver.
Qed.
Lemma update_sink_unit_frame g u b :
  dependency_graph (update_sink_unit g u b) = dependency_graph g ∧
  lesson_course_map (update_sink_unit g u b) = lesson_course_map g.
Proof. destruct (update_sink_unit_eq g u b) as [s ->]. done. Qed.
Lemma fold_sink_units g deps x :
  x ∈ dependency_sinks (fold_left (λ g d, update_sink_unit g d true) deps g) ↔
  (x ∈ deps ∧ mget (dependency_graph g) x = ∅ ∧ lesson_course_map g !! x = None) ∨
  (x ∉ deps ∧ x ∈ dependency_sinks g).
Proof.
  revert g. induction deps as [|d deps IH]; intros g; simpl; [set_solver|].
  rewrite IH. destruct (update_sink_unit_frame g d true) as [-> ->].
  rewrite update_sink_unit_sinks, elem_of_cons.
  destruct (decide (x = d)); destruct (decide (x ∈ deps)); naive_solver.
Qed.
Lemma update_dependency_sinks_spec g u deps x :
  u ∉ deps →
  x ∈ dependency_sinks (update_dependency_sinks g u deps) ↔
  (x = u ∧ mget (dependency_graph g) u = ∅ ∧ deps = [] ∧ lesson_course_map g !! u = None) ∨
  (x ∈ deps ∧ mget (dependency_graph g) x = ∅ ∧ lesson_course_map g !! x = None) ∨
  (x ≠ u ∧ x ∉ deps ∧ x ∈ dependency_sinks g).
Proof.
  intros Hu. unfold update_dependency_sinks. rewrite fold_sink_units.
  set (b := match deps with [] => true | _ => false end).
  assert (b = true ↔ deps = []) as Hb by (subst b; destruct deps; naive_solver).
  destruct (update_sink_unit_frame g u b) as [-> ->]. rewrite update_sink_unit_sinks, Hb.
  destruct (decide (x = u)); destruct (decide (x ∈ deps)); naive_solver.
Qed.

(** ** One declaration *)
Definition parent_ok (ds : list decl) (d : decl) : Prop :=
  match d_type d with
  | Course => True
  | Lesson => ∃ p, p ∈ ds ∧ d_id p = d_parent d ∧ d_type p = Course
  | Exercise => (∃ p, p ∈ ds ∧ d_id p = d_parent d ∧ d_type p = Lesson) ∧
                d_deps d = [] ∧ d_enc d = [] ∧ d_sup d = []
  end.
Definition weights_ok (d : decl) : Prop :=
  ∀ x w, (x, w) ∈ d_enc d → fle fzero w = true ∧ fle w f_1 = true.

Lemma weights_ok_forallb d :
  forallb (λ e : uid * f32, fle fzero e.2 && fle e.2 f_1) (d_enc d) = true ↔ weights_ok d.
Proof.
  rewrite forallb_forall. unfold weights_ok. split.
  - intros H x w Hin%elem_of_list_In. specialize (H _ Hin). by apply andb_true_iff in H.
  - intros H [x w] Hin%elem_of_list_In. apply andb_true_iff. exact (H x w Hin).
Qed.

Lemma set_union_empty_l (s : gset uid) : ∅ ∪ s = s.
Proof. set_solver. Qed.

Lemma fold_insert_ne (ks : list uid) (u : uid) (m : gmap uid (gset uid)) k s :
  (∀ k s, m !! k = Some s → s ≠ ∅) →
  fold_left (λ m d, map_insert_set d u m) ks m !! k = Some s → s ≠ ∅.
Proof.
  revert m. induction ks as [|k' ks IH]; intros m Hm; simpl; [apply Hm|].
  apply IH. intros k0 s0. unfold map_insert_set.
  destruct (decide (k' = k0)) as [<-|]; simpl.
  - rewrite lookup_insert. intros [= <-]. set_solver.
  - rewrite lookup_insert_ne by done. apply Hm.
Qed.

(** The part common to courses and lessons. [g1] is the graph in which the unit has
    been added. *)
Lemma add_relations_eq g u t deps enc sup :
  t ≠ Exercise → u ∉ deps → is_Some (type_map g !! u) →
  forallb (λ e : uid * f32, fle fzero e.2 && fle e.2 f_1) enc = true →
  ∃ s, (∀ x, x ∈ s ↔ x ∈ dependency_sinks (update_dependency_sinks g u deps)) ∧
  add_relations g u t deps enc sup =
    Some (add_superseded (set_encompassed_by
      (λ m, fold_left (λ m e, map_extend_vec e.1 [(u, e.2)] m) (full_encompassed deps enc) m)
      (set_encompasses_graph (map_extend_vec u (full_encompassed deps enc))
        (set_dependent_graph (λ m, fold_left (λ m d, map_insert_set d u m) deps m)
          (set_dependency_graph (map_extend_set u deps) (set_dependency_sinks (λ _, s) g))))) u sup).
Proof.
  intros Ht Hu Hty Hw. unfold add_relations, add_dependencies.
  assert (verify_dependencies g u t deps = true) as -> by by apply verify_dependencies_spec.
  destruct (update_dependency_sinks_eq g u deps) as [s Hs]. rewrite Hs. exists s. split; [done|].
  unfold try_graph at 1. simpl. unfold add_encompassed. rewrite Hw. done.
Qed.

Definition add_unit (g : graph) (d : decl) : option graph :=
  match d_type d with
  | Exercise => try_graph (add_exercise g (d_id d) (d_parent d))
  | Lesson => try_graph (add_lesson g (d_id d) (d_parent d))
  | Course => try_graph (add_course g (d_id d))
  end.
Lemma gdecl_add_unit g d :
  gdecl g d = g1 ← add_unit g d;
    if decide (d_type d = Exercise) then Some g1
    else add_relations g1 (d_id d) (d_type d) (d_deps d) (d_enc d) (d_sup d).
Proof.
  unfold gdecl, add_unit. destruct (d_type d); destruct (try_graph _); done.
Qed.

Lemma add_unit_fresh ds g d g1 : Rep ds g → add_unit g d = Some g1 → d_id d ∉ d_id <$> ds.
Proof.
  intros R H Hin. apply elem_of_list_fmap in Hin as (d' & Hid & Hd').
  assert (type_map g !! d_id d = Some (d_type d')) as Ht by (apply R; eauto).
  unfold add_unit, add_course, add_lesson, add_exercise, try_graph in H.
  rewrite Ht in H. by destruct (d_type d).
Qed.
Lemma gdecl_conditions ds g d g' : Rep ds g → parent_ok ds d → gdecl g d = Some g' →
  d_id d ∉ d_id <$> ds ∧ d_id d ∉ d_deps d ∧ weights_ok d.
Proof.
  intros R Hp. rewrite gdecl_add_unit. destruct (add_unit g d) as [g1|] eqn:E; simpl; [|done].
  apply (add_unit_fresh ds) in E; [|done]. intros H. split; [done|].
  unfold parent_ok in Hp. case_decide as Hex.
  - rewrite Hex in Hp. destruct Hp as (_ & Hd & He & _). unfold weights_ok. rewrite Hd, He. split; set_solver.
  - unfold add_relations, add_dependencies in H.
    destruct (verify_dependencies _ _ _ _) eqn:Hv; [|done]. apply verify_dependencies_spec in Hv.
    split; [naive_solver|]. simpl in H. unfold add_encompassed in H.
    destruct (forallb _ (d_enc d)) eqn:Hw; [|done]. by apply weights_ok_forallb.
Qed.

(** The unit itself. *)
Lemma add_unit_ok ds g d : Rep ds g → parent_ok ds d → d_id d ∉ d_id <$> ds →
  ∃ g1, add_unit g d = Some g1 ∧ GInv g1 ∧
    type_map g1 = <[d_id d := d_type d]> (type_map g) ∧
    lesson_course_map g1 = (if decide (d_type d = Lesson) then <[d_id d := d_parent d]> else id) (lesson_course_map g) ∧
    course_lesson_map g1 = (if decide (d_type d = Lesson) then map_insert_set (d_parent d) (d_id d) else id) (course_lesson_map g) ∧
    exercise_lesson_map g1 = (if decide (d_type d = Exercise) then <[d_id d := d_parent d]> else id) (exercise_lesson_map g) ∧
    lesson_exercise_map g1 = (if decide (d_type d = Exercise) then map_insert_set (d_parent d) (d_id d) else id) (lesson_exercise_map g) ∧
    starting_lessons_map g1 = starting_lessons_map g ∧
    dependency_graph g1 = dependency_graph g ∧ dependent_graph g1 = dependent_graph g ∧
    dependency_sinks g1 = dependency_sinks g ∧
    encompasses_graph g1 = encompasses_graph g ∧ encompassed_by g1 = encompassed_by g ∧
    supersedes_graph g1 = supersedes_graph g ∧ superseded_by g1 = superseded_by g.
Proof.
  intros R Hp Hf.
  assert (type_map g !! d_id d = None) as Hn.
  { destruct (type_map g !! d_id d) as [t|] eqn:E; [|done]. exfalso. apply Hf.
    apply (r_type ds g R) in E as (d' & ? & ? & ?). apply elem_of_list_fmap. eauto. }
  unfold parent_ok in Hp. unfold add_unit. destruct (d_type d) eqn:Ht.
  - destruct Hp as ((p & Hpin & Hpid & Hpt) & _).
    assert (type_map g !! d_parent d = Some Lesson) as Hpar by (apply R; eauto).
    assert (d_parent d ≠ d_id d) as Hne by congruence.
    pose proof (add_exercise_inv g (d_id d) (d_parent d) (r_inv _ _ R)) as Hi. revert Hi.
    unfold add_exercise, update_unit_type. rewrite Hn. simpl.
    rewrite lookup_insert_ne, Hpar by done. simpl. intros Hi. eexists. split; [done|].
    split; [done|]. simpl. split_and!; done.
  - destruct Hp as (p & Hpin & Hpid & Hpt).
    assert (type_map g !! d_parent d = Some Course) as Hpar by (apply R; eauto).
    assert (d_parent d ≠ d_id d) as Hne by congruence.
    pose proof (add_lesson_inv g (d_id d) (d_parent d) (r_inv _ _ R)) as Hi. revert Hi.
    unfold add_lesson, update_unit_type. rewrite Hn. simpl.
    rewrite lookup_insert_ne, Hpar by done. simpl. intros Hi. eexists. split; [done|].
    split; [done|]. simpl. split_and!; done.
  - pose proof (gstep_inv g (AddCourse (d_id d)) (r_inv _ _ R)) as Hi. revert Hi. simpl.
    unfold add_course, update_unit_type. rewrite Hn. simpl. intros Hi. eexists. split; [done|].
    split; [done|]. simpl. split_and!; done.
Qed.

Lemma exists_snoc {A} (P : A → Prop) ds d : (∃ x, x ∈ ds ++ [d] ∧ P x) ↔ (∃ x, x ∈ ds ∧ P x) ∨ P d.
Proof. setoid_rewrite elem_of_app. setoid_rewrite elem_of_list_singleton. naive_solver. Qed.

Lemma gdecl_ok ds g d : Rep ds g → parent_ok ds d →
  d_id d ∉ d_id <$> ds → d_id d ∉ d_deps d → weights_ok d →
  ∃ g', gdecl g d = Some g' ∧ Rep (ds ++ [d]) g'.
Proof.
  intros R Hp Hf Hs Hw.
  assert (∀ d', d' ∈ ds → d_id d' ≠ d_id d) as Hfresh.
  { intros d' Hd' Heq. apply Hf. apply elem_of_list_fmap. eauto. }
  destruct (add_unit_ok ds g d R Hp Hf) as (g1 & Hg1 & I1 & ET & ELC & ECL & EEL & ELE & EST & ED & EDT & ESK & EE & EEB & ES & ESB).
  rewrite gdecl_add_unit, Hg1. simpl.
  assert (∀ u t, type_map g1 !! u = Some t ↔ ∃ x, x ∈ ds ++ [d] ∧ d_id x = u ∧ d_type x = t) as RT.
  { intros u t. rewrite exists_snoc, ET. destruct (decide (d_id d = u)) as [<-|Hne].
    - rewrite lookup_insert. naive_solver.
    - rewrite lookup_insert_ne by done. rewrite (r_type _ _ R). naive_solver. }
  assert (∀ l c, lesson_course_map g1 !! l = Some c ↔
           ∃ x, x ∈ ds ++ [d] ∧ d_id x = l ∧ d_type x = Lesson ∧ d_parent x = c) as RLC.
  { intros l c. rewrite exists_snoc, ELC. destruct (decide (d_type d = Lesson)) as [Hl|Hl]; simpl.
    - destruct (decide (d_id d = l)) as [<-|Hne].
      + rewrite lookup_insert. naive_solver.
      + rewrite lookup_insert_ne by done. rewrite (r_lc _ _ R). naive_solver.
    - rewrite (r_lc _ _ R). naive_solver. }
  assert (∀ l c, exercise_lesson_map g1 !! l = Some c ↔
           ∃ x, x ∈ ds ++ [d] ∧ d_id x = l ∧ d_type x = Exercise ∧ d_parent x = c) as REL.
  { intros l c. rewrite exists_snoc, EEL. destruct (decide (d_type d = Exercise)) as [Hl|Hl]; simpl.
    - destruct (decide (d_id d = l)) as [<-|Hne].
      + rewrite lookup_insert. naive_solver.
      + rewrite lookup_insert_ne by done. rewrite (r_el _ _ R). naive_solver.
    - rewrite (r_el _ _ R). naive_solver. }
  assert (∀ c s, course_lesson_map g1 !! c = Some s → s ≠ ∅) as RCL.
  { intros c s. rewrite ECL. destruct (decide (d_type d = Lesson)); simpl; [|apply R]. unfold map_insert_set.
    destruct (decide (d_parent d = c)) as [<-|Hne].
    - rewrite lookup_insert. intros [= <-]. set_solver.
    - rewrite lookup_insert_ne by done. apply R. }
  assert (∀ c s, lesson_exercise_map g1 !! c = Some s → s ≠ ∅) as RLE.
  { intros c s. rewrite ELE. destruct (decide (d_type d = Exercise)); simpl; [|apply R]. unfold map_insert_set.
    destruct (decide (d_parent d = c)) as [<-|Hne].
    - rewrite lookup_insert. intros [= <-]. set_solver.
    - rewrite lookup_insert_ne by done. apply R. }
  assert (∀ u : uid, d_type d = Lesson ∧ u = d_id d ∨ ¬ (d_type d = Lesson ∧ u = d_id d)) as Hlem.
  { intros u. destruct (decide (d_type d = Lesson)), (decide (u = d_id d)); naive_solver. }
  destruct (decide (d_type d = Exercise)) as [Hex|Hex].
  - (* exercise *)
    exists g1. split; [done|]. unfold parent_ok in Hp. rewrite Hex in Hp.
    destruct Hp as (_ & Hd0 & He0 & Hs0). split; try done.
    + intros u s. rewrite exists_snoc, ED, (r_dep _ _ R). naive_solver.
    + intros u s. rewrite EDT. apply R.
    + intros u v. rewrite exists_snoc, EE, (r_enc _ _ R). naive_solver.
    + intros u v. rewrite exists_snoc, ES, (r_sup _ _ R). naive_solver.
    + intros u s. rewrite ESB. apply R.
    + rewrite EST. apply R.
    + intros u. rewrite exists_snoc, ED, ESK, (r_sinks _ _ R).
      rewrite ELC, decide_False by congruence. simpl. naive_solver.
  - (* course or lesson *)
    destruct (add_relations_eq g1 (d_id d) (d_type d) (d_deps d) (d_enc d) (d_sup d)) as (s & Hsk & Heq).
    { done. } { done. } { rewrite ET. rewrite lookup_insert. eauto. } { by apply weights_ok_forallb. }
    rewrite Heq. eexists. split; [done|].
    assert (add_relations g1 (d_id d) (d_type d) (d_deps d) (d_enc d) (d_sup d) = Some
       (fold_left (λ g o, (gstep g o).1) [AddDependencies (d_id d) (d_type d) (d_deps d);
          AddEncompassed (d_id d) (d_deps d) (d_enc d); AddSuperseded (d_id d) (d_sup d)] g1)) as Hst.
    { unfold add_relations. simpl.
      assert ((add_dependencies g1 (d_id d) (d_type d) (d_deps d)).2 = true) as E1.
      { unfold add_dependencies. rewrite (proj2 (verify_dependencies_spec _ _ _ _)); [done|].
        split_and!; [done|done|]. rewrite ET, lookup_insert. eauto. }
      rewrite (try_graph_true _ E1). simpl.
      assert (∀ g, (add_encompassed g (d_id d) (d_deps d) (d_enc d)).2 = true) as E2.
      { intros g0. unfold add_encompassed. by rewrite (proj2 (weights_ok_forallb d)). }
      by rewrite (try_graph_true _ (E2 _)). }
    set (g2 := set_encompassed_by _ _) in *.
    assert (GInv (add_superseded g2 (d_id d) (d_sup d))) as I2.
    { rewrite Heq in Hst. apply (inj Some) in Hst. rewrite Hst. apply (fold_inv GInv); [apply gstep_inv|done]. }
    assert (dependency_graph g2 = <[d_id d := list_to_set (d_deps d)]> (dependency_graph g)) as D2.
    { simpl. unfold map_extend_set. rewrite ED. f_equal.
      assert (dependency_graph g !! d_id d = None) as ->; [|apply set_union_empty_l].
      destruct (dependency_graph g !! d_id d) eqn:E; [|done]. apply (r_dep _ _ R) in E. naive_solver. }
    assert (encompasses_graph g2 = <[d_id d := full_encompassed (d_deps d) (d_enc d)]> (encompasses_graph g)) as E2.
    { simpl. unfold map_extend_vec. rewrite EE. f_equal.
      assert (encompasses_graph g !! d_id d = None) as ->; [|done].
      destruct (encompasses_graph g !! d_id d) eqn:E; [|done]. apply (r_enc _ _ R) in E. naive_solver. }
    assert (∀ u s, dependent_graph g2 !! u = Some s → s ≠ ∅) as DT2.
    { intros u s0. simpl. rewrite EDT. apply fold_insert_ne. apply R. }
    assert (∀ x, x ∈ dependency_sinks g2 ↔ (∃ y, y ∈ ds ++ [d] ∧ d_type y ≠ Exercise ∧ (d_id y = x ∨ x ∈ d_deps y)) ∧
              mget (dependency_graph g2) x = ∅ ∧ lesson_course_map g1 !! x = None) as SK2.
    { intros x. rewrite D2. simpl. rewrite Hsk, update_dependency_sinks_spec by done.
      rewrite exists_snoc, ED, ESK, (r_sinks _ _ R).
      assert (mget (dependency_graph g) (d_id d) = ∅) as Hd0.
      { unfold mget. destruct (dependency_graph g !! d_id d) eqn:E; [|done]. apply (r_dep _ _ R) in E. naive_solver. }
      assert (∀ x, x ≠ d_id d → mget (<[d_id d:=list_to_set (d_deps d)]> (dependency_graph g)) x =
         mget (dependency_graph g) x) as Hne.
      { intros y Hy. unfold mget. by rewrite lookup_insert_ne. }
      assert (mget (<[d_id d:=list_to_set (d_deps d)]> (dependency_graph g)) (d_id d) = list_to_set (d_deps d)) as Heq'.
      { unfold mget. by rewrite lookup_insert. }
      assert (∀ y, y ≠ d_id d → lesson_course_map g1 !! y = lesson_course_map g !! y) as HL.
      { intros y Hy. rewrite ELC. destruct (decide (d_type d = Lesson)); simpl; [|done]. by rewrite lookup_insert_ne. }
      destruct (decide (x = d_id d)) as [->|Hx].
      - rewrite Heq'. destruct (d_deps d) as [|z zs] eqn:Hz.
        + simpl. naive_solver.
        + split; [naive_solver|]. intros (_ & HH & _). exfalso. set_solver.
      - rewrite (Hne x Hx), (HL x Hx). clear Hne Heq' HL Heq Hst Hsk. destruct (decide (x ∈ d_deps d)); naive_solver. }
    unfold add_superseded in *. destruct (d_sup d) as [|s0 sup] eqn:Hsup.
    + split; try done; simpl.
      * intros u v. rewrite exists_snoc. simpl in D2. rewrite D2.
        destruct (decide (d_id d = u)) as [<-|Hne].
        -- rewrite lookup_insert. naive_solver.
        -- rewrite lookup_insert_ne by done. rewrite (r_dep _ _ R). naive_solver.
      * intros u v. rewrite exists_snoc. simpl in E2. rewrite E2.
        destruct (decide (d_id d = u)) as [<-|Hne].
        -- rewrite lookup_insert. naive_solver.
        -- rewrite lookup_insert_ne by done. rewrite (r_enc _ _ R). naive_solver.
      * intros u v. rewrite exists_snoc, ES, (r_sup _ _ R). naive_solver.
      * intros u v. rewrite ESB. apply R.
      * rewrite EST. apply R.
    + split; try done; simpl.
      * intros u v. rewrite exists_snoc. simpl in D2. rewrite D2.
        destruct (decide (d_id d = u)) as [<-|Hne].
        -- rewrite lookup_insert. naive_solver.
        -- rewrite lookup_insert_ne by done. rewrite (r_dep _ _ R). naive_solver.
      * intros u v. rewrite exists_snoc. simpl in E2. rewrite E2.
        destruct (decide (d_id d = u)) as [<-|Hne].
        -- rewrite lookup_insert. naive_solver.
        -- rewrite lookup_insert_ne by done. rewrite (r_enc _ _ R). naive_solver.
      * intros u v. rewrite exists_snoc, ES. unfold map_extend_set.
        destruct (decide (d_id d = u)) as [<-|Hne].
        -- rewrite lookup_insert.
           assert (supersedes_graph g !! d_id d = None) as ->.
           { destruct (supersedes_graph g !! d_id d) eqn:E; [|done]. apply (r_sup _ _ R) in E. naive_solver. }
           simpl. rewrite set_union_empty_l, Hsup. naive_solver.
        -- rewrite lookup_insert_ne by done. rewrite (r_sup _ _ R). naive_solver.
      * intros u v. rewrite ESB. apply (fold_insert_ne (s0 :: sup)). apply R.
      * rewrite EST. apply R.
Qed.

(** * All declarations *)
Fixpoint parents_ok (ds1 ds2 : list decl) : Prop :=
  match ds2 with
  | [] => True
  | d :: ds2 => parent_ok ds1 d ∧ parents_ok (ds1 ++ [d]) ds2
  end.

Definition decls_ok (ds : list decl) : Prop :=
  NoDup (d_id <$> ds) ∧ (∀ d, d ∈ ds → d_id d ∉ d_deps d ∧ weights_ok d).

Lemma load_decls ds1 ds2 g : Rep ds1 g → NoDup (d_id <$> ds1) → parents_ok ds1 ds2 →
  (∀ d, d ∈ ds1 → d_id d ∉ d_deps d ∧ weights_ok d) →
  (∀ g', try_fold gdecl ds2 g = Some g' → Rep (ds1 ++ ds2) g') ∧
  (is_Some (try_fold gdecl ds2 g) ↔ decls_ok (ds1 ++ ds2)).
Proof.
  revert ds1 g. induction ds2 as [|d ds2 IH]; intros ds1 g R Hnd Hp Hok; simpl.
  - rewrite app_nil_r. split; [by intros ? [= <-]|]. unfold decls_ok. split; [done|eauto].
  - destruct Hp as [Hp Hps]. destruct (gdecl g d) as [g1|] eqn:Hg; simpl.
    + pose proof (gdecl_conditions _ _ _ _ R Hp Hg) as (Hf & Hs & Hw).
      destruct (gdecl_ok _ _ _ R Hp Hf Hs Hw) as (g1' & Hg' & R1).
      rewrite Hg in Hg'. injection Hg' as <-.
      specialize (IH (ds1 ++ [d]) g1 R1). rewrite <- app_assoc in IH. apply IH.
      * rewrite fmap_app. apply NoDup_app. split; [done|]. split.
        { intros x Hx. simpl. intros ->%elem_of_list_singleton. done. }
        { simpl. apply NoDup_singleton. }
      * done.
      * intros d' [Hd|Hd]%elem_of_app; [by apply Hok|]. apply elem_of_list_singleton in Hd as ->. done.
    + split; [done|]. split; [by intros [? ?]|]. intros [Hn Ho]. exfalso.
      rewrite fmap_app in Hn. apply NoDup_app in Hn as (_ & Hdis & _).
      assert (d ∈ ds1 ++ d :: ds2) as Hin by (apply elem_of_app; right; left).
      destruct (Ho d Hin) as [Hs Hw].
      destruct (gdecl_ok _ _ _ R Hp) as (g' & Hg' & _); [|done|done|congruence].
      intros Hd. apply (Hdis _ Hd). left.
Qed.

(** Consistent manifests declare parents first. *)
Lemma parents_ok_app ds1 ds2 ds3 : parents_ok ds1 (ds2 ++ ds3) ↔ parents_ok ds1 ds2 ∧ parents_ok (ds1 ++ ds2) ds3.
Proof.
  revert ds1. induction ds2 as [|d ds2 IH]; intros ds1; simpl; [rewrite app_nil_r; naive_solver|].
  rewrite IH, <- app_assoc. simpl. naive_solver.
Qed.
Lemma consistent_parents courses ds1 :
  Forall consistent courses → parents_ok ds1 (declared courses).
Proof.
  unfold declared. revert ds1. induction courses as [|oc courses IH]; intros ds1 HF; simpl; [done|].
  apply Forall_cons in HF as [Hc HF]. split; [done|]. apply parents_ok_app. split; [|by apply IH].
  unfold consistent in Hc. revert Hc.
  assert (∃ p, p ∈ ds1 ++ [course_decl (oc_manifest oc)] ∧ d_id p = cm_id (oc_manifest oc) ∧ d_type p = Course) as HP.
  { exists (course_decl (oc_manifest oc)). split; [|done]. apply elem_of_app. right. left. }
  revert HP. generalize (ds1 ++ [course_decl (oc_manifest oc)]). generalize (cm_id (oc_manifest oc)).
  clear. induction (oc_lessons oc) as [|[lm exs] les IH]; intros c ds HP Hc; simpl; [done|].
  destruct (Hc lm exs) as [Hlc Hle]; [left|].
  split; [unfold parent_ok; simpl; by rewrite Hlc|].
  apply parents_ok_app. split.
  - assert (∃ p, p ∈ ds ++ [lesson_decl lm] ∧ d_id p = lm_id lm ∧ d_type p = Lesson) as HL.
    { exists (lesson_decl lm). split; [|done]. apply elem_of_app. right. left. }
    revert HL Hle. generalize (ds ++ [lesson_decl lm]). clear.
    induction exs as [|em exs IH]; intros ds HL Hle; simpl; [done|]. split.
    + unfold parent_ok. simpl. rewrite (Hle em) by left. done.
    + apply IH; [|intros; apply Hle; by right]. destruct HL as (p & ? & ?).
      exists p. split; [|done]. apply elem_of_app. by left.
  - apply (IH c).
    + destruct HP as (p & ? & ?). exists p. split; [|done]. rewrite !elem_of_app. by left; left.
    + intros lm' exs' Hin. apply Hc. by right.
Qed.

Lemma load_decls_empty courses : Forall consistent courses →
  (∀ g', try_fold gdecl (declared courses) empty_graph = Some g' → Rep (declared courses) g') ∧
  (is_Some (try_fold gdecl (declared courses) empty_graph) ↔ decls_ok (declared courses)).
Proof.
  intros Hc. apply (load_decls [] (declared courses)).
  - apply Rep_empty.
  - apply NoDup_nil. done.
  - by apply consistent_parents.
  - by intros d ?%elem_of_nil.
Qed.

(** Relations of the manifests in terms of the graph. *)
Lemma declared_exercise courses d : d ∈ declared courses → d_type d = Exercise →
  d_deps d = [] ∧ d_enc d = [] ∧ d_sup d = [].
Proof.
  unfold declared. rewrite elem_of_list_join. intros (l & Hd & Hl) Ht.
  apply elem_of_list_fmap in Hl as (oc & -> & _). unfold course_decls in Hd.
  apply elem_of_cons in Hd as [->|Hd]; [done|].
  apply elem_of_list_join in Hd as (l & Hd & Hl). apply elem_of_list_fmap in Hl as (le & -> & _).
  unfold lesson_decls in Hd. apply elem_of_cons in Hd as [->|Hd]; [done|].
  apply elem_of_list_fmap in Hd as (em & -> & _). done.
Qed.

Section rep.
  Context (courses : list open_course) (g : graph) (R : Rep (declared courses) g).

  Lemma rep_dep u x : depends_on g u x ↔ says_dep courses u x.
  Proof using R.
    unfold depends_on, get_dependencies, says_dep, answers. split.
    - destruct (dependency_graph g !! u) as [s|] eqn:E; [|done].
      apply (r_dep _ _ R) in E as (d & ? & ? & ? & ->). rewrite elem_of_list_to_set. eauto.
    - intros (d & Hd & <- & Hx).
      assert (dependency_graph g !! d_id d = Some (list_to_set (d_deps d))) as ->.
      { apply R. exists d. split_and!; try done. intros Ht.
        destruct (declared_exercise _ _ Hd Ht) as (Hz & _). rewrite Hz in Hx. set_solver. }
      by rewrite elem_of_list_to_set.
  Qed.
  Lemma rep_sup u x : supersedes g u x ↔ says_sup courses u x.
  Proof using R.
    unfold supersedes, get_supersedes, says_sup, answers. split.
    - destruct (supersedes_graph g !! u) as [s|] eqn:E; [|done].
      apply (r_sup _ _ R) in E as (d & ? & ? & ? & ->). rewrite elem_of_list_to_set. eauto.
    - intros (d & Hd & <- & Hx).
      assert (supersedes_graph g !! d_id d = Some (list_to_set (d_sup d))) as ->.
      { apply R. exists d. split_and!; try done. intros Hz. rewrite Hz in Hx. set_solver. }
      by rewrite elem_of_list_to_set.
  Qed.
  Lemma rep_enc_stored u x w : (x, w) ∈ vget (encompasses_graph g) u ↔ says_enc courses u x w.
  Proof using R.
    unfold says_enc, vget. setoid_rewrite <- full_encompassed_spec. split.
    - destruct (encompasses_graph g !! u) as [v|] eqn:E; simpl; [|by intros ?%elem_of_nil].
      apply (r_enc _ _ R) in E as (d & ? & ? & ? & ->). eauto.
    - intros (d & Hd & <- & Hx).
      assert (encompasses_graph g !! d_id d = Some (full_encompassed (d_deps d) (d_enc d))) as ->; [|done].
      apply R. exists d. split_and!; try done. intros Ht.
      destruct (declared_exercise _ _ Hd Ht) as (Hz & Hz2 & _). rewrite Hz, Hz2 in Hx. by apply elem_of_nil in Hx.
  Qed.
  Lemma rep_type u t : get_unit_type g u = Some t ↔ says_type courses u t.
  Proof using R. apply R. Qed.
  Lemma rep_lc l c : get_lesson_course g l = Some c ↔ says_parent courses Lesson l c.
  Proof using R. apply R. Qed.
  Lemma rep_el e l : get_exercise_lesson g e = Some l ↔ says_parent courses Exercise e l.
  Proof using R. apply R. Qed.
End rep.
