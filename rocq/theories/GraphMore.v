(** More lemmas about the unit graph: failed operations, starting lessons, and the
    order in which [update_starting_lessons] runs. *)
From stdpp Require Import gmap strings list relations.
From Verif Require Import F32 Graph GraphSpec GraphProofs CycleProofs.

(** * Failed operations *)
Lemma add_course_failed g c g' : add_course g c = (g', false) → g' = g.
Proof.
  unfold add_course, update_unit_type. destruct (type_map g !! c) eqn:E; [by intros [= <-]|done].
Qed.
Lemma add_dependencies_failed g u t deps g' : add_dependencies g u t deps = (g', false) → g' = g.
Proof. unfold add_dependencies. destruct (verify_dependencies _ _ _ _); by intros [= <-]. Qed.
Lemma add_encompassed_failed g u deps enc g' : add_encompassed g u deps enc = (g', false) → g' = g.
Proof. unfold add_encompassed. destruct (forallb _ _); by intros [= <-]. Qed.
Lemma add_lesson_failed g l c g' : add_lesson g l c = (g', false) →
  g' = g ∨ (type_map g !! l = None ∧ g' = set_type_map (λ m, <[l := Lesson]> m) g).
Proof.
  unfold add_lesson, update_unit_type. destruct (type_map g !! l) eqn:E; [intros [= <-]; by left|].
  simpl. destruct (<[l:=Lesson]> (type_map g) !! c) eqn:E2; [|done].
  case_bool_decide; [done|]. intros [= <-]. by right.
Qed.
Lemma add_exercise_failed g e l g' : add_exercise g e l = (g', false) →
  g' = g ∨ (type_map g !! e = None ∧ g' = set_type_map (λ m, <[e := Exercise]> m) g).
Proof.
  unfold add_exercise, update_unit_type. destruct (type_map g !! e) eqn:E; [intros [= <-]; by left|].
  simpl. destruct (<[e:=Exercise]> (type_map g) !! l) eqn:E2; [|done].
  case_bool_decide; [done|]. intros [= <-]. by right.
Qed.

(** * Starting lessons *)
Definition loses_sink (g : graph) (c : uid) : Prop :=
  has_starting_dependencies g (course_starting_lessons g c) = true.
#[global] Typeclasses Opaque loses_sink.
Global Instance loses_sink_dec g c : Decision (loses_sink g c).
Proof. unfold loses_sink. apply _. Defined.

Lemma starting_of_ext g m s : ∀ c,
  course_starting_lessons (set_starting_lessons_map m (set_dependency_sinks s g)) c = course_starting_lessons g c.
Proof. done. Qed.

(** The result of the loop over any list of courses. *)
Definition starting_result (g : graph) (ks : list uid) : graph :=
  set_starting_lessons_map (λ m, fold_left (λ m c, <[c := course_starting_lessons g c]> m) ks m)
    (set_dependency_sinks (λ s, filter (λ c, ¬ (c ∈ ks ∧ loses_sink g c)) s) g).

Lemma graph_eta g : set_starting_lessons_map id (set_dependency_sinks id g) = g.
Proof. by destruct g. Qed.

Lemma starting_fold g ks : fold_left update_starting_lessons_of ks g = starting_result g ks.
Proof.
  revert g. induction ks as [|c ks IH]; intros g; simpl.
  - unfold starting_result. simpl. destruct g; unfold set_starting_lessons_map, set_dependency_sinks; simpl.
    f_equal. apply set_eq. intros x. rewrite elem_of_filter. split; [|by intros [_ ?]].
    intros ?. split; [|done]. intros [[]%elem_of_nil _].
  - rewrite IH. unfold update_starting_lessons_of, starting_result. simpl.
    set (b := bool_decide _ && _).
    assert (∃ s, (if b then set_dependency_sinks (λ s, s ∖ {[c]}) g else g) = set_dependency_sinks (λ _, s) g ∧
       ∀ x, x ∈ s ↔ x ∈ dependency_sinks g ∧ ¬ (x = c ∧ loses_sink g c)) as (s & -> & Hs).
    { subst b. destruct (bool_decide (c ∈ dependency_sinks g)) eqn:Hb; simpl.
      - destruct (has_starting_dependencies _ _) eqn:Hh.
        + exists (dependency_sinks g ∖ {[c]}). split; [done|]. unfold loses_sink. set_solver.
        + exists (dependency_sinks g). split; [by destruct g|]. unfold loses_sink. rewrite Hh. naive_solver.
      - exists (dependency_sinks g). split; [by destruct g|]. rewrite bool_decide_eq_false in Hb. naive_solver. }
    unfold set_starting_lessons_map, set_dependency_sinks, course_starting_lessons, loses_sink,
      has_starting_dependencies, get_dependencies, get_unit_type in *; simpl in *.
    f_equal. apply set_eq. intros x. rewrite !elem_of_filter, Hs, elem_of_cons. naive_solver.
Qed.

Lemma fold_insert_lookup {A} (f : uid → A) (ks : list uid) (m : gmap uid A) (k : uid) :
  fold_left (λ m c, <[c := f c]> m) ks m !! k = if decide (k ∈ ks) then Some (f k) else m !! k.
Proof.
  revert m. induction ks as [|c ks IH]; intros m; cbn [fold_left].
  { case_decide as H; [by apply elem_of_nil in H|done]. }
  rewrite IH. destruct (decide (k ∈ ks)) as [Hk|Hk].
  - rewrite decide_True by (by right). done.
  - destruct (decide (c = k)) as [->|Hne].
    + rewrite decide_True by left. by rewrite lookup_insert.
    + rewrite decide_False by (rewrite elem_of_cons; naive_solver). by rewrite lookup_insert_ne.
Qed.

(** The loop may visit the courses in any order. *)
Lemma update_starting_lessons_perm g ks :
  (∀ c, c ∈ ks ↔ c ∈ dom (course_lesson_map g)) →
  fold_left update_starting_lessons_of ks g = update_starting_lessons g.
Proof.
  intros Hks. unfold update_starting_lessons. rewrite !starting_fold. unfold starting_result.
  destruct g; unfold set_starting_lessons_map, set_dependency_sinks; simpl in *. f_equal.
  - apply map_eq. intros k. rewrite !fold_insert_lookup.
    repeat case_decide; try done; rewrite elem_of_elements in *; naive_solver.
  - apply set_eq. intros x. rewrite !elem_of_filter, elem_of_elements, Hks. done.
Qed.

Lemma update_starting_lookup g c :
  starting_lessons_map (update_starting_lessons g) !! c =
  if decide (is_Some (course_lesson_map g !! c)) then Some (course_starting_lessons g c)
  else starting_lessons_map g !! c.
Proof.
  unfold update_starting_lessons. rewrite starting_fold. simpl. rewrite fold_insert_lookup.
  repeat case_decide; try done; rewrite elem_of_elements, elem_of_dom in *; naive_solver.
Qed.
Lemma update_starting_sinks g u :
  u ∈ dependency_sinks (update_starting_lessons g) ↔
  u ∈ dependency_sinks g ∧ ¬ (is_Some (course_lesson_map g !! u) ∧ loses_sink g u).
Proof.
  unfold update_starting_lessons. rewrite starting_fold. simpl.
  rewrite elem_of_filter, elem_of_elements, elem_of_dom. naive_solver.
Qed.

Lemma course_starting_lessons_spec g c l :
  l ∈ course_starting_lessons g c ↔
  answers (get_course_lessons g c) l ∧ ∀ d, depends_on g l d → ¬ answers (get_course_lessons g c) d.
Proof.
  unfold course_starting_lessons, depends_on, get_course_lessons. rewrite elem_of_filter.
  change (default ∅ (course_lesson_map g !! c)) with (mget (course_lesson_map g) c).
  rewrite !answers_mget. destruct (get_dependencies g l) as [ds|] eqn:E; simpl.
  - rewrite bool_decide_eq_true. setoid_rewrite answers_mget. set_solver.
  - naive_solver.
Qed.

Lemma starting_lessons_of_history ops c l :
  let g := grun (ops ++ [UpdateStartingLessons]) in
  is_Some (get_course_lessons g c) →
  (answers (get_starting_lessons g c) l ↔
   get_lesson_course g l = Some c ∧ ∀ d, depends_on g l d → get_lesson_course g d ≠ Some c).
Proof.
  intros g Hc. pose proof (grun_inv (ops ++ [UpdateStartingLessons])) as Hg. fold g in Hg.
  assert (∀ x, get_lesson_course g x = Some c ↔ answers (get_course_lessons g c) x) as Hlc.
  { intros x. unfold get_lesson_course, get_course_lessons. rewrite answers_mget. apply Hg. }
  rewrite Hlc. setoid_rewrite (not_iff_compat (Hlc _)).
  subst g. rewrite grun_app in *. simpl in *. set (g := grun ops) in *.
  unfold get_starting_lessons. rewrite update_starting_lookup.
  destruct (update_starting_lessons_eq g) as (s & m & Heq).
  assert (course_lesson_map (update_starting_lessons g) = course_lesson_map g) as E1 by by rewrite Heq.
  assert (dependency_graph (update_starting_lessons g) = dependency_graph g) as E2 by by rewrite Heq.
  unfold depends_on, get_dependencies, get_course_lessons in *. rewrite E1, E2 in *.
  rewrite decide_True by done. simpl. rewrite course_starting_lessons_spec. done.
Qed.

(** * Termination of the cycle check on any graph *)
Lemma check_cycles_terminates o g : order_ok o → check_cycles_result o g ≠ OutOfFuel.
Proof.
  intros Ho. pose proof (check_one_terminates (dep_neighbors o g) (dep_reverse g) _ (dep_keys o Ho g)) as T1.
  pose proof (check_one_terminates (sup_neighbors o g) (sup_reverse g) _ (sup_keys o Ho g)) as T2.
  unfold check_cycles_result.
  destruct (check_one (dep_neighbors o g) _ _) as [V1| | |] eqn:E1; try done.
  destruct (check_one (sup_neighbors o g) _ _) as [V2| | |] eqn:E2; try done.
  destruct (decide (encompasses_graph g = ∅)) as [He|He].
  { assert (ord_keys o 2 (dom (encompasses_graph g)) = []) as ->; [|done].
    destruct Ho as [H _]. apply Permutation_nil_r. rewrite H, He, dom_empty_L. by rewrite elements_empty. }
  apply check_one_terminates.
  intros u ns. unfold enc_neighbors, get_encompasses. destruct (decide _); [done|].
  destruct (encompasses_graph g !! u) eqn:E; [|done]. intros _ _.
  rewrite elem_ord_keys by done. apply elem_of_dom. eauto.
Qed.

(** * The encompassing relation *)
Lemma encompassing_inverse ops :
  let g := grun ops in
  encompasing_equals_dependency g = true ∨ encompassed_by g ≠ ∅ →
  ∀ u e w, encompasses g u e w ↔ is_encompassed_by g e u w.
Proof.
  intros g. destruct (grun_inv ops) as [D S E N W LC EL LCT ELT DT SELF]. fold g in D, E.
  intros H u e w. unfold encompasses, is_encompassed_by, get_encompasses, get_encompassed_by.
  assert (encompasses_graph g = ∅ → encompassed_by g = ∅) as Hee.
  { intros He. apply map_eq. intros k. rewrite lookup_empty. destruct (encompassed_by g !! k) as [l|] eqn:Hk; [|done].
    destruct l as [|[v w'] l]; [by apply N in Hk|].
    assert ((v, w') ∈ vget (encompassed_by g) k) as Hin by (unfold vget; rewrite Hk; left).
    apply E in Hin. rewrite He in Hin. unfold vget in Hin. rewrite lookup_empty in Hin. by apply elem_of_nil in Hin. }
  destruct H as [H|H].
  - unfold encompasing_equals_dependency in H. apply andb_true_iff in H as [H1 H2].
    rewrite !bool_decide_eq_true in H1, H2. rewrite !decide_True by done.
    unfold get_dependencies, get_dependents. specialize (D u e). rewrite <- !answers_mget in D.
    unfold lists, answers in *.
    destruct (dependency_graph g !! u) as [s1|], (dependent_graph g !! e) as [s2|]; simpl;
      rewrite ?elem_of_list_fmap; split; try done.
    + intros (d & [= -> ->] & Hd). exists u. rewrite !elem_of_elements in *. split; [done|]. by apply D.
    + intros (d & [= -> ->] & Hd). exists e. rewrite !elem_of_elements in *. split; [done|]. by apply D.
    + intros (d & [= -> ->] & Hd). rewrite elem_of_elements in Hd. by apply D.
    + intros (d & [= -> ->] & Hd). rewrite elem_of_elements in Hd. by apply D.
  - rewrite decide_False by naive_solver. rewrite decide_False by done. rewrite !lists_vget. apply E.
Qed.

(** * Concrete histories *)
Local Open Scope string_scope.

(** An encompassing list that is empty hides the dependency on one side only. *)
Lemma encompassing_not_inverse :
  ∃ ops u e w, let g := grun ops in is_encompassed_by g e u w ∧ ¬ encompasses g u e w.
Proof.
  exists [AddCourse "A"; AddCourse "B"; AddDependencies "B" Course ["A"]; AddEncompassed "B" [] []], "B", "A", f_1.
  cbn zeta.
  assert (get_encompassed_by (grun [AddCourse "A"; AddCourse "B"; AddDependencies "B" Course ["A"]; AddEncompassed "B" [] []]) "A"
    = Some [("B", f_1)]) as H1 by by vm_compute.
  assert (get_encompasses (grun [AddCourse "A"; AddCourse "B"; AddDependencies "B" Course ["A"]; AddEncompassed "B" [] []]) "B"
    = Some []) as H2 by by vm_compute.
  unfold is_encompassed_by, encompasses. rewrite H1, H2. simpl. split; [left|]. apply not_elem_of_nil.
Qed.

(** A failed [add_lesson] leaves the lesson registered, without a course. *)
Lemma failed_add_lesson_changes :
  ∃ ops l c, let g := grun ops in
    (add_lesson g l c).2 = false ∧ get_unit_type (add_lesson g l c).1 l ≠ get_unit_type g l.
Proof.
  exists [AddCourse "A"; AddLesson "A::1" "A"], "B::1", "A::1". cbn zeta. by vm_compute.
Qed.

Definition sample_order : order := Order (λ _ s, elements s) (λ _ _ s, elements s).
Lemma sample_order_ok : order_ok sample_order.
Proof. split; done. Qed.

(** A small history that exercises all operations. *)
Definition sample_ops : list gop :=
  [AddCourse "A"; AddDependencies "A" Course []; AddEncompassed "A" [] [];
   AddLesson "A::1" "A"; AddDependencies "A::1" Lesson []; AddEncompassed "A::1" [] [];
   AddExercise "A::1::x" "A::1";
   AddLesson "A::2" "A"; AddDependencies "A::2" Lesson ["A::1"];
   AddEncompassed "A::2" ["A::1"] [("A::1", f_0_5)]; AddSuperseded "A::2" ["A::1"];
   AddExercise "A::2::x" "A::2";
   AddCourse "B"; AddDependencies "B" Course ["A"; "C"]; AddEncompassed "B" ["A"; "C"] [];
   AddLesson "B::1" "B"; AddDependencies "B::1" Lesson ["A::2"]; AddEncompassed "B::1" ["A::2"] [];
   AddCourse "B"; AddLesson "B::2" "A::1"; AddDependencies "B" Course ["B"]].
