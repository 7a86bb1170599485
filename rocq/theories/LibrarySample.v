(** A concrete library, and the statements of P_Library.v in the form used there. *)
From stdpp Require Import gmap strings list relations sorting.
From Verif Require Import F32 Graph GraphSpec GraphProofs GraphMore Library LibrarySpec LibraryProofs LoadProofs LibraryQueries Compute.

Lemma graph_agrees o courses lib : Forall consistent courses →
  open_library o courses = Some lib → let g := lib_graph lib in
  (∀ u t, get_unit_type g u = Some t ↔ says_type courses u t) ∧
  (∀ l c, get_lesson_course g l = Some c ↔ says_parent courses Lesson l c) ∧
  (∀ l c, answers (get_course_lessons g c) l ↔ says_parent courses Lesson l c) ∧
  (∀ e l, get_exercise_lesson g e = Some l ↔ says_parent courses Exercise e l) ∧
  (∀ e l, answers (get_lesson_exercises g l) e ↔ says_parent courses Exercise e l) ∧
  (∀ u x, depends_on g u x ↔ says_dep courses u x) ∧
  (∀ u x, dependent_of g x u ↔ says_dep courses u x) ∧
  (∀ u x, supersedes g u x ↔ says_sup courses u x) ∧
  (∀ u x, is_superseded_by g x u ↔ says_sup courses u x) ∧
  (∀ u x w, encompasses g u x w ↔ says_enc courses u x w) ∧
  (∀ u x w, is_encompassed_by g x u w ↔ says_enc courses u x w).
Proof. intros Hc Ho g. destruct (open_library_loaded o courses lib Hc Ho). done. Qed.

Lemma sinks_of_library o courses lib : Forall consistent courses →
  open_library o courses = Some lib → ∀ u,
  u ∈ get_dependency_sinks (lib_graph lib) ↔
    ((∃ t, t ≠ Exercise ∧ says_type courses u t) ∨ (∃ v, says_dep courses v u)) ∧
    (∀ x, ¬ says_dep courses u x) ∧ (∀ c, ¬ says_parent courses Lesson u c) ∧
    ¬ (∃ l, says_starting courses u l ∧ (∃ x, says_dep courses l x) ∧
            ∀ x, says_dep courses l x → ∃ t, says_type courses x t).
Proof. intros Hc Ho. apply (open_library_loaded o courses lib Hc Ho). Qed.

Lemma starting_of_library o courses lib : Forall consistent courses →
  open_library o courses = Some lib → ∀ c l,
  answers (get_starting_lessons (lib_graph lib) c) l ↔
    says_parent courses Lesson l c ∧ ∀ x, says_dep courses l x → ¬ says_parent courses Lesson x c.
Proof. intros Hc Ho. apply (open_library_loaded o courses lib Hc Ho). Qed.

Lemma listings o courses lib : Forall consistent courses →
  open_library o courses = Some lib →
  lists_exactly (get_course_ids lib) (λ u, says_type courses u Course) ∧
  (∀ c, match get_lesson_ids lib c with
        | Some ls => lists_exactly ls (λ u, says_parent courses Lesson u c)
        | None => ∀ u, ¬ says_parent courses Lesson u c
        end) ∧
  (∀ l, match get_exercise_ids lib l with
        | Some es => lists_exactly es (λ u, says_parent courses Exercise u l)
        | None => ∀ u, ¬ says_parent courses Exercise u l
        end) ∧
  (∀ u, lists_exactly (get_all_exercise_ids lib u) (says_exercise_of courses u)) ∧
  (∀ p t u, u ∈ get_matching_prefix lib p t ↔
     (∃ r, u = (p +:+ r)%string) ∧ ∃ t', says_type courses u t' ∧ (t = None ∨ t = Some t')).
Proof.
  intros Hc Ho. split_and!.
  - by eapply course_ids.
  - intros c. by eapply lesson_ids.
  - intros l. by eapply exercise_ids.
  - intros u. by eapply all_exercise_ids.
  - intros p t u. by eapply matching_prefix.
Qed.

Local Open Scope string_scope.
Definition sample_exercise (e l c : uid) : exercise_manifest := ExerciseManifest e l c true.
Definition sample_course_A (enc : list (uid * f32)) : open_course :=
  OpenCourse (CourseManifest "A" [] [] [] None)
    [(LessonManifest "A::1" "A" [] [] [] None,
        [sample_exercise "A::1::x" "A::1" "A"; sample_exercise "A::1::y" "A::1" "A"]);
     (LessonManifest "A::2" "A" ["A::1"] enc ["A::1"] None, [sample_exercise "A::2::x" "A::2" "A"])].
Definition sample_course_B : open_course :=
  OpenCourse (CourseManifest "B" ["A"; "missing"] [] [] None)
    [(LessonManifest "B::1" "B" ["A::2"] [] [] None, [sample_exercise "B::1::x" "B::1" "B"])].
Definition sample_courses : list open_course := [sample_course_B; sample_course_A [("A::1", f_0_5)]].
Definition sample_courses_plain : list open_course := [sample_course_A []; sample_course_B].

Lemma sample_consistent enc : Forall consistent [sample_course_A enc; sample_course_B].
Proof.
  repeat constructor; simpl in *;
    repeat match goal with H : _ ∈ _ :: _ |- _ => apply elem_of_cons in H as [H|H] | H : _ ∈ [] |- _ => by apply elem_of_nil in H end;
    simplify_eq; try done; intros em Hem;
    repeat match goal with H : _ ∈ _ :: _ |- _ => apply elem_of_cons in H as [H|H] | H : _ ∈ [] |- _ => by apply elem_of_nil in H end;
    by subst.
Qed.
Lemma sample_courses_consistent : Forall consistent sample_courses.
Proof.
  pose proof (sample_consistent [("A::1", f_0_5)]) as H. unfold sample_courses.
  rewrite !Forall_cons in *. naive_solver.
Qed.

(** Checks on the opened sample, reduced to a boolean computation. *)
Definition sample_check (P : library → bool) : bool :=
  match open_library sample_order sample_courses with Some lib => P lib | None => false end.
Lemma sample_opened (P : library → Prop) `{∀ lib, Decision (P lib)} :
  sample_check (λ lib, bool_decide (P lib)) = true →
  ∃ lib, open_library sample_order sample_courses = Some lib ∧ P lib.
Proof.
  unfold sample_check. destruct (open_library _ _) as [lib|]; [|done].
  intros ?%bool_decide_eq_true. by exists lib.
Qed.
Lemma is_Some_true {A} (o : option A) : match o with Some _ => true | None => false end = true → is_Some o.
Proof. destruct o; [eauto|done]. Qed.
Lemma None_true {A} (o : option A) : match o with Some _ => false | None => true end = true → o = None.
Proof. by destruct o. Qed.

Lemma sample_opens : order_ok sample_order ∧ Forall consistent sample_courses ∧
  (∃ lib, open_library sample_order sample_courses = Some lib ∧
     get_course_ids lib = ["A"; "B"] ∧ get_lesson_ids lib "A" = Some ["A::1"; "A::2"] ∧
     get_exercise_ids lib "A::1" = Some ["A::1::x"; "A::1::y"] ∧
     get_all_exercise_ids lib (Some "A") = ["A::1::x"; "A::1::y"; "A::2::x"]) ∧
  open_library sample_order (sample_courses ++ sample_courses) = None.
Proof.
  split; [exact sample_order_ok|]. split; [exact sample_courses_consistent|]. split.
  - eapply sample_opened. vm_compute. reflexivity.
  - apply None_true. vm_compute. reflexivity.
Qed.
Lemma sample_plain : Forall consistent sample_courses_plain ∧ no_encompassed sample_courses_plain = true ∧
  is_Some (try_fold process_course sample_courses_plain empty_library) ∧
  says_enc sample_courses_plain "B" "A" f_1 ∧ no_encompassed sample_courses = false.
Proof.
  split; [apply sample_consistent|]. split; [done|]. split; [apply is_Some_true; vm_compute; reflexivity|]. split; [|done].
  exists (course_decl (oc_manifest sample_course_B)). split_and!; [|done|].
  - unfold declared, sample_courses_plain. simpl. repeat (left || right).
  - right. split_and!; [done|left|]. intros w'. apply not_elem_of_nil.
Qed.
Lemma sample_sinks : ∃ lib, open_library sample_order sample_courses = Some lib ∧
  get_dependency_sinks (lib_graph lib) = {["A"; "missing"]}.
Proof. eapply sample_opened. vm_compute. reflexivity. Qed.
Lemma sample_starting : ∃ lib, open_library sample_order sample_courses = Some lib ∧
  get_starting_lessons (lib_graph lib) "A" = Some {["A::1"]}.
Proof. eapply sample_opened. vm_compute. reflexivity. Qed.
Lemma sample_serialized : ∃ lib, open_library sample_order sample_courses = Some lib ∧
  length (ser_exercises (serialize_library lib)) = 4.
Proof. eapply sample_opened. vm_compute. reflexivity. Qed.
