(** Properties of opened libraries: C05, C08, C09, C46, C47. The vocabulary ([says_type],
    [says_dep], ... : what the manifests say) is in LibrarySpec.v. *)
From stdpp Require Import gmap strings list relations sorting.
From Verif Require Import F32 Graph GraphSpec GraphMore Library LibrarySpec LoadProofs LibraryQueries LibrarySample Compute.
Local Open Scope string_scope.

(** C46: opening succeeds exactly when no identifier is used twice, all weights are between
    0 and 1, and the relations have no cycle. *)
Theorem C46_opens_iff : ∀ o courses, order_ok o → Forall consistent courses →
  is_Some (open_library o courses) ↔ distinct_ids courses ∧ valid_weights courses ∧ no_cycles courses.
Proof. exact open_library_iff. Qed.
Print Assumptions C46_opens_iff.

(** C46: the graph of an opened library says what the manifests say. *)
Theorem C46_graph_agrees : ∀ o courses lib, Forall consistent courses →
  open_library o courses = Some lib → let g := lib_graph lib in
  (∀ u t, get_unit_type g u = Some t ↔ says_type courses u t) ∧
  (∀ l c, get_lesson_course g l = Some c ↔ says_parent courses Lesson l c) ∧
  (∀ l c, answers (get_course_lessons g c) l ↔ says_parent courses Lesson l c) ∧
  (∀ e l, get_exercise_lesson g e = Some l ↔ says_parent courses Exercise e l) ∧
  (∀ e l, answers (get_lesson_exercises g l) e ↔ says_parent courses Exercise e l) ∧
  (∀ u x, depends_on g u x ↔ says_dep courses u x) ∧
  (∀ u x, dependent_of g x u ↔ says_dep courses u x) ∧
  (∀ u x, supersedes g u x ↔ says_sup courses u x) ∧
  (∀ u x, is_superseded_by g x u ↔ says_sup courses u x) ∧
  (∀ u x w, encompasses g u x w ↔ says_enc courses u x w) ∧
  (∀ u x w, is_encompassed_by g x u w ↔ says_enc courses u x w).
Proof. exact graph_agrees. Qed.
Print Assumptions C46_graph_agrees.

(** C46: manifests can be looked up, and the listings are exact. *)
Theorem C46_manifests_found : ∀ o courses lib, Forall consistent courses →
  open_library o courses = Some lib →
  (∀ u cm, course_map lib !! u = Some cm ↔ cm ∈ oc_manifest <$> courses ∧ cm_id cm = u) ∧
  (∀ u lm, lesson_map lib !! u = Some lm ↔ lm ∈ all_lessons courses ∧ lm_id lm = u) ∧
  (∀ u em, exercise_map lib !! u = Some em ↔ em ∈ all_exercises courses ∧ em_id em = u).
Proof. exact manifests_lookup. Qed.
Print Assumptions C46_manifests_found.

Theorem C46_listings : ∀ o courses lib, Forall consistent courses →
  open_library o courses = Some lib →
  lists_exactly (get_course_ids lib) (λ u, says_type courses u Course) ∧
  (∀ c, match get_lesson_ids lib c with
        | Some ls => lists_exactly ls (λ u, says_parent courses Lesson u c)
        | None => ∀ u, ¬ says_parent courses Lesson u c
        end) ∧
  (∀ l, match get_exercise_ids lib l with
        | Some es => lists_exactly es (λ u, says_parent courses Exercise u l)
        | None => ∀ u, ¬ says_parent courses Exercise u l
        end) ∧
  (∀ u, lists_exactly (get_all_exercise_ids lib u) (says_exercise_of courses u)) ∧
  (∀ p t u, u ∈ get_matching_prefix lib p t ↔
     (∃ r, u = p +:+ r) ∧ ∃ t', says_type courses u t' ∧ (t = None ∨ t = Some t')).
Proof. exact listings. Qed.
Print Assumptions C46_listings.

(** C46: the order of the courses, of their lessons and of their exercises, and of every hash
    iteration, does not matter. *)
Theorem C46_order_irrelevant : ∀ cs cs', same_courses cs cs' → ∀ o o', order_ok o → order_ok o' → Forall consistent cs →
  (is_Some (open_library o cs) ↔ is_Some (open_library o' cs')) ∧
  ∀ lib lib', open_library o cs = Some lib → open_library o' cs' = Some lib' →
    let g := lib_graph lib in let g' := lib_graph lib' in
    course_map lib = course_map lib' ∧ lesson_map lib = lesson_map lib' ∧ exercise_map lib = exercise_map lib' ∧
    (∀ u, get_unit_type g u = get_unit_type g' u) ∧
    (∀ u, get_lesson_course g u = get_lesson_course g' u) ∧
    (∀ u, get_exercise_lesson g u = get_exercise_lesson g' u) ∧
    (∀ u, get_course_lessons g u = get_course_lessons g' u) ∧
    (∀ u, get_lesson_exercises g u = get_lesson_exercises g' u) ∧
    (∀ u x, depends_on g u x ↔ depends_on g' u x) ∧ (∀ u x, dependent_of g u x ↔ dependent_of g' u x) ∧
    (∀ u x, supersedes g u x ↔ supersedes g' u x) ∧ (∀ u x, is_superseded_by g u x ↔ is_superseded_by g' u x) ∧
    (∀ u x w, encompasses g u x w ↔ encompasses g' u x w) ∧
    (∀ u x w, is_encompassed_by g u x w ↔ is_encompassed_by g' u x w) ∧
    (∀ c l, answers (get_starting_lessons g c) l ↔ answers (get_starting_lessons g' c) l) ∧
    get_dependency_sinks g = get_dependency_sinks g'.
Proof. exact order_irrelevant. Qed.
Print Assumptions C46_order_irrelevant.

Example C46_example : order_ok sample_order ∧ Forall consistent sample_courses ∧
  (∃ lib, open_library sample_order sample_courses = Some lib ∧
     get_course_ids lib = ["A"; "B"] ∧ get_lesson_ids lib "A" = Some ["A::1"; "A::2"] ∧
     get_exercise_ids lib "A::1" = Some ["A::1::x"; "A::1::y"] ∧
     get_all_exercise_ids lib (Some "A") = ["A::1::x"; "A::1::y"; "A::2::x"]) ∧
  open_library sample_order (sample_courses ++ sample_courses) = None.
Proof. exact sample_opens. Qed.

(** C05. *)
Theorem C05_dropping_maps_invisible : ∀ courses lib, Forall consistent courses →
  no_encompassed courses = true → try_fold process_course courses empty_library = Some lib →
  let g := lib_graph lib in let g' := set_encompasing_equals_dependency g in
  (∀ u x w, encompasses g u x w ↔ encompasses g' u x w) ∧
  (∀ u x w, is_encompassed_by g u x w ↔ is_encompassed_by g' u x w).
Proof. exact equals_invisible. Qed.
Print Assumptions C05_dropping_maps_invisible.

Example C05_example : Forall consistent sample_courses_plain ∧ no_encompassed sample_courses_plain = true ∧
  is_Some (try_fold process_course sample_courses_plain empty_library) ∧
  says_enc sample_courses_plain "B" "A" f_1 ∧ no_encompassed sample_courses = false.
Proof. exact sample_plain. Qed.

(** C08: the units from which an unfiltered search starts. *)
Theorem C08_dependency_sinks : ∀ o courses lib, Forall consistent courses →
  open_library o courses = Some lib → ∀ u,
  u ∈ get_dependency_sinks (lib_graph lib) ↔
    (** a course or lesson of the library, or a unit named as a dependency, *)
    ((∃ t, t ≠ Exercise ∧ says_type courses u t) ∨ (∃ v, says_dep courses v u)) ∧
    (** without dependencies, *)
    (∀ x, ¬ says_dep courses u x) ∧
    (** not a lesson of a course, *)
    (∀ c, ¬ says_parent courses Lesson u c) ∧
    (** and not a course with a starting lesson whose dependencies exist and are all in the
        library. *)
    ¬ (∃ l, says_starting courses u l ∧ (∃ x, says_dep courses l x) ∧
            ∀ x, says_dep courses l x → ∃ t, says_type courses x t).
Proof. exact sinks_of_library. Qed.
Print Assumptions C08_dependency_sinks.

Example C08_example : ∃ lib, open_library sample_order sample_courses = Some lib ∧
  get_dependency_sinks (lib_graph lib) = {["A"; "missing"]}.
Proof. exact sample_sinks. Qed.

(** C09 for libraries. *)
Theorem C09_starting_lessons_of_library : ∀ o courses lib, Forall consistent courses →
  open_library o courses = Some lib → ∀ c l,
  answers (get_starting_lessons (lib_graph lib) c) l ↔
    says_parent courses Lesson l c ∧ ∀ x, says_dep courses l x → ¬ says_parent courses Lesson x c.
Proof. exact starting_of_library. Qed.
Print Assumptions C09_starting_lessons_of_library.

Example C09_library_example : ∃ lib, open_library sample_order sample_courses = Some lib ∧
  get_starting_lessons (lib_graph lib) "A" = Some {["A::1"]}.
Proof. exact sample_starting. Qed.

(** C47: conversion to the serializable form and back, and for any order in which the
    entries of the maps are written. *)
Theorem C47_round_trip : ∀ lib, deserialize_library (serialize_library lib) = lib.
Proof. exact serialize_round_trip. Qed.
Print Assumptions C47_round_trip.

Theorem C47_any_order : ∀ lib cs ls es,
  cs ≡ₚ map_to_list (course_map lib) → ls ≡ₚ map_to_list (lesson_map lib) →
  es ≡ₚ map_to_list (exercise_map lib) →
  deserialize_library (SerializedLibrary (lib_graph lib) cs ls es) = lib.
Proof. exact deserialize_any_order. Qed.
Print Assumptions C47_any_order.

Example C47_example : ∃ lib, open_library sample_order sample_courses = Some lib ∧
  length (ser_exercises (serialize_library lib)) = 4.
Proof. exact sample_serialized. Qed.
