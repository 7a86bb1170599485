(** Vocabulary for the statements about libraries: what a list of manifests says,
    without reference to how the library is built. *)
From stdpp Require Import gmap strings list sorting.
From Verif Require Import F32 Graph GraphSpec Library.

(** What one manifest declares. [d_parent] is the course of a lesson and the lesson of
    an exercise; it has no meaning for a course. *)
Record decl := Decl {
  d_id : uid; d_type : unit_type; d_parent : uid;
  d_deps : list uid; d_enc : list (uid * f32); d_sup : list uid
}.

Definition exercise_decl (em : exercise_manifest) : decl :=
  Decl (em_id em) Exercise (em_lesson_id em) [] [] [].
Definition lesson_decl (lm : lesson_manifest) : decl :=
  Decl (lm_id lm) Lesson (lm_course_id lm) (lm_dependencies lm) (lm_encompassed lm) (lm_superseded lm).
Definition course_decl (cm : course_manifest) : decl :=
  Decl (cm_id cm) Course ""%string (cm_dependencies cm) (cm_encompassed cm) (cm_superseded cm).
Definition lesson_decls (le : lesson_manifest * list exercise_manifest) : list decl :=
  lesson_decl le.1 :: (exercise_decl <$> le.2).
Definition course_decls (oc : open_course) : list decl :=
  course_decl (oc_manifest oc) :: mjoin (lesson_decls <$> oc_lessons oc).
(** Everything the manifests of a library declare. *)
Definition declared (courses : list open_course) : list decl := mjoin (course_decls <$> courses).

(** The checks of src/course_library.rs:197-232: every lesson names the course it was
    found in and every exercise the lesson it was found in. *)
Definition consistent (oc : open_course) : Prop :=
  ∀ lm exs, (lm, exs) ∈ oc_lessons oc →
    lm_course_id lm = cm_id (oc_manifest oc) ∧ ∀ em, em ∈ exs → em_lesson_id em = lm_id lm.

(** Relations written down in the manifests. *)
Definition says_type (courses : list open_course) (u : uid) (t : unit_type) : Prop :=
  ∃ d, d ∈ declared courses ∧ d_id d = u ∧ d_type d = t.
Definition says_parent (courses : list open_course) (t : unit_type) (u p : uid) : Prop :=
  ∃ d, d ∈ declared courses ∧ d_id d = u ∧ d_type d = t ∧ d_parent d = p.
Definition says_dep (courses : list open_course) (u x : uid) : Prop :=
  ∃ d, d ∈ declared courses ∧ d_id d = u ∧ x ∈ d_deps d.
Definition says_sup (courses : list open_course) (u x : uid) : Prop :=
  ∃ d, d ∈ declared courses ∧ d_id d = u ∧ x ∈ d_sup d.
(** A dependency is encompassed with weight 1 unless the manifest gives a weight. *)
Definition says_enc (courses : list open_course) (u x : uid) (w : f32) : Prop :=
  ∃ d, d ∈ declared courses ∧ d_id d = u ∧
    ((x, w) ∈ d_enc d ∨ (w = f_1 ∧ x ∈ d_deps d ∧ ∀ w', (x, w') ∉ d_enc d)).

(** The three reasons for which a consistent list of manifests can be refused. *)
Definition distinct_ids (courses : list open_course) : Prop := NoDup (d_id <$> declared courses).
Definition valid_weights (courses : list open_course) : Prop :=
  ∀ d x w, d ∈ declared courses → (x, w) ∈ d_enc d → fle fzero w = true ∧ fle w f_1 = true.
Definition no_cycles (courses : list open_course) : Prop :=
  acyclic (says_dep courses) ∧ acyclic (says_sup courses) ∧
  acyclic (λ u x, ∃ w, says_enc courses u x w).

(** The starting lessons of a course according to the manifests: its lessons that do not
    depend on one of its lessons. *)
Definition says_starting (courses : list open_course) (c l : uid) : Prop :=
  says_parent courses Lesson l c ∧
  ∀ x, says_dep courses l x → ¬ says_parent courses Lesson x c.

(** Manifests found in the library. *)
Definition all_lessons (courses : list open_course) : list lesson_manifest :=
  (mjoin (oc_lessons <$> courses)).*1.
Definition all_exercises (courses : list open_course) : list exercise_manifest :=
  mjoin (mjoin (oc_lessons <$> courses)).*2.

(** A sorted listing without repetitions of the identifiers with property [P]. *)
Definition lists_exactly (l : list uid) (P : uid → Prop) : Prop :=
  Sorted uid_le l ∧ NoDup l ∧ ∀ u, u ∈ l ↔ P u.

(** The exercises of the whole library, of a course, of a lesson, or an exercise itself. *)
Definition says_exercise_of (courses : list open_course) (u : option uid) (e : uid) : Prop :=
  match u with
  | None => says_type courses e Exercise
  | Some u => (says_type courses u Exercise ∧ e = u) ∨ says_parent courses Exercise e u ∨
              ∃ l, says_parent courses Lesson l u ∧ says_parent courses Exercise e l
  end.

(** The same lists in another order: of courses, of the lessons in each, of the exercises in each. *)
Definition alike {A : Type} (R : A → A → Prop) (l l' : list A) : Prop := ∃ k, l ≡ₚ k ∧ Forall2 R k l'.
Definition same_lesson (x y : lesson_manifest * list exercise_manifest) : Prop := x.1 = y.1 ∧ x.2 ≡ₚ y.2.
Definition same_course (x y : open_course) : Prop := oc_manifest x = oc_manifest y ∧ alike same_lesson (oc_lessons x) (oc_lessons y).
Definition same_courses : list open_course → list open_course → Prop := alike same_course.
