(** Model of the course library, src/course_library.rs.

    Here a library is given as the list of opened courses ([OpenCourseResult], lines
    127-134) in the order in which they are processed. Reading it from the disk is in
    Walk.v; the JSON of the manifests is in Serde.v. *)
From stdpp Require Import gmap strings list sorting.
From Verif Require Import F32 Graph.

(** src/data.rs: the fields of the manifests that affect the graph, the scheduler and
    the filters. Names, descriptions and asset paths are not modelled. *)
Definition metadata := option (gmap string (list string)).
Record exercise_manifest := ExerciseManifest {
  em_id : uid; em_lesson_id : uid; em_course_id : uid;
  (** [exercise_type]: true for procedural, false for declarative. *)
  em_procedural : bool
}.
Record lesson_manifest := LessonManifest {
  lm_id : uid; lm_course_id : uid;
  lm_dependencies : list uid; lm_encompassed : list (uid * f32); lm_superseded : list uid;
  lm_metadata : metadata
}.
Record course_manifest := CourseManifest {
  cm_id : uid;
  cm_dependencies : list uid; cm_encompassed : list (uid * f32); cm_superseded : list uid;
  cm_metadata : metadata
}.

(** src/course_library.rs:127-134 [OpenCourseResult]. *)
Record open_course := OpenCourse {
  oc_manifest : course_manifest;
  oc_lessons : list (lesson_manifest * list exercise_manifest)
}.

(** src/course_library.rs:158-173 [LocalCourseLibrary]. The user preferences are not
    modelled. *)
Record library := Library {
  lib_graph : graph;
  course_map : gmap uid course_manifest;
  lesson_map : gmap uid lesson_manifest;
  exercise_map : gmap uid exercise_manifest
}.

(** src/course_library.rs:428-434. *)
Definition empty_library : library := Library empty_graph ∅ ∅ ∅.

(** [f(..)?] for a graph operation. *)
Definition try_graph (p : graph * bool) : option graph := if p.2 then Some p.1 else None.

(** src/course_library.rs:359-379 and 383-403: the graph updates shared by courses and
    lessons once the unit itself has been added. *)
Definition add_relations (g : graph) (u : uid) (t : unit_type)
    (deps : list uid) (enc : list (uid * f32)) (sup : list uid) : option graph :=
  g ← try_graph (add_dependencies g u t deps);
  g ← try_graph (add_encompassed g u deps enc);
  Some (add_superseded g u sup).

(** src/course_library.rs:406-410. *)
Definition process_exercise (lib : library) (em : exercise_manifest) : option library :=
  g ← try_graph (add_exercise (lib_graph lib) (em_id em) (em_lesson_id em));
  Some (Library g (course_map lib) (lesson_map lib) (<[em_id em := em]> (exercise_map lib))).

(** A fold that stops at the first error ([?] inside a [for] loop). *)
Fixpoint try_fold {A B} (f : A → B → option A) (l : list B) (a : A) : option A :=
  match l with
  | [] => Some a
  | b :: l => a ← f a b; try_fold f l a
  end.

(** src/course_library.rs:382-411. *)
Definition process_lesson (lib : library) (le : lesson_manifest * list exercise_manifest) : option library :=
  let (lm, exercises) := le in
  g ← try_graph (add_lesson (lib_graph lib) (lm_id lm) (lm_course_id lm));
  g ← add_relations g (lm_id lm) Lesson (lm_dependencies lm) (lm_encompassed lm) (lm_superseded lm);
  try_fold process_exercise exercises
    (Library g (course_map lib) (<[lm_id lm := lm]> (lesson_map lib)) (exercise_map lib)).

(** src/course_library.rs:358-412. *)
Definition process_course (lib : library) (oc : open_course) : option library :=
  let cm := oc_manifest oc in
  g ← try_graph (add_course (lib_graph lib) (cm_id cm));
  g ← add_relations g (cm_id cm) Course (cm_dependencies cm) (cm_encompassed cm) (cm_superseded cm);
  try_fold process_lesson (oc_lessons oc)
    (Library g (<[cm_id cm := cm]> (course_map lib)) (lesson_map lib) (exercise_map lib)).

(** src/course_library.rs:354, 375-377, 399-401: no manifest lists encompassed units. *)
Definition no_encompassed (courses : list open_course) : bool :=
  forallb (λ oc,
    match cm_encompassed (oc_manifest oc) with [] => true | _ => false end &&
    forallb (λ le, match lm_encompassed le.1 with [] => true | _ => false end) (oc_lessons oc)) courses.

Definition set_graph (lib : library) (g : graph) : library :=
  Library g (course_map lib) (lesson_map lib) (exercise_map lib).

(** src/course_library.rs:351-424. [None] is an error; the library is then dropped by
    the caller (lines 494-495). *)
Definition process_results (o : order) (lib : library) (courses : list open_course) : option library :=
  lib ← try_fold process_course courses lib;
  let g := update_starting_lessons (lib_graph lib) in
  let g := if no_encompassed courses then set_encompasing_equals_dependency g else g in
  if check_cycles o g then Some (set_graph lib g) else None.

(** src/course_library.rs:427-496, from the opened courses on. *)
Definition open_library (o : order) (courses : list open_course) : option library :=
  process_results o empty_library courses.

(** The order on identifiers ([Ustr] compares as [str], byte by byte). *)
Definition uid_le (a b : uid) : Prop := String.leb a b = true.
#[global] Typeclasses Opaque uid_le.
Global Instance uid_le_dec : RelDecision uid_le.
Proof. intros a b. unfold uid_le. apply _. Defined.
Definition sort_ids (l : list uid) : list uid := merge_sort uid_le l.

(** src/course_library.rs:538-542. *)
Definition get_course_ids (lib : library) : list uid := sort_ids (elements (dom (course_map lib))).
(** src/course_library.rs:544-554. *)
Definition get_lesson_ids (lib : library) (c : uid) : option (list uid) :=
  (λ s, sort_ids (elements s)) <$> get_course_lessons (lib_graph lib) c.
(** src/course_library.rs:556-566. *)
Definition get_exercise_ids (lib : library) (l : uid) : option (list uid) :=
  (λ s, sort_ids (elements s)) <$> get_lesson_exercises (lib_graph lib) l.
(** src/course_library.rs:568-606. *)
Definition get_all_exercise_ids (lib : library) (u : option uid) : list uid :=
  let g := lib_graph lib in
  sort_ids
    match u with
    | Some u =>
        match get_unit_type g u with
        | Some Course =>
            mjoin ((λ l, elements (default ∅ (get_lesson_exercises g l))) <$>
              elements (default ∅ (get_course_lessons g u)))
        | Some Lesson => elements (default ∅ (get_lesson_exercises g u))
        | Some Exercise => [u]
        | None => []
        end
    | None => elements (dom (exercise_map lib))
    end.
(** [str::starts_with]. *)
Definition starts_with (p s : string) : bool := String.prefix p s.
(** src/course_library.rs:608-652. *)
Definition get_matching_prefix (lib : library) (p : string) (t : option unit_type) : gset uid :=
  let keep (s : gset uid) : gset uid := filter (λ u, starts_with p u = true) s in
  match t with
  | Some Course => keep (dom (course_map lib))
  | Some Lesson => keep (dom (lesson_map lib))
  | Some Exercise => keep (dom (exercise_map lib))
  | None => keep (dom (course_map lib) ∪ dom (lesson_map lib) ∪ dom (exercise_map lib))
  end.

(** src/course_library.rs:76-113 and 499-522: conversion to and from the serializable
    form. The maps are copied entry by entry; the binary encoding itself (postcard) is
    not modelled. *)
Record serialized_library := SerializedLibrary {
  ser_graph : graph;
  ser_courses : list (uid * course_manifest);
  ser_lessons : list (uid * lesson_manifest);
  ser_exercises : list (uid * exercise_manifest)
}.
Definition serialize_library (lib : library) : serialized_library :=
  SerializedLibrary (lib_graph lib) (map_to_list (course_map lib)) (map_to_list (lesson_map lib))
    (map_to_list (exercise_map lib)).
Definition deserialize_library (s : serialized_library) : library :=
  Library (ser_graph s) (list_to_map (ser_courses s)) (list_to_map (ser_lessons s))
    (list_to_map (ser_exercises s)).
