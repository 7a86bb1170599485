(** Vocabulary for the statements about reading a library from the disk. Definitions only. *)
From stdpp Require Import gmap strings list.
From Verif Require Import Graph GraphSpec Library LibrarySpec Options FileSystem FileSpec Walk.
Local Open Scope string_scope.
Local Open Scope list_scope.

(** A directory walk lists everything below its root once. *)
Definition walks (walk : files → path → list path) : Prop :=
  ∀ f root, NoDup (walk f root) ∧ ∀ p, p ∈ walk f root ↔ above root p ∧ f !! p ≠ None.

(** * What the disk says *)

(** Relative paths in manifests lead to something. *)
Definition there (f : files) (dir : path) (r : reference) : Prop := ∀ p, r = Relative p → f !! (dir ++ p) ≠ None.
Definition basic_there (f : files) (dir : path) (o : option basic_asset) : Prop := ∀ r, o = Some (Markdown r) → there f dir r.
Definition exercise_there (f : files) (dir : path) (a : exercise_asset) : Prop :=
  match a with
  | BasicExercise a => basic_there f dir (Some a)
  | Flashcard front back => there f dir front ∧ ∀ r, back = Some r → there f dir r
  | SoundSlice backup => ∀ r, backup = Some r → there f dir r
  | InlineFlashcard | OtherExercise => True
  end.

Section reads.
  Context (rd : readers) (f : files).
  (** The directory [dir] holds the exercise [em]. *)
  Definition exercise_reads (lm : lesson_manifest) (dir : path) (em : exercise_manifest) : Prop :=
    ∃ s asset, f !! (dir ++ ["exercise_manifest.json"]) = Some (File s) ∧ read_exercise_text rd s = Some (ExerciseFile em asset) ∧
      exercise_there f dir asset ∧ em_id em ≠ "" ∧ em_lesson_id em = lm_id lm ∧ em_course_id em = lm_course_id lm.
  (** It holds a lesson: its exercises are those of the directories in it. *)
  Definition lesson_reads (cm : course_manifest) (dir : path) (x : lesson_manifest * list exercise_manifest) : Prop :=
    ∃ s instructions material ds, f !! (dir ++ ["lesson_manifest.json"]) = Some (File s) ∧
      read_lesson_text rd s = Some (LessonFile x.1 instructions material) ∧
      basic_there f dir instructions ∧ basic_there f dir material ∧ lm_id x.1 ≠ "" ∧ lm_course_id x.1 = cm_id cm ∧
      NoDup ds ∧ (∀ d, d ∈ ds ↔ ∃ s, f !! (dir ++ [d; "exercise_manifest.json"]) = Some (File s)) ∧
      Forall2 (λ d, exercise_reads x.1 (dir ++ [d])) ds x.2.
  (** It holds a course: its lessons are those of the directories in it, after those generated. *)
  Definition course_reads (dir : path) (c : open_course) : Prop :=
    ∃ s cf cm gen ls ds, f !! (dir ++ ["course_manifest.json"]) = Some (File s) ∧ read_course_text rd s = Some cf ∧
      basic_there f dir (cf_instructions cf) ∧ basic_there f dir (cf_material cf) ∧ cm_id (cf_manifest cf) ≠ "" ∧
      match cf_generator cf with
      | None => cm = cf_manifest cf ∧ gen = []
      | Some config => ∃ m, generate rd f dir (cf_manifest cf) config = Some (gen, m) ∧ cm = with_metadata (cf_manifest cf) m
      end ∧
      NoDup ds ∧ (∀ d, d ∈ ds ↔ ∃ s, f !! (dir ++ [d; "lesson_manifest.json"]) = Some (File s)) ∧
      Forall2 (λ d, lesson_reads cm (dir ++ [d])) ds ls ∧ c = OpenCourse cm (gen ++ ls).
  (** The courses of a library are those of the directories below its root, at any depth, except
      for the manifests to be skipped. *)
  Definition course_dir (root : path) (skip : path → Prop) (dir : path) : Prop :=
    above root dir ∧ (∃ s, f !! (dir ++ ["course_manifest.json"]) = Some (File s)) ∧ ¬ skip (dir ++ ["course_manifest.json"]).
  Definition library_reads (root : path) (skip : path → Prop) (cs : list open_course) : Prop :=
    ∃ dirs, NoDup dirs ∧ (∀ d, d ∈ dirs ↔ course_dir root skip d) ∧ Forall2 course_reads dirs cs.
End reads.
(** Nothing is skipped, or everything in some paths, which are relative to the root or absolute. *)
Definition nothing (p : path) : Prop := False.
Definition below_any (root : path) (ignored : list given) (p : path) : Prop := ∃ i, i ∈ ignored ∧ locate root i `prefix_of` p.

(** The lessons of a generated course name the course, and their exercises the lesson. *)
Definition generates_consistently (rd : readers) : Prop :=
  ∀ f dir cm config ls m, generate rd f dir cm config = Some (ls, m) → consistent (OpenCourse cm ls).
(** A generator looks only at the directory of the course. *)
Definition generates_locally (rd : readers) : Prop :=
  ∀ f f' dir cm config, (∀ p, dir `prefix_of` p → f !! p = f' !! p) → generate rd f dir cm config = generate rd f' dir cm config.

(** * What a builder says *)

Definition exercise_given (rd : readers) (lm : lesson_manifest) (b : exercise_builder) (em : exercise_manifest) : Prop :=
  read_exercise_text rd (et_json (eb_manifest b)) = Some (ExerciseFile em (et_asset (eb_manifest b))) ∧
  em_id em ≠ "" ∧ em_lesson_id em = lm_id lm ∧ em_course_id em = lm_course_id lm.
Definition lesson_given (rd : readers) (cm : course_manifest) (b : lesson_builder) (x : lesson_manifest * list exercise_manifest) : Prop :=
  read_lesson_text rd (ut_json (lb_manifest b)) = Some (LessonFile x.1 (ut_instructions (lb_manifest b)) (ut_material (lb_manifest b))) ∧
  lm_id x.1 ≠ "" ∧ lm_course_id x.1 = cm_id cm ∧ Forall2 (exercise_given rd x.1) (lb_exercises b) x.2.
(** The builder describes the course [c], without a generator. *)
Definition course_given (rd : readers) (b : course_builder) (c : open_course) : Prop :=
  read_course_text rd (ut_json (cb_manifest b)) = Some (CourseFile (oc_manifest c) (ut_instructions (cb_manifest b)) (ut_material (cb_manifest b)) None) ∧
  cm_id (oc_manifest c) ≠ "" ∧ Forall2 (lesson_given rd (oc_manifest c)) (cb_lessons b) (oc_lessons c).
(** No asset has the name of a manifest. *)
Definition reserved (name : string) : Prop := name = "course_manifest.json" ∨ name = "lesson_manifest.json" ∨ name = "exercise_manifest.json".
Definition assets_plain (l : list asset_builder) : Prop := ∀ a n, a ∈ l → last (ab_name a) = Some n → ¬ reserved n.
Definition course_plain (b : course_builder) : Prop :=
  assets_plain (cb_assets b) ∧
  ∀ l, l ∈ cb_lessons b → assets_plain (lb_assets l) ∧ ∀ e, e ∈ lb_exercises l → assets_plain (eb_assets e).
(** The relative paths in its manifests lead to something. *)
Definition unit_there (f : files) (dir : path) (u : unit_text) : Prop := basic_there f dir (ut_instructions u) ∧ basic_there f dir (ut_material u).
Definition course_there (f : files) (parent : path) (b : course_builder) : Prop :=
  let dir := parent ++ [cb_dir b] in
  unit_there f dir (cb_manifest b) ∧
  ∀ l, l ∈ cb_lessons b → unit_there f (dir ++ [lb_dir l]) (lb_manifest l) ∧
    ∀ e, e ∈ lb_exercises l → exercise_there f ((dir ++ [lb_dir l]) ++ [eb_dir e]) (et_asset (eb_manifest e)).
(** No course is in the directory [dir] or above it. *)
Definition outside_courses (f : files) (dir : path) : Prop := ∀ d s, d `prefix_of` dir → f !! (d ++ ["course_manifest.json"]) ≠ Some (File s).

(** * Two libraries that no question can tell apart *)
Definition agree (lib lib' : library) : Prop :=
  let g := lib_graph lib in let g' := lib_graph lib' in
  course_map lib = course_map lib' ∧ lesson_map lib = lesson_map lib' ∧ exercise_map lib = exercise_map lib' ∧
  (∀ u, get_unit_type g u = get_unit_type g' u) ∧
  (∀ u, get_lesson_course g u = get_lesson_course g' u) ∧
  (∀ u, get_exercise_lesson g u = get_exercise_lesson g' u) ∧
  (∀ u, get_course_lessons g u = get_course_lessons g' u) ∧
  (∀ u, get_lesson_exercises g u = get_lesson_exercises g' u) ∧
  (∀ u x, depends_on g u x ↔ depends_on g' u x) ∧ (∀ u x, dependent_of g u x ↔ dependent_of g' u x) ∧
  (∀ u x, supersedes g u x ↔ supersedes g' u x) ∧ (∀ u x, is_superseded_by g u x ↔ is_superseded_by g' u x) ∧
  (∀ u x w, encompasses g u x w ↔ encompasses g' u x w) ∧
  (∀ u x w, is_encompassed_by g u x w ↔ is_encompassed_by g' u x w) ∧
  (∀ c l, answers (get_starting_lessons g c) l ↔ answers (get_starting_lessons g' c) l) ∧
  get_dependency_sinks g = get_dependency_sinks g'.

(** * Copies *)

(** A directory is listed before what is in it. *)
Definition parents_first (walk : files → path → list path) : Prop :=
  ∀ f root l1 p l2 q, walk f root = l1 ++ p :: l2 → above root q → above q p → f !! q ≠ None → q ∈ l1.
(** The directory [dst] of [f'] has what [src] of [f] has. *)
Definition same_tree (f : files) (src : path) (f' : files) (dst : path) : Prop := ∀ r, f' !! (dst ++ r) = f !! (src ++ r).
(** A generator looks only at the directory of the course, wherever it is. *)
Definition generates_anywhere (rd : readers) : Prop :=
  ∀ f f' dir dir' cm config, same_tree f dir f' dir' → generate rd f' dir' cm config = generate rd f dir cm config.
Definition all_relative (ignored : list given) : Prop := ∀ i, i ∈ ignored → is_absolute i = false.
