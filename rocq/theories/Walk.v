(** How a library is read from the disk: src/course_library.rs and the opening in src/lib.rs.
    Definitions only.

    Links and unreadable directories are not modelled, nor are the databases and the saved items,
    which are opened after the library. *)
From stdpp Require Import gmap strings list.
From Verif Require Import Graph Library Options Generators FileSystem.
Local Open Scope string_scope.
Local Open Scope list_scope.

(** A path as it is given: absolute, or relative to the directory of the process. Its names are
    neither . nor .. *)
Record given := Given { is_absolute : bool; names : path }.
(** The place of a path, for a process in [cwd]. *)
Definition locate (cwd : path) (g : given) : path := if is_absolute g then names g else cwd ++ names g.
(** [Path::join] and [PathBuf::push]: an absolute path replaces the other one. *)
Definition join_given (a b : given) : given := if is_absolute b then b else Given (is_absolute a) (names a ++ names b).
(** [Path::starts_with], name by name. *)
Definition starts_with_given (a b : given) : bool :=
  Bool.eqb (is_absolute a) (is_absolute b) && bool_decide (names b `prefix_of` names a).

(** What the JSON of a manifest says, as far as it is modelled. The configuration of a generator is kept as it is. *)
Record course_file := CourseFile {
  cf_manifest : course_manifest; cf_instructions : option basic_asset; cf_material : option basic_asset; cf_generator : option string }.
Record lesson_file := LessonFile {
  lf_manifest : lesson_manifest; lf_instructions : option basic_asset; lf_material : option basic_asset }.
Record exercise_file := ExerciseFile { ef_manifest : exercise_manifest; ef_asset : exercise_asset }.
(** serde_json on the three manifests (src/course_library.rs:177-182), and the generators
    ([generate_manifests], src/data/course_generator.rs): lessons and new metadata, if any. *)
Record readers := Readers {
  read_course_text : string → option course_file;
  read_lesson_text : string → option lesson_file;
  read_exercise_text : string → option exercise_file;
  generate : files → path → course_manifest → string → option (list (lesson_manifest * list exercise_manifest) * metadata) }.

(** src/data.rs:184-197 [normalize_path]: [true] is [Ok]. An absolute path is kept without looking;
    [canonicalize] needs the file. *)
Definition normal_path (f : files) (dir : path) (r : reference) : bool :=
  match r with Absolute _ => true | Relative p => path_exists f (dir ++ p) end.
Definition normal_some (f : files) (dir : path) (o : option reference) : bool :=
  match o with Some r => normal_path f dir r | None => true end.
(** src/data.rs:244-256, 434-449, 547-558, 664-707, 782-788 [normalize_paths]. *)
Definition normal_basic (f : files) (dir : path) (a : basic_asset) : bool :=
  match a with Inlined => true | Markdown r => normal_path f dir r end.
Definition normal_unit (f : files) (dir : path) (instructions material : option basic_asset) : bool :=
  match instructions with Some a => normal_basic f dir a | None => true end &&
  match material with Some a => normal_basic f dir a | None => true end.
Definition normal_exercise (f : files) (dir : path) (a : exercise_asset) : bool :=
  match a with
  | BasicExercise a => normal_basic f dir a
  | Flashcard front back => normal_path f dir front && normal_some f dir back
  | SoundSlice backup => normal_some f dir backup
  | InlineFlashcard | OtherExercise => true
  end.

Section walk.
  (** [walk f root] lists what is below [root], in some order (WalkDir). *)
  Context (rd : readers) (walk : files → path → list path).

  (** Lines 251-264, 317-332 and 453-467: the entries at a suitable depth that are not directories
      and have the given name. *)
  Definition found (f : files) (root : path) (deep : nat → bool) (name : string) : list path :=
    filter (λ p, deep (length p - length root) = true ∧ is_dir f p = false ∧ last p = Some name) (walk f root).

  (** Lines 197-215. *)
  Definition exercise_ids_ok (lm : lesson_manifest) (em : exercise_manifest) : bool :=
    negb (bool_decide (em_id em = "")) && bool_decide (em_lesson_id em = lm_id lm) && bool_decide (em_course_id em = lm_course_id lm).
  (** Lines 220-233. *)
  Definition lesson_ids_ok (cm : course_manifest) (lm : lesson_manifest) : bool :=
    negb (bool_decide (lm_id lm = "")) && bool_decide (lm_course_id lm = cm_id cm).

  (** Lines 266-271. *)
  Definition read_exercise (f : files) (lm : lesson_manifest) (p : path) : option exercise_manifest :=
    s ← read_file f p;
    e ← read_exercise_text rd s;
    if normal_exercise f (parent p) (ef_asset e) && exercise_ids_ok lm (ef_manifest e) then Some (ef_manifest e) else None.
  (** Lines 238-275 and 334-341. *)
  Definition read_lesson (f : files) (cm : course_manifest) (p : path) : option (lesson_manifest * list exercise_manifest) :=
    s ← read_file f p;
    l ← read_lesson_text rd s;
    if normal_unit f (parent p) (lf_instructions l) (lf_material l) && lesson_ids_ok cm (lf_manifest l) then
      es ← try_map (read_exercise f (lf_manifest l)) (found f (parent p) (Nat.eqb 2) "exercise_manifest.json");
      Some (lf_manifest l, es)
    else None.
  (** Lines 295-311: the generated lessons, and the manifest with the new metadata. *)
  Definition with_metadata (cm : course_manifest) (m : metadata) : course_manifest :=
    match m with
    | Some _ => CourseManifest (cm_id cm) (cm_dependencies cm) (cm_encompassed cm) (cm_superseded cm) m
    | None => cm
    end.
  Definition generated (f : files) (dir : path) (c : course_file) : option (course_manifest * list (lesson_manifest * list exercise_manifest)) :=
    match cf_generator c with
    | None => Some (cf_manifest c, [])
    | Some config =>
        g ← generate rd f dir (cf_manifest c) config;
        Some (with_metadata (cf_manifest c) g.2, g.1)
    end.
  (** Lines 279-348 and 477-484. *)
  Definition read_course (f : files) (p : path) : option open_course :=
    s ← read_file f p;
    c ← read_course_text rd s;
    if normal_unit f (parent p) (cf_instructions c) (cf_material c) && negb (bool_decide (cm_id (cf_manifest c) = "")) then
      g ← generated f (parent p) c;
      ls ← try_map (read_lesson f g.1) (found f (parent p) (Nat.eqb 2) "lesson_manifest.json");
      Some (OpenCourse g.1 (g.2 ++ ls))
    else None.

  (** Lines 436-447: what is to be ignored, as absolute paths. *)
  Definition ignored_paths (cwd : path) (root : given) (ignored : list given) : list given :=
    join_given (Given true (locate cwd root)) <$> ignored.
  (** Lines 469-475. The path of an entry starts with the root as it was given. *)
  Definition is_ignored (cwd : path) (root : given) (ignored : list given) (p : path) : bool :=
    existsb (starts_with_given (join_given root (Given false (drop (length (locate cwd root)) p)))) (ignored_paths cwd root ignored).
  (** Lines 449-494: the courses, in the order in which they are found. *)
  Definition course_paths (cwd : path) (f : files) (root : given) (ignored : list given) : list path :=
    filter (λ p, is_ignored cwd root ignored p = false) (found f (locate cwd root) (Nat.leb 2) "course_manifest.json").
  Definition scan_courses (cwd : path) (f : files) (root : given) (ignored : list given) : option (list open_course) :=
    try_map (read_course f) (course_paths cwd f root ignored).
  (** Lines 427-496. *)
  Definition open_from_disk (o : order) (cwd : path) (f : files) (root : given) (ignored : list given) : option library :=
    cs ← scan_courses cwd f root ignored;
    open_library o cs.

  (** src/data.rs:1071-1105, the preferences that matter when a library is opened. *)
  Record preferences := Preferences { pf_batch_size : option nat; pf_ignored : list given }.
  (** src/lib.rs:239-302 [new_local_helper] and [new_local]. *)
  Definition open_trane (o : order) (decode : string → option preferences) (text : string) (cwd : path) (working root : given) : io (library * scheduler_options) :=
    x <-- open_config decode (locate cwd root) text ;;;
    lib <-- look (λ f, open_from_disk o cwd f (join_given working root) (pf_ignored x)) ;;;
    match lib with
    | None => fail
    | Some lib =>
        let options := create_scheduler_options (pf_batch_size x) in
        if verify_options options then give (lib, options) else fail
    end.
End walk.
