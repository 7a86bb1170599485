(** The manifests that a course builder writes and that opening a library reads again:
    src/course_builder.rs, src/course_library.rs and src/data.rs, over the JSON of Serde.v.
    Definitions only. *)
From stdpp Require Import gmap strings list.
From Coq Require Import Ascii.
From Verif Require Import F32 Graph Library FileSystem Walk Json Serde.
Local Open Scope string_scope.
Local Open Scope list_scope.

(** [Path::new] and the components of a path (src/data.rs:185-196). Names that are .. are not
    resolved. *)
Fixpoint pieces (name t : string) : list string :=
  match t with
  | "" => [name]
  | String c t => if Ascii.eqb c "/" then name :: pieces "" t else pieces (name +:+ String c "") t
  end.
Definition path_of (t : string) : path := filter (λ n, n ≠ "" ∧ n ≠ ".") (pieces "" t).
Definition is_rooted (t : string) : bool := match t with String c _ => Ascii.eqb c "/" | "" => false end.
Definition reference_of (t : string) : reference := if is_rooted t then Absolute (path_of t) else Relative (path_of t).

(** src/data.rs:222-242 and 588-662: the files that the assets name. *)
Definition basic_of (a : asset_data) : basic_asset := match a with MarkdownAsset p => Markdown (reference_of p) | _ => Inlined end.
Definition asset_of (a : exercise_asset_data) : exercise_asset :=
  match a with
  | EBasic a => BasicExercise (basic_of a)
  | EFlashcard front back => Flashcard (reference_of front) (reference_of <$> back)
  | EInlineFlashcard _ _ => InlineFlashcard
  | ESoundSlice _ _ backup => FileSystem.SoundSlice (reference_of <$> backup)
  | ELiteracy _ _ _ | ETranscription _ _ => OtherExercise
  end.
(** src/data.rs:352-432, 479-545 and 745-780: what of the manifests the library works with. *)
Definition exercise_of (e : exercise_data) : exercise_manifest := ExerciseManifest (ed_id e) (ed_lesson_id e) (ed_course_id e) (ed_procedural e).
Definition lesson_of (l : lesson_data) : lesson_manifest :=
  LessonManifest (ld_id l) (ld_course_id l) (ld_dependencies l) (ld_encompassed l) (ld_superseded l) (ld_metadata l).
Definition manifest_of (c : course_data) : course_manifest :=
  CourseManifest (cd_id c) (cd_dependencies c) (cd_encompassed c) (cd_superseded c) (cd_metadata c).

(** src/course_builder.rs:64-75, 106-125 and 163-179: the builders with the manifests that their
    closures return. *)
Record exercise_plan := ExercisePlan { xp_dir : string; xp_data : exercise_data; xp_assets : list asset_builder }.
Record lesson_plan := LessonPlan { lp_dir : string; lp_data : lesson_data; lp_exercises : list exercise_plan; lp_assets : list asset_builder }.
Record course_plan := CoursePlan { cp_dir : string; cp_data : course_data; cp_lessons : list lesson_plan; cp_assets : list asset_builder }.

Section texts.
  (** As in Serde.v, and any generator. *)
  Context (show : f32 → list ascii) (read : list ascii → option f32).
  Context (gen : files → path → course_manifest → string → option (list (lesson_manifest * list exercise_manifest) * metadata)).

  (** The text of a manifest: [to_string_pretty] and a line end (lines 86, 136 and 187). *)
  Definition line_end : string := String "010" "".
  Definition exercise_builder_of (e : exercise_plan) : exercise_builder :=
    ExerciseBuilder (xp_dir e) (ExerciseText (save exercise_codec true (xp_data e) +:+ line_end) (asset_of (ed_asset (xp_data e)))) (xp_assets e).
  Definition lesson_builder_of (l : lesson_plan) : lesson_builder :=
    LessonBuilder (lp_dir l)
      (UnitText (save (lesson_codec show read) true (lp_data l) +:+ line_end) (basic_of <$> ld_instructions (lp_data l)) (basic_of <$> ld_material (lp_data l)))
      (exercise_builder_of <$> lp_exercises l) (lp_assets l).
  Definition course_builder_of (c : course_plan) : course_builder :=
    CourseBuilder (cp_dir c)
      (UnitText (save (course_codec show read) true (cp_data c) +:+ line_end) (basic_of <$> cd_instructions (cp_data c)) (basic_of <$> cd_material (cp_data c)))
      (lesson_builder_of <$> cp_lessons c) (cp_assets c).

  (** src/course_library.rs:177-182 [open_manifest], for the three manifests. The configuration of
      a generator goes to the generator as JSON. *)
  Definition json_readers : readers := Readers
    (λ t, c ← load (course_codec show read) t;
          Some (CourseFile (manifest_of c) (basic_of <$> cd_instructions c) (basic_of <$> cd_material c) (save generator_codec false <$> cd_generator c)))
    (λ t, l ← load (lesson_codec show read) t; Some (LessonFile (lesson_of l) (basic_of <$> ld_instructions l) (basic_of <$> ld_material l)))
    (λ t, e ← load exercise_codec t; Some (ExerciseFile (exercise_of e) (asset_of (ed_asset e))))
    gen.
End texts.
