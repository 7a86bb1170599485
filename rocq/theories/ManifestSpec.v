(** Vocabulary for the statements about courses that are written and read again. Definitions only. *)
From stdpp Require Import gmap strings list.
From Verif Require Import F32 Graph Library FileSystem FileSpec Walk WalkSpec Json Serde SerdeSpec Manifests.
Local Open Scope string_scope.
Local Open Scope list_scope.

(** The course that a plan describes. *)
Definition planned_exercise (e : exercise_plan) : exercise_manifest :=
  let d := xp_data e in ExerciseManifest (ed_id d) (ed_lesson_id d) (ed_course_id d) (ed_procedural d).
Definition planned_lesson (l : lesson_plan) : lesson_manifest * list exercise_manifest :=
  let d := lp_data l in
  (LessonManifest (ld_id d) (ld_course_id d) (ld_dependencies d) (ld_encompassed d) (ld_superseded d) (ld_metadata d), planned_exercise <$> lp_exercises l).
Definition planned (c : course_plan) : open_course :=
  let d := cp_data c in
  OpenCourse (CourseManifest (cd_id d) (cd_dependencies d) (cd_encompassed d) (cd_superseded d) (cd_metadata d)) (planned_lesson <$> cp_lessons c).

(** A relative path leads to one of the assets of the same directory. *)
Definition among (assets : list asset_builder) (t : string) : Prop := is_rooted t = true ∨ path_of t ∈ ab_name <$> assets.
Definition basic_among (assets : list asset_builder) (a : asset_data) : Prop := match a with MarkdownAsset t => among assets t | _ => True end.
Definition some_among (assets : list asset_builder) (o : option asset_data) : Prop := ∀ a, o = Some a → basic_among assets a.
Definition asset_among (assets : list asset_builder) (a : exercise_asset_data) : Prop :=
  match a with
  | EBasic a => basic_among assets a
  | EFlashcard front back => among assets front ∧ ∀ t, back = Some t → among assets t
  | ESoundSlice _ _ backup => ∀ t, backup = Some t → among assets t
  | _ => True
  end.

(** Identifiers are given and name the right units, the weights are numbers, and nothing is
    generated. *)
Definition exercise_sound (l : lesson_data) (e : exercise_plan) : Prop :=
  let d := xp_data e in ed_id d ≠ "" ∧ ed_lesson_id d = ld_id l ∧ ed_course_id d = ld_course_id l.
Definition lesson_sound (c : course_data) (l : lesson_plan) : Prop :=
  let d := lp_data l in ld_id d ≠ "" ∧ ld_course_id d = cd_id c ∧ finite_weights (ld_encompassed d) ∧ Forall (exercise_sound d) (lp_exercises l).
Definition course_sound (c : course_plan) : Prop :=
  let d := cp_data c in cd_id d ≠ "" ∧ cd_generator d = None ∧ finite_weights (cd_encompassed d) ∧ Forall (lesson_sound d) (cp_lessons c).
(** The files are there. *)
Definition exercise_whole (e : exercise_plan) : Prop := asset_among (xp_assets e) (ed_asset (xp_data e)).
Definition lesson_whole (l : lesson_plan) : Prop :=
  some_among (lp_assets l) (ld_instructions (lp_data l)) ∧ some_among (lp_assets l) (ld_material (lp_data l)) ∧ Forall exercise_whole (lp_exercises l).
Definition course_whole (c : course_plan) : Prop :=
  some_among (cp_assets c) (cd_instructions (cp_data c)) ∧ some_among (cp_assets c) (cd_material (cp_data c)) ∧ Forall lesson_whole (cp_lessons c).
Definition course_fine (c : course_plan) : Prop := course_sound c ∧ course_whole c.
(** The text [t] is a path in a manifest that is in the directory [dir]. *)
Definition asset_mentions (a : exercise_asset_data) (t : string) : Prop :=
  a = EBasic (MarkdownAsset t) ∨ (∃ back, a = EFlashcard t back) ∨ (∃ front, a = EFlashcard front (Some t)) ∨ ∃ link text, a = ESoundSlice link text (Some t).
Definition mentions (parent : path) (c : course_plan) (dir : path) (t : string) : Prop :=
  let m := Some (MarkdownAsset t) in
  (dir = parent ++ [cp_dir c] ∧ (cd_instructions (cp_data c) = m ∨ cd_material (cp_data c) = m)) ∨
  ∃ l, l ∈ cp_lessons c ∧
    ((dir = parent ++ [cp_dir c; lp_dir l] ∧ (ld_instructions (lp_data l) = m ∨ ld_material (lp_data l) = m)) ∨
     ∃ e, e ∈ lp_exercises l ∧ dir = parent ++ [cp_dir c; lp_dir l; xp_dir e] ∧ asset_mentions (ed_asset (xp_data e)) t).
(** No two files of the course are in each other's way, every asset has a name, and none is named
    like a manifest. *)
Definition files_fine (root : path) (b : course_builder) : Prop := names_given b ∧ course_plain b ∧ apart (course_files root b).
