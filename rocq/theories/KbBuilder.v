(** Model of src/course_builder/knowledge_base_builder.rs. Definitions only. *)
From stdpp Require Import gmap strings list.
From Verif Require Import F32 Graph Library Generators FileSystem.
Local Open Scope string_scope.
Local Open Scope list_scope.

(** Texts written by serde_json. *)
Record writers := Writers {
  w_name : string → string;
  w_ids : list uid → string;
  w_weights : list (uid * f32) → string;
  w_metadata : gmap string (list string) → string;
  w_type : bool → string;
  w_course : course_manifest → string }.

(** Lines 24-30, with the fields of the exercise that are written (src/data/course_generator/knowledge_base.rs:181-209). *)
Record kb_exercise_builder := KbExerciseBuilder {
  xb_id : string; xb_name : option string; xb_description : option string; xb_type : option bool; xb_assets : list asset_builder }.
(** Lines 73-82 (src/data/course_generator/knowledge_base.rs:355-397). *)
Record kb_lesson_builder := KbLessonBuilder {
  yb_id : uid; yb_name : option string; yb_description : option string; yb_dependencies : list uid; yb_superseded : list uid;
  yb_encompassed : list (uid * f32); yb_metadata : metadata; yb_type : option bool;
  yb_exercises : list kb_exercise_builder; yb_assets : list asset_builder }.
(** Lines 148-160. *)
Record kb_course_builder := KbCourseBuilder {
  zb_dir : string; zb_lessons : list kb_lesson_builder; zb_assets : list asset_builder; zb_manifest : course_manifest }.

(** A line feed. *)
Definition newline : string := String (Ascii.Ascii false true false true false false false false) "".
(** A file that is written only if there is a value. *)
Definition write_some (p : path) (o : option string) : io () :=
  match o with Some s => write_file p s | None => give () end.
Definition unless_empty {A : Type} (write : list A → string) (l : list A) : option string :=
  match l with [] => None | _ => Some (write l) end.
(** Lines 32-70. *)
Definition build_kb_exercise (w : writers) (dir : path) (b : kb_exercise_builder) : io () :=
  each (build_asset dir) (xb_assets b) >>>
  write_some (dir ++ [xb_id b +:+ ".name.json"]) (w_name w <$> xb_name b) >>>
  write_some (dir ++ [xb_id b +:+ ".description.json"]) (w_name w <$> xb_description b) >>>
  write_some (dir ++ [xb_id b +:+ ".type.json"]) (w_type w <$> xb_type b).
(** Lines 84-145. *)
Definition build_kb_lesson (w : writers) (dir : path) (b : kb_lesson_builder) : io () :=
  create_dir_all dir >>>
  each (build_asset dir) (yb_assets b) >>>
  each (build_kb_exercise w dir) (yb_exercises b) >>>
  write_some (dir ++ ["lesson.name.json"]) (w_name w <$> yb_name b) >>>
  write_some (dir ++ ["lesson.description.json"]) (w_name w <$> yb_description b) >>>
  write_some (dir ++ ["lesson.dependencies.json"]) (unless_empty (w_ids w) (yb_dependencies b)) >>>
  write_some (dir ++ ["lesson.superseded.json"]) (unless_empty (w_ids w) (yb_superseded b)) >>>
  write_some (dir ++ ["lesson.encompassed.json"]) (unless_empty (w_weights w) (yb_encompassed b)) >>>
  write_some (dir ++ ["lesson.metadata.json"]) (w_metadata w <$> yb_metadata b) >>>
  write_some (dir ++ ["lesson.default_exercise_type.json"]) (w_type w <$> yb_type b).
(** Lines 162-200. The directory of a lesson is created twice, which has no further effect. *)
Definition kb_lesson_path (root : path) (id : uid) : path := root ++ [id +:+ ".lesson"].
Definition build_kb_course (w : writers) (above : path) (b : kb_course_builder) : io () :=
  let dir := above ++ [zb_dir b] in
  require (λ f, negb (is_dir f dir)) >>>
  create_dir_all dir >>>
  each (build_asset dir) (zb_assets b) >>>
  each (λ l, build_kb_lesson w (kb_lesson_path dir (yb_id l)) l) (zb_lessons b) >>>
  write_file (dir ++ ["course_manifest.json"]) (w_course w (zb_manifest b) +:+ newline).

(** * Simple courses *)

(** Lines 207-217 and 272-299. *)
Record simple_exercise := SimpleExercise { se_id : string; se_front : list string; se_back : list string }.
Record simple_lesson := SimpleLesson {
  sl_id : uid; sl_dependencies : list uid; sl_superseded : list uid; sl_encompassed : list (uid * f32);
  sl_exercises : list simple_exercise; sl_metadata : metadata; sl_files : list asset_builder }.
(** Lines 362-373. *)
Record simple_course := SimpleCourse { sc_manifest : course_manifest; sc_encompassed : list (uid * f32); sc_lessons : list simple_lesson }.

(** [join("\n")]. *)
Definition join_lines (l : list string) : string := String.concat newline l.
(** Lines 219-263 [generate_exercise_builder]; [None] is an error. *)
Definition simple_exercise_builder (e : simple_exercise) : option kb_exercise_builder :=
  if bool_decide (se_id e = "") then None else
  Some (KbExerciseBuilder (se_id e) None None None
          (AssetBuilder [se_id e +:+ ".front.md"] (join_lines (se_front e)) ::
           match se_back e with [] => [] | back => [AssetBuilder [se_id e +:+ ".back.md"] (join_lines back)] end)).
(** Lines 302-355 [generate_lesson_builder]. The flags for instructions and material are not
    written and are left out. *)
Definition simple_lesson_builder (l : simple_lesson) : option kb_lesson_builder :=
  if bool_decide (sl_id l = "") then None else
  if negb (bool_decide (NoDup (se_id <$> sl_exercises l))) then None else
  es ← try_map simple_exercise_builder (sl_exercises l);
  Some (KbLessonBuilder (sl_id l) None None (sl_dependencies l) (sl_superseded l) (sl_encompassed l) (sl_metadata l) None es (sl_files l)).
(** Lines 376-431 [build]. Nothing is written unless all builders were generated. *)
Definition simple_manifest (c : simple_course) : course_manifest :=
  let m := sc_manifest c in
  match sc_encompassed c with [] => m | e => CourseManifest (cm_id m) (cm_dependencies m) e (cm_superseded m) (cm_metadata m) end.
Definition rebuild_lesson (w : writers) (root : path) (l : kb_lesson_builder) : io () :=
  (b <-- look (λ f, path_exists f (kb_lesson_path root (yb_id l))) ;;;
   if (b : bool) then step (remove_tree (kb_lesson_path root (yb_id l))) else give ()) >>>
  build_kb_lesson w (kb_lesson_path root (yb_id l)) l.
Definition build_simple (w : writers) (root : path) (c : simple_course) : io () :=
  if negb (bool_decide (NoDup (sl_id <$> sc_lessons c))) then fail else
  match try_map simple_lesson_builder (sc_lessons c) with
  | None => fail
  | Some ls =>
      each (rebuild_lesson w root) ls >>>
      write_file (root ++ ["course_manifest.json"]) (w_course w (simple_manifest c))
  end.
