(** Vocabulary for the statements about knowledge bases on disk. Definitions only. *)
From stdpp Require Import gmap strings list.
From Verif Require Import F32 F32Real Graph Library Generators GenSpec FileSystem FileSpec KbBuilder.
Local Open Scope string_scope.
Local Open Scope list_scope.

(** ** When a knowledge base can be opened *)

(** A file that is read has the right contents. *)
Definition kb_readable (inlined : bool) (f : kb_file) (c : content) : Prop :=
  match f with
  | KLessonDependencies | KLessonSuperseded => is_Some (as_ids c)
  | KLessonEncompassed => is_Some (as_weights c)
  | KLessonMetadata => is_Some (as_metadata c)
  | KLessonName | KLessonDescription | KExerciseName _ | KExerciseDescription _ => is_Some (as_name c)
  | KLessonDefaultExerciseType | KExerciseType _ => is_Some (as_type c)
  | KLessonInstructions | KLessonMaterial => True
  | KExerciseFront _ | KExerciseBack _ => inlined = true → is_Some (as_text c)
  end.
(** Files of exercises without a front are not read. *)
Definition kb_used (dir : list (string * content)) (f : kb_file) : Prop :=
  match kb_exercise_of f with None => True | Some e => kb_has_exercise dir e end.
Definition kb_all_readable (inlined : bool) (dir : list (string * content)) : Prop :=
  ∀ n c f, (n, c) ∈ dir → kb_kind n = Some f → kb_used dir f → kb_readable inlined f c.

(** ** Directories *)

(** What opening an entry gives; a directory cannot be read. *)
Definition unreadable : content := Content None None None None None None None None.
Definition entry (read : string → content) (x : node) : content := match x with Dir => unreadable | File s => read s end.
(** The entries of a directory, in any order. *)
Definition lists (read : string → content) (f : files) (dir : path) (d : list (string * content)) : Prop :=
  NoDup d.*1 ∧ ∀ n c, (n, c) ∈ d ↔ ∃ x, f !! (dir ++ [n]) = Some x ∧ c = entry read x.
(** The directories in a directory. *)
Definition lists_dirs (read : string → content) (f : files) (root : path) (dirs : list (string * list (string * content))) : Prop :=
  NoDup dirs.*1 ∧ (∀ n, n ∈ dirs.*1 ↔ f !! (root ++ [n]) = Some Dir) ∧ ∀ n d, (n, d) ∈ dirs → lists read f (root ++ [n]) d.
(** Reading gives back what was written, and every file is a text. *)
Definition codec_ok (w : writers) (read : string → content) : Prop :=
  (∀ x, as_name (read (w_name w x)) = Some x) ∧
  (∀ x, as_ids (read (w_ids w x)) = Some x) ∧
  (∀ x, Forall (λ y, fin y.2) x → as_weights (read (w_weights w x)) = Some x) ∧
  (∀ x, as_metadata (read (w_metadata w x)) = Some x) ∧
  (∀ x, as_type (read (w_type w x)) = Some x) ∧
  ∀ s, as_text (read s) = Some s.

(** ** What the builders write *)

Definition some_file (p : path) (o : option string) : list (path * string) := match o with Some s => [(p, s)] | None => [] end.
Definition kb_exercise_files (w : writers) (dir : path) (b : kb_exercise_builder) : list (path * string) :=
  (asset_file dir <$> xb_assets b) ++
  some_file (dir ++ [xb_id b +:+ ".name.json"]) (w_name w <$> xb_name b) ++
  some_file (dir ++ [xb_id b +:+ ".description.json"]) (w_name w <$> xb_description b) ++
  some_file (dir ++ [xb_id b +:+ ".type.json"]) (w_type w <$> xb_type b).
Definition kb_lesson_files (w : writers) (dir : path) (b : kb_lesson_builder) : list (path * string) :=
  (asset_file dir <$> yb_assets b) ++
  mjoin (kb_exercise_files w dir <$> yb_exercises b) ++
  some_file (dir ++ ["lesson.name.json"]) (w_name w <$> yb_name b) ++
  some_file (dir ++ ["lesson.description.json"]) (w_name w <$> yb_description b) ++
  some_file (dir ++ ["lesson.dependencies.json"]) (unless_empty (w_ids w) (yb_dependencies b)) ++
  some_file (dir ++ ["lesson.superseded.json"]) (unless_empty (w_ids w) (yb_superseded b)) ++
  some_file (dir ++ ["lesson.encompassed.json"]) (unless_empty (w_weights w) (yb_encompassed b)) ++
  some_file (dir ++ ["lesson.metadata.json"]) (w_metadata w <$> yb_metadata b) ++
  some_file (dir ++ ["lesson.default_exercise_type.json"]) (w_type w <$> yb_type b).

(** ** Builders whose additional files do not pass for something else *)

(** The name means nothing to a knowledge base, or is that of instructions or material. *)
Definition plain_name (n : string) : Prop :=
  kb_kind n = None ∨ kb_kind n = Some KLessonInstructions ∨ kb_kind n = Some KLessonMaterial.
Definition plain_asset (a : asset_builder) : Prop := ∃ n rest, ab_name a = n :: rest ∧ plain_name n.
(** An exercise has a front; its files are the front, the back and plain ones. *)
Definition tidy_exercise (b : kb_exercise_builder) : Prop :=
  xb_id b ≠ "" ∧ (xb_id b = "lesson" → xb_name b = None ∧ xb_description b = None) ∧
  (∃ a, a ∈ xb_assets b ∧ ab_name a = [xb_id b +:+ ".front.md"]) ∧
  ∀ a, a ∈ xb_assets b → ab_name a = [xb_id b +:+ ".front.md"] ∨ ab_name a = [xb_id b +:+ ".back.md"] ∨ plain_asset a.
Definition tidy_lesson (b : kb_lesson_builder) : Prop :=
  NoDup (xb_id <$> yb_exercises b) ∧ (∀ e, e ∈ yb_exercises b → tidy_exercise e) ∧
  (∀ a, a ∈ yb_assets b → plain_asset a) ∧ Forall (λ y, fin y.2) (yb_encompassed b).
(** No asset of the course is in a lesson directory. *)
Definition tidy_course (b : kb_course_builder) : Prop :=
  NoDup (yb_id <$> zb_lessons b) ∧ (∀ l, l ∈ zb_lessons b → tidy_lesson l) ∧
  ∀ a n rest s, a ∈ zb_assets b → ab_name a = n :: rest → n ≠ s +:+ ".lesson".
Definition tidy_simple (c : simple_course) : Prop :=
  ∀ l, l ∈ sc_lessons c → (∀ a, a ∈ sl_files l → plain_asset a) ∧ Forall (λ y, fin y.2) (sl_encompassed l).

(** ** The course that a builder stands for *)

(** The manifest that a simple course stands for: its own one, except that encompassed units given
    beside it count instead of those in it. *)
Record meant_manifest (c : simple_course) (m : course_manifest) : Prop := {
  mm_id : cm_id m = cm_id (sc_manifest c);
  mm_dependencies : cm_dependencies m = cm_dependencies (sc_manifest c);
  mm_superseded : cm_superseded m = cm_superseded (sc_manifest c);
  mm_metadata : cm_metadata m = cm_metadata (sc_manifest c);
  mm_beside : sc_encompassed c ≠ [] → cm_encompassed m = sc_encompassed c;
  mm_own : sc_encompassed c = [] → cm_encompassed m = cm_encompassed (sc_manifest c)
}.
(** Short identifiers of lessons of the course are expanded. *)
Definition expand (c : uid) (ids : list uid) (x : uid) : uid := if decide (x ∈ ids) then id_of c [x] else x.
Definition stands_for (c : uid) (ids : list uid) (l : kb_lesson_builder) (le : lesson_manifest * list exercise_manifest) : Prop :=
  le.1 = LessonManifest (id_of c [yb_id l]) c (expand c ids <$> yb_dependencies l)
           ((λ y, (expand c ids y.1, y.2)) <$> yb_encompassed l) (expand c ids <$> yb_superseded l) (yb_metadata l) ∧
  le.2 ≡ₚ (λ e, ExerciseManifest (id_of c [yb_id l; xb_id e]) (id_of c [yb_id l]) c
                  (default (default true (yb_type l)) (xb_type e))) <$> yb_exercises l.
Definition stands_for_simple (c : uid) (ids : list uid) (l : simple_lesson) (le : lesson_manifest * list exercise_manifest) : Prop :=
  le.1 = LessonManifest (id_of c [sl_id l]) c (expand c ids <$> sl_dependencies l)
           ((λ y, (expand c ids y.1, y.2)) <$> sl_encompassed l) (expand c ids <$> sl_superseded l) (sl_metadata l) ∧
  le.2 ≡ₚ (λ e, ExerciseManifest (id_of c [sl_id l; se_id e]) (id_of c [sl_id l]) c true) <$> sl_exercises l.
(** Each lesson of the course is the one of one builder, in any order. *)
Definition one_each {A B : Type} (R : A → B → Prop) (l : list A) (l' : list B) : Prop := ∃ k, k ≡ₚ l' ∧ Forall2 R l k.

(** What the builder of simple courses checks. *)
Definition valid_simple (c : simple_course) : Prop :=
  NoDup (sl_id <$> sc_lessons c) ∧
  ∀ l, l ∈ sc_lessons c → sl_id l ≠ "" ∧ NoDup (se_id <$> sl_exercises l) ∧ ∀ e, e ∈ sl_exercises l → se_id e ≠ "".
