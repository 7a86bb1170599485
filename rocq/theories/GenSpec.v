(** Vocabulary for the statements about generated courses. *)
From Coq Require Import Ascii.
From stdpp Require Import sorting gmap strings list pretty relations.
From Verif Require Import F32 Graph GraphSpec Library LibrarySpec Generators.
Local Open Scope string_scope.
Local Open Scope list_scope.

(** ** Identifiers *)

(** The identifier made of [c] and components, separated by double colons. *)
Fixpoint comps (l : list string) : string :=
  match l with
  | [] => ""
  | x :: l => "::" +:+ (x +:+ comps l)
  end.
Definition id_of (c : string) (l : list string) : string := c +:+ comps l.

Definition colon : ascii := ":"%char.
(** The string contains no colon. *)
Definition colon_free (s : string) : Prop := colon ∉ list_ascii_of_string s.

(** All identifiers of a course: its own, those of its lessons and those of its exercises. *)
Definition course_ids (oc : open_course) : list uid :=
  cm_id (oc_manifest oc) :: mjoin ((λ le, lm_id le.1 :: (em_id <$> le.2)) <$> oc_lessons oc).
(** The course without its lessons. *)
Definition bare (cm : course_manifest) : open_course := OpenCourse cm [].

(** ** Music pieces *)

(** [r] is the sub-passage of [p] at a path of indices. *)
Inductive sub_at : passage → list N → passage → Prop :=
| sub_here p : sub_at p [] p
| sub_in i q subs path r : (i, q) ∈ subs → sub_at q path r → sub_at (Passage subs) (i :: path) r.
Definition sub_indices (p : passage) : list N := match p with Passage subs => subs.*1 end.
(** No two direct sub-passages of a passage have the same index (the sub-passages are a map). *)
Definition unique_indices (p : passage) : Prop := ∀ path q, sub_at p path q → NoDup (sub_indices q).
(** The identifier of the lesson for the sub-passage at a path. *)
Definition passage_id (c : uid) (path : list N) : uid := id_of c ("0" :: (pretty <$> path)).
(** The lesson and its exercise for the sub-passage [q] at a path: it depends on the lessons of its
    direct sub-passages. *)
Definition passage_lesson (c : uid) (path : list N) (q : passage) : lesson_manifest * list exercise_manifest :=
  (LessonManifest (passage_id c path) c ((λ i, passage_id c (path ++ [i])) <$> sub_indices q) [] [] None,
   [ExerciseManifest (passage_id c path +:+ "::exercise") (passage_id c path) c true]).

(** ** Transcription *)

Inductive lesson_kind := Singing | AdvancedSinging | Transcribing (i : string) | AdvancedTranscribing (i : string).
Definition kind_id (c : uid) (k : lesson_kind) : uid :=
  id_of c match k with
          | Singing => ["singing"]
          | AdvancedSinging => ["advanced_singing"]
          | Transcribing i => ["transcription"; i]
          | AdvancedTranscribing i => ["advanced_transcription"; i]
          end.
Definition advanced (k : lesson_kind) : bool := match k with AdvancedSinging | AdvancedTranscribing _ => true | _ => false end.
Definition sung (k : lesson_kind) : bool := match k with Singing | AdvancedSinging => true | _ => false end.
(** The lessons of a course, with or without the advanced ones. *)
Definition all_kinds (instruments : list string) : list lesson_kind :=
  [Singing; AdvancedSinging] ++ (Transcribing <$> instruments) ++ (AdvancedTranscribing <$> instruments).
Definition kinds_of (c : transcription) (instruments : list string) : list lesson_kind :=
  if tr_skip_advanced c then List.filter (λ k, negb (advanced k)) (all_kinds instruments) else all_kinds instruments.
(** What a lesson depends on and what it supersedes. *)
Definition needs (c : transcription) (course : uid) (k : lesson_kind) : list uid :=
  match k with
  | Singing => (λ d, kind_id d Singing) <$> tr_dependencies c
  | AdvancedSinging => [kind_id course Singing]
  | Transcribing i => ((λ d, kind_id d (Transcribing i)) <$> tr_dependencies c) ++ [kind_id course Singing]
  | AdvancedTranscribing i => [kind_id course (Transcribing i); kind_id course AdvancedSinging]
  end.
Definition replaces (course : uid) (k : lesson_kind) : list uid :=
  match k with
  | AdvancedSinging => [kind_id course Singing]
  | AdvancedTranscribing i => [kind_id course (Transcribing i)]
  | _ => []
  end.
(** The exercises for a track: one for each interval, or one for the whole track. *)
Definition track_ids (lesson : uid) (t : track) : list uid :=
  match tk_intervals t with
  | [] => [id_of lesson [tk_id t]]
  | is => (λ i, id_of lesson [tk_id t; pretty i]) <$> is
  end.
Definition exercise_ids_of (c : transcription) (course : uid) (ts : list track) (k : lesson_kind) : list uid :=
  if tr_skip_singing c && sung k then [] else mjoin (track_ids (kind_id course k) <$> ts).

(** The identifiers chosen by the user are usable: the instruments are distinct, the tracks too,
    the intervals are a map, and none contains a colon. *)
Definition good_names (instruments : list string) (ts : list track) : Prop :=
  NoDup instruments ∧ Forall colon_free instruments ∧ NoDup (tk_id <$> ts) ∧ Forall (λ t, colon_free (tk_id t)) ts ∧
  Forall (λ t, NoDup (tk_intervals t)) ts.

(** A transcription course before it is generated. *)
Record transcription_input := TranscriptionInput { ti_config : transcription; ti_files : list (option track); ti_manifest : course_manifest }.
(** The dependencies between transcription courses. *)
Definition course_needs (is : list transcription_input) (a b : uid) : Prop :=
  ∃ i, i ∈ is ∧ cm_id (ti_manifest i) = a ∧ b ∈ tr_dependencies (ti_config i).
(** The generated course, and the course without its lessons. *)
Definition generate_input (instruments : list string) (i : transcription_input) : option open_course :=
  generate_transcription (ti_config i) instruments (ti_files i) (ti_manifest i).
Definition input_bare (i : transcription_input) : open_course := bare (ti_manifest i).
(** The values of a metadata key after some have been added. *)
Definition added (old : option (list string)) (new : list string) : option (list string) :=
  match new with [] => old | _ => Some (default [] old ++ new) end.

(** ** Literacy *)

(** The directory of the lesson with the short identifier [s]. *)
Definition lesson_dir (dirs : list (string * list (string * content))) (s : string) (dir : list (string * content)) : Prop :=
  s ≠ "" ∧ (s +:+ ".lesson", dir) ∈ dirs.
(** An identifier as seen from outside the course: those of lessons of the course are expanded. *)
Definition expanded (inside : uid → Prop) (expand : uid → uid) (y x : uid) : Prop :=
  (inside y ∧ x = expand y) ∨ (¬ inside y ∧ x = y).
Definition literacy_inside (dirs : list (string * list (string * content))) (s : uid) : Prop := ∃ dir, lesson_dir dirs s dir.
(** The lessons generated for the lesson with the short identifier [s]. *)
Definition names_of (dictation : bool) (c : uid) (s : uid) : list uid :=
  id_of c [s; "reading"] :: (if dictation then [id_of c [s; "dictation"]] else []).
(** The reading and the dictation lesson of the lesson with the short identifier [s] and the contents [l]. *)
Definition reading_of (c : uid) (dirs : list (string * list (string * content))) (s : uid) (l : literacy_lesson)
    (lm : lesson_manifest) (es : list exercise_manifest) : Prop :=
  let name x := id_of c [x; "reading"] in
  let seen := expanded (literacy_inside dirs) name in
  lm_id lm = name s ∧ lm_course_id lm = c ∧
  (∀ x, x ∈ lm_dependencies lm ↔ ∃ y, y ∈ ll_dependencies l ∧ seen y x) ∧
  (∀ x w, (x, w) ∈ lm_encompassed lm ↔ ∃ y, (y, w) ∈ ll_encompassed l ∧ seen y x) ∧
  (∀ x, x ∈ lm_superseded lm ↔ ∃ y, y ∈ ll_superseded l ∧ seen y x) ∧
  es = [ExerciseManifest (id_of (name s) ["exercise"]) (name s) c true].
Definition dictation_of (c : uid) (dirs : list (string * list (string * content))) (s : uid) (l : literacy_lesson)
    (lm : lesson_manifest) (es : list exercise_manifest) : Prop :=
  let name x := id_of c [x; "dictation"] in
  let seen := expanded (literacy_inside dirs) name in
  lm_id lm = name s ∧ lm_course_id lm = c ∧
  (∀ x, x ∈ lm_dependencies lm ↔
     x = id_of c [s; "reading"] ∨ ∃ y, y ∈ ll_dependencies l ∧ literacy_inside dirs y ∧ x = name y) ∧
  (∀ x w, (x, w) ∈ lm_encompassed lm ↔ ∃ y, (y, w) ∈ ll_encompassed l ∧ seen y x) ∧
  (∀ x, x ∈ lm_superseded lm ↔ ∃ y, y ∈ ll_superseded l ∧ seen y x) ∧
  es = [ExerciseManifest (id_of (name s) ["exercise"]) (name s) c true].

(** What a file of a lesson has to be read as. *)
Definition readable (f : literacy_file) (c : content) : Prop :=
  match f with
  | LLessonDependencies | LLessonSuperseded => is_Some (as_ids c)
  | LLessonEncompassed => is_Some (as_weights c)
  | LLessonName | LLessonDescription => is_Some (as_name c)
  | LLessonInstructions | LExample _ | LException _ | LExampleAnswer _ | LExceptionAnswer _ => is_Some (as_text c)
  | LSimpleExamples | LSimpleExceptions => is_Some (as_lines c)
  | LSimpleExamplesWithAnswers | LSimpleExceptionsWithAnswers => is_Some (as_entries c)
  end.
(** What a file contributes to the examples: its text, with the answer in the file of the same short
    identifier, its lines or its entries. *)
Definition file_examples (dir : list (string * content)) (e : string * content) : list (string * option string) :=
  match literacy_kind e.1 with
  | Some (LExample s) => match as_text e.2 with Some x => [(x, find_file dir (s +:+ ".answer.md") ≫= as_text)] | None => [] end
  | Some LSimpleExamples => (λ x, (x, None)) <$> default [] (as_lines e.2)
  | Some LSimpleExamplesWithAnswers => default [] (as_entries e.2)
  | _ => []
  end.
Definition file_exceptions (dir : list (string * content)) (e : string * content) : list (string * option string) :=
  match literacy_kind e.1 with
  | Some (LException s) => match as_text e.2 with Some x => [(x, find_file dir (s +:+ ".exception_answer.md") ≫= as_text)] | None => [] end
  | Some LSimpleExceptions => (λ x, (x, None)) <$> default [] (as_lines e.2)
  | Some LSimpleExceptionsWithAnswers => default [] (as_entries e.2)
  | _ => []
  end.
(** The lesson in a directory. *)
Definition literacy_contents (dir : list (string * content)) (l : literacy_lesson) : Prop :=
  ll_dependencies l = default [] (find_file dir "lesson.dependencies.json" ≫= as_ids) ∧
  ll_encompassed l = default [] (find_file dir "lesson.encompassed.json" ≫= as_weights) ∧
  ll_superseded l = default [] (find_file dir "lesson.superseded.json" ≫= as_ids) ∧
  ll_examples l ≡ₚ mjoin (file_examples dir <$> dir) ∧ Sorted example_le (ll_examples l) ∧
  ll_exceptions l ≡ₚ mjoin (file_exceptions dir <$> dir) ∧ Sorted example_le (ll_exceptions l).
Definition all_files_readable (dir : list (string * content)) : Prop :=
  ∀ n c f, (n, c) ∈ dir → literacy_kind n = Some f → readable f c.

(** ** Knowledge bases *)

(** The directory of the lesson with the short identifier [s], which can be empty. *)
Definition kb_lesson_dir (dirs : list (string * list (string * content))) (s : string) (dir : list (string * content)) : Prop :=
  (s +:+ ".lesson", dir) ∈ dirs.
Definition kb_inside (dirs : list (string * list (string * content))) (s : uid) : Prop := ∃ dir, kb_lesson_dir dirs s dir.
(** There is an exercise for each front of a flashcard. *)
Definition kb_has_exercise (dir : list (string * content)) (e : string) : Prop := e ≠ "" ∧ e +:+ ".front.md" ∈ dir.*1.
(** The settings of a lesson come from its files. *)
Definition kb_settings (dir : list (string * content)) (l : kb_lesson) : Prop :=
  kl_dependencies l = default [] (find_file dir "lesson.dependencies.json" ≫= as_ids) ∧
  kl_encompassed l = default [] (find_file dir "lesson.encompassed.json" ≫= as_weights) ∧
  kl_superseded l = default [] (find_file dir "lesson.superseded.json" ≫= as_ids) ∧
  kl_metadata l = find_file dir "lesson.metadata.json" ≫= as_metadata ∧
  kl_default_type l = find_file dir "lesson.default_exercise_type.json" ≫= as_type.
(** The type of an exercise: its own, that of the lesson or procedural. *)
Definition kb_type (dir : list (string * content)) (e : string) : bool :=
  match find_file dir (e +:+ ".type.json") ≫= as_type with
  | Some t => t
  | None => match find_file dir "lesson.default_exercise_type.json" ≫= as_type with Some t => t | None => true end
  end.
(** The manifest of the lesson with the short identifier [s] in the directory [dir]. *)
Definition kb_lesson_of (c : uid) (dirs : list (string * list (string * content))) (s : uid) (dir : list (string * content))
    (lm : lesson_manifest) (es : list exercise_manifest) : Prop :=
  let seen := expanded (kb_inside dirs) (λ x, id_of c [x]) in
  lm_id lm = id_of c [s] ∧ lm_course_id lm = c ∧
  (∃ l, kb_settings dir l ∧
    (∀ x, x ∈ lm_dependencies lm ↔ ∃ y, y ∈ kl_dependencies l ∧ seen y x) ∧
    (∀ x w, (x, w) ∈ lm_encompassed lm ↔ ∃ y, (y, w) ∈ kl_encompassed l ∧ seen y x) ∧
    (∀ x, x ∈ lm_superseded lm ↔ ∃ y, y ∈ kl_superseded l ∧ seen y x) ∧
    lm_metadata lm = kl_metadata l) ∧
  NoDup es ∧
  (∀ em, em ∈ es ↔ ∃ e, kb_has_exercise dir e ∧ em = ExerciseManifest (id_of c [s; e]) (id_of c [s]) c (kb_type dir e)).
(** The two kinds of files whose names mean something else. *)
Definition kb_shadowed (f : kb_file) : Prop := f = KExerciseName "lesson" ∨ f = KExerciseDescription "lesson".
