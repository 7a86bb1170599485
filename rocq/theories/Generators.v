(** Model of the course generators, src/data/course_generator/*.rs.

    Of the manifests, the fields of Library.v are modelled: identifiers, relations, metadata and
    the type of exercises. Names, descriptions, instructions and the text of the assets are
    not, except for the examples of literacy courses. Lessons written by hand next to the
    generated ones (src/course_library.rs:313-342) are not modelled. *)
From stdpp Require Import gmap strings list sorting pretty.
From Verif Require Import F32 Graph Library.
Local Open Scope string_scope.
Local Open Scope list_scope.

Notation generated := (list (lesson_manifest * list exercise_manifest)) (only parsing).

(** [format!("{}::{}", a, b)] *)
Definition under (a b : string) : string := a +:+ "::" +:+ b.

(** [strip_suffix] of [str]; [ends_with] is that it is [Some]. *)
Fixpoint strip_suffix (suf s : string) : option string :=
  if bool_decide (s = suf) then Some "" else
  match s with
  | EmptyString => None
  | String a s => String a <$> strip_suffix suf s
  end.

(** * Music pieces, src/data/course_generator/music_piece.rs *)

(** Lines 72-87 [MusicPassage]. The start and the end are only used in the text of the exercise
    and left out. [sub_passages] is a map: the order of the list is the order in which it is
    iterated over, and its indices are distinct. *)
Inductive passage := Passage (subs : list (N * passage)).
(** Lines 91-99 [generate_lesson_id]. *)
Definition music_id (course : uid) (path : list N) : uid :=
  under course (String.concat "::" (pretty <$> path)).
(** Lines 101-158 [new_path] and [generate_lesson_helper]. *)
Fixpoint music_helper (course : uid) (path : list N) (p : passage) : generated :=
  match p with
  | Passage subs =>
      mjoin ((λ '(i, q), music_helper course (path ++ [i]) q) <$> subs) ++
      [(LessonManifest (music_id course path) course ((λ '(i, _), music_id course (path ++ [i])) <$> subs) [] [] None,
        [ExerciseManifest (under (music_id course path) "exercise") (music_id course path) course true])]
  end.
(** Lines 160-169 [generate_lessons]. *)
Definition music_lessons (course : uid) (p : passage) : generated := music_helper course [0%N] p.
(** Lines 184-199 [generate_manifests] and src/course_library.rs:295-311. *)
Definition generate_music (p : passage) (cm : course_manifest) : open_course := OpenCourse cm (music_lessons (cm_id cm) p).

(** * Transcription, src/data/course_generator/transcription.rs *)

(** Lines 49-104 [TranscriptionAsset] and [TranscriptionPassages]: a track with its short identifier, the artist and the album; the keys of the
    intervals, in the order in which the map is iterated over. *)
Record track := Track { tk_id : string; tk_artist : option string; tk_album : option string; tk_intervals : list N }.
(** src/data/course_generator.rs:18-24. *)
Notation instrument := string (only parsing).
(** Lines 189-222 [TranscriptionConfig]: the files of the passage directory are given apart. *)
Record transcription := Transcription {
  tr_dependencies : list uid;
  tr_inlined : list track;
  tr_skip_singing : bool;
  tr_skip_advanced : bool }.
(** Lines 226-232 [exercise_id]. *)
Definition track_exercise_id (lesson : uid) (asset : string) (passage : option N) : uid :=
  match passage with
  | Some i => under (under lesson asset) (pretty i)
  | None => under lesson asset
  end.
(** Lines 239-282, 338-381, 437-487 and 565-615: the exercises of a track are the same for the four
    kinds of lessons, except for their texts. *)
Definition track_exercises (course lesson : uid) (t : track) : list exercise_manifest :=
  match tk_intervals t with
  | [] => [ExerciseManifest (track_exercise_id lesson (tk_id t) None) lesson course true]
  | is => (λ i, ExerciseManifest (track_exercise_id lesson (tk_id t) (Some i)) lesson course true) <$> is
  end.
(** Lines 324-329, 419-428, 530-540 and 657-667. *)
Definition all_track_exercises (course lesson : uid) (ts : list track) : list exercise_manifest :=
  mjoin (track_exercises course lesson <$> ts).
(** Lines 234-237, 333-336, 432-435 and 560-563. *)
Definition singing_id (course : uid) : uid := under course "singing".
Definition advanced_singing_id (course : uid) : uid := under course "advanced_singing".
Definition transcription_id (course : uid) (i : instrument) : uid := under (under course "transcription") i.
Definition advanced_transcription_id (course : uid) (i : instrument) : uid := under (under course "advanced_transcription") i.
(** Lines 306-309, 398-404, 516-522 and 643-649; the keys are in transcription/constants.rs:48,57. *)
Definition lesson_metadata (kind i : string) : metadata :=
  Some (<["transcription_lesson" := [kind]]> (<["instrument" := [i]]> ∅)).
(** Lines 284-331, 383-430, 489-542 and 617-669. *)
Definition singing_lesson (c : transcription) (course : uid) (ts : list track) : lesson_manifest * list exercise_manifest :=
  (LessonManifest (singing_id course) course ((λ d, under d "singing") <$> tr_dependencies c) [] [] (lesson_metadata "singing" "voice"),
   if tr_skip_singing c then [] else all_track_exercises course (singing_id course) ts).
Definition advanced_singing_lesson (c : transcription) (course : uid) (ts : list track) : lesson_manifest * list exercise_manifest :=
  (LessonManifest (advanced_singing_id course) course [singing_id course] [] [singing_id course] (lesson_metadata "advanced_singing" "voice"),
   if tr_skip_singing c then [] else all_track_exercises course (advanced_singing_id course) ts).
Definition transcription_lesson (c : transcription) (course : uid) (ts : list track) (i : instrument) : lesson_manifest * list exercise_manifest :=
  (LessonManifest (transcription_id course i) course
     (((λ d, under (under d "transcription") i) <$> tr_dependencies c) ++ [singing_id course]) [] [] (lesson_metadata "transcription" i),
   all_track_exercises course (transcription_id course i) ts).
Definition advanced_transcription_lesson (course : uid) (ts : list track) (i : instrument) : lesson_manifest * list exercise_manifest :=
  (LessonManifest (advanced_transcription_id course i) course [transcription_id course i; advanced_singing_id course] []
     [transcription_id course i] (lesson_metadata "advanced_transcription" i),
   all_track_exercises course (advanced_transcription_id course i) ts).
(** Lines 686-734 [open_passage_directory]: the JSON files of the directory, in any order;
    [None] is a file that cannot be read. *)
Fixpoint open_tracks (seen : list string) (files : list (option track)) : option (list track) :=
  match files with
  | [] => Some []
  | None :: _ => None
  | Some t :: files => if bool_decide (tk_id t ∈ seen) then None else cons t <$> open_tracks (tk_id t :: seen) files
  end.
(** Lines 544-558, 671-684 and 736-777 [generate_lesson_manifests]. *)
Definition transcription_lessons (c : transcription) (course : uid) (instruments : list instrument) (ts : list track) : generated :=
  if tr_skip_advanced c then
    [singing_lesson c course ts] ++ (transcription_lesson c course ts <$> instruments)
  else
    [singing_lesson c course ts] ++ [advanced_singing_lesson c course ts] ++
    (transcription_lesson c course ts <$> instruments) ++ (advanced_transcription_lesson course ts <$> instruments).
(** Lines 779-818 [generate_course_metadata]. *)
Definition push_metadata (key value : string) (m : gmap string (list string)) : gmap string (list string) :=
  <[key := default [] (m !! key) ++ [value]]> m.
Definition transcription_metadata (m : metadata) (ts : list track) : gmap string (list string) :=
  let m := <["transcription_course" := ["true"]]> (default ∅ m) in
  let m := fold_left (λ m t, match tk_artist t with Some a => push_metadata "transcription_artist" a m | None => m end) ts m in
  fold_left (λ m t, match tk_album t with Some a => push_metadata "transcription_album" a m | None => m end) ts m.
(** Lines 821-858 [generate_manifests] and src/course_library.rs:295-311, for the course with the manifest [cm]. The skip flags are
    read from the manifest, where the configuration comes from. *)
Definition generate_transcription (c : transcription) (instruments : list instrument) (files : list (option track)) (cm : course_manifest)
    : option open_course :=
  ts ← open_tracks [] files;
  let ts := ts ++ tr_inlined c in
  Some (OpenCourse (CourseManifest (cm_id cm) (cm_dependencies cm) (cm_encompassed cm) (cm_superseded cm)
                      (Some (transcription_metadata (cm_metadata cm) ts)))
          (transcription_lessons c (cm_id cm) instruments ts)).

(** * Directories of files *)

(** What a file gives when it is opened as JSON identifiers, weights, metadata or an exercise type
    (true for procedural), as text, as a list of lines (trimmed, without empty ones) or as a YAML
    list of examples with answers. [None] is an error. *)
Record content := Content {
  as_ids : option (list uid);
  as_weights : option (list (uid * f32));
  as_metadata : option (gmap string (list string));
  as_type : option bool;
  as_name : option string;
  as_text : option string;
  as_lines : option (list string);
  as_entries : option (list (string * option string)) }.
(** The entries of a directory, in the order in which they are listed, with distinct names. *)
Notation directory := (list (string * content)) (only parsing).
Fixpoint find_file (dir : directory) (name : string) : option content :=
  match dir with
  | [] => None
  | (n, c) :: dir => if bool_decide (n = name) then Some c else find_file dir name
  end.
(** A course directory: its directories, in the order in which they are listed. *)
Notation course_directory := (list (string * directory)) (only parsing).

(** The identifier [x] seen from the course: that of one of its lessons if it is a short identifier. *)
Definition full_id (course : uid) (short_ids : list uid) (suffix : string) (x : uid) : uid :=
  if bool_decide (x ∈ short_ids) then under course x +:+ suffix else x.

(** * Literacy, src/data/course_generator/literacy.rs *)

(** Lines 84-131 [LiteracyFile]. The course instructions, which no file name stands for, are left out. *)
Inductive literacy_file :=
| LLessonName | LLessonDescription | LLessonDependencies | LLessonEncompassed | LLessonSuperseded | LLessonInstructions
| LExample (id : string) | LException (id : string) | LExampleAnswer (id : string) | LExceptionAnswer (id : string)
| LSimpleExamples | LSimpleExceptions | LSimpleExamplesWithAnswers | LSimpleExceptionsWithAnswers.
(** Lines 184-219 [try_from]. *)
Definition literacy_kind (name : string) : option literacy_file :=
  if bool_decide (name = "lesson.dependencies.json") then Some LLessonDependencies else
  if bool_decide (name = "lesson.encompassed.json") then Some LLessonEncompassed else
  if bool_decide (name = "lesson.superseded.json") then Some LLessonSuperseded else
  if bool_decide (name = "lesson.name.json") then Some LLessonName else
  if bool_decide (name = "lesson.description.json") then Some LLessonDescription else
  if bool_decide (name = "lesson.instructions.md") then Some LLessonInstructions else
  match strip_suffix ".example.md" name with Some id => Some (LExample id) | None =>
  match strip_suffix ".exception.md" name with Some id => Some (LException id) | None =>
  match strip_suffix ".answer.md" name with Some id => Some (LExampleAnswer id) | None =>
  match strip_suffix ".exception_answer.md" name with Some id => Some (LExceptionAnswer id) | None =>
  if bool_decide (name = "simple_examples.md") then Some LSimpleExamples else
  if bool_decide (name = "simple_exceptions.md") then Some LSimpleExceptions else
  if bool_decide (name = "simple_examples_with_answers.yaml") then Some LSimpleExamplesWithAnswers else
  if bool_decide (name = "simple_exceptions_with_answers.yaml") then Some LSimpleExceptionsWithAnswers else
  None
  end end end end.
(** The names under which the files are opened again, lines 338-438. *)
Definition literacy_name (f : literacy_file) : string :=
  match f with
  | LLessonName => "lesson.name.json" | LLessonDescription => "lesson.description.json"
  | LLessonDependencies => "lesson.dependencies.json" | LLessonEncompassed => "lesson.encompassed.json"
  | LLessonSuperseded => "lesson.superseded.json" | LLessonInstructions => "lesson.instructions.md"
  | LExample id => id +:+ ".example.md" | LException id => id +:+ ".exception.md"
  | LExampleAnswer id => id +:+ ".answer.md" | LExceptionAnswer id => id +:+ ".exception_answer.md"
  | LSimpleExamples => "simple_examples.md" | LSimpleExceptions => "simple_exceptions.md"
  | LSimpleExamplesWithAnswers => "simple_examples_with_answers.yaml"
  | LSimpleExceptionsWithAnswers => "simple_exceptions_with_answers.yaml"
  end.
(** Lines 276-311 [LiteracyLesson]. The name, the description and the instructions are left out. *)
Record literacy_lesson := LiteracyLesson {
  ll_dependencies : list uid; ll_encompassed : list (uid * f32); ll_superseded : list uid;
  ll_examples : list (string * option string); ll_exceptions : list (string * option string) }.
Definition new_literacy_lesson : literacy_lesson := LiteracyLesson [] [] [] [] [].
(** The first loop, lines 333-352: the answers by short identifier. [e] selects the answers to
    exceptions. *)
Fixpoint literacy_answers (dir : directory) (e : bool) (files : list literacy_file) (answers : gmap string string) : option (gmap string string) :=
  match files with
  | [] => Some answers
  | f :: files =>
      match f, e with
      | LExampleAnswer id, false | LExceptionAnswer id, true =>
          a ← find_file dir (literacy_name f) ≫= as_text;
          literacy_answers dir e files (<[id := a]> answers)
      | _, _ => literacy_answers dir e files answers
      end
  end.
(** The body of the second loop, lines 354-440. The name, the description and the instructions only
    matter if they cannot be read. *)
Definition literacy_step (dir : directory) (answers exception_answers : gmap string string) (l : literacy_lesson) (f : literacy_file)
    : option literacy_lesson :=
  let file := find_file dir (literacy_name f) in
  let add_examples xs := LiteracyLesson (ll_dependencies l) (ll_encompassed l) (ll_superseded l) (ll_examples l ++ xs) (ll_exceptions l) in
  let add_exceptions xs := LiteracyLesson (ll_dependencies l) (ll_encompassed l) (ll_superseded l) (ll_examples l) (ll_exceptions l ++ xs) in
  match f with
  | LLessonDependencies => (λ x, LiteracyLesson x (ll_encompassed l) (ll_superseded l) (ll_examples l) (ll_exceptions l)) <$> (file ≫= as_ids)
  | LLessonEncompassed => (λ x, LiteracyLesson (ll_dependencies l) x (ll_superseded l) (ll_examples l) (ll_exceptions l)) <$> (file ≫= as_weights)
  | LLessonSuperseded => (λ x, LiteracyLesson (ll_dependencies l) (ll_encompassed l) x (ll_examples l) (ll_exceptions l)) <$> (file ≫= as_ids)
  | LLessonName | LLessonDescription => (λ _, l) <$> (file ≫= as_name)
  | LLessonInstructions => (λ _, l) <$> (file ≫= as_text)
  | LExample id => (λ x, add_examples [(x, answers !! id)]) <$> (file ≫= as_text)
  | LException id => (λ x, add_exceptions [(x, exception_answers !! id)]) <$> (file ≫= as_text)
  | LExampleAnswer _ | LExceptionAnswer _ => Some l
  | LSimpleExamples => (λ xs, add_examples ((λ x, (x, None)) <$> xs)) <$> (file ≫= as_lines)
  | LSimpleExceptions => (λ xs, add_exceptions ((λ x, (x, None)) <$> xs)) <$> (file ≫= as_lines)
  | LSimpleExamplesWithAnswers => add_examples <$> (file ≫= as_entries)
  | LSimpleExceptionsWithAnswers => add_exceptions <$> (file ≫= as_entries)
  end.
(** The order of [(String, Option<String>)]. *)
Definition example_le (a b : string * option string) : Prop :=
  if bool_decide (a.1 = b.1) then
    match a.2, b.2 with
    | None, _ => True
    | Some _, None => False
    | Some x, Some y => uid_le x y
    end
  else uid_le a.1 b.1.
Global Instance example_le_dec : RelDecision example_le.
Proof. intros [a x] [b y]. unfold example_le. cbn [fst snd]. destruct (bool_decide (a = b)), x, y; apply _. Defined.
(** Lines 442-444. *)
Definition literacy_sorted (l : literacy_lesson) : literacy_lesson :=
  LiteracyLesson (ll_dependencies l) (ll_encompassed l) (ll_superseded l)
    (merge_sort example_le (ll_examples l)) (merge_sort example_le (ll_exceptions l)).
(** Lines 314-446 [create_lesson] and 448-460 [open_lesson]. *)
Definition open_literacy_lesson (dir : directory) : option literacy_lesson :=
  let files := omap literacy_kind (fst <$> dir) in
  answers ← literacy_answers dir false files ∅;
  exception_answers ← literacy_answers dir true files ∅;
  l ← try_fold (literacy_step dir answers exception_answers) files new_literacy_lesson;
  Some (literacy_sorted l).
(** Lines 462-482 and 506-573 [generate_reading_lesson]; [encompassed] is sorted by identifier. *)
Definition weight_le (a b : uid * f32) : Prop := uid_le a.1 b.1.
Global Instance weight_le_dec : RelDecision weight_le.
Proof. intros a b. unfold weight_le. apply _. Defined.
Definition reading_lesson (course : uid) (short_ids : list uid) (short_id : uid) (l : literacy_lesson) : lesson_manifest * list exercise_manifest :=
  let id := full_id course short_ids "::reading" short_id in
  (LessonManifest id course
     (sort_ids (full_id course short_ids "::reading" <$> ll_dependencies l))
     (merge_sort weight_le ((λ '(x, w), (full_id course short_ids "::reading" x, w)) <$> ll_encompassed l))
     (sort_ids (full_id course short_ids "::reading" <$> ll_superseded l))
     (Some (<["literacy_lesson" := ["reading"]]> ∅)),
   [ExerciseManifest (under id "exercise") id course true]).
(** Lines 575-656 [generate_dictation_lesson]. *)
Definition dictation_lesson (course : uid) (short_ids : list uid) (short_id : uid) (l : literacy_lesson) : lesson_manifest * list exercise_manifest :=
  let id := full_id course short_ids "::dictation" short_id in
  let deps := omap (λ x, let y := full_id course short_ids "::dictation" x in if bool_decide (y = x) then None else Some y) (ll_dependencies l) in
  (LessonManifest id course
     (sort_ids (deps ++ [full_id course short_ids "::reading" short_id]))
     (merge_sort weight_le ((λ '(x, w), (full_id course short_ids "::dictation" x, w)) <$> ll_encompassed l))
     (sort_ids (full_id course short_ids "::dictation" <$> ll_superseded l))
     (Some (<["literacy_lesson" := ["dictation"]]> ∅)),
   [ExerciseManifest (under id "exercise") id course true]).
(** Lines 658-678. *)
Definition literacy_manifests (dictation : bool) (course : uid) (short_ids : list uid) (x : uid * literacy_lesson) : generated :=
  if dictation then [reading_lesson course short_ids x.1 x.2; dictation_lesson course short_ids x.1 x.2]
  else [reading_lesson course short_ids x.1 x.2].
(** Lines 692-753 [open_course_instructions] and [generate_manifests]: the lessons in the order in which the map is iterated over.
    [ord] is that order; the names of the directories are distinct, so that no lesson replaces
    another. [instructions] is the file of course instructions, if there is one. *)
Definition literacy_dirs (dirs : course_directory) : list (uid * directory) :=
  omap (λ '(name, dir), match strip_suffix ".lesson" name with Some "" | None => None | Some id => Some (id, dir) end) dirs.
Fixpoint open_all {A} (f : directory → option A) (dirs : list (uid * directory)) : option (list (uid * A)) :=
  match dirs with
  | [] => Some []
  | (id, dir) :: dirs => a ← f dir; l ← open_all f dirs; Some ((id, a) :: l)
  end.
Definition generate_literacy (ord : ∀ A, list (uid * A) → list (uid * A)) (dictation : bool) (instructions : option content) (dirs : course_directory)
    (cm : course_manifest) : option open_course :=
  lessons ← open_all open_literacy_lesson (literacy_dirs dirs);
  _ ← match instructions with Some c => as_text c | None => Some "" end;
  Some (OpenCourse (CourseManifest (cm_id cm) (cm_dependencies cm) (cm_encompassed cm) (cm_superseded cm)
                      (Some (<["literacy_course" := ["true"]]> (default ∅ (cm_metadata cm)))))
          (mjoin (literacy_manifests dictation (cm_id cm) (fst <$> lessons) <$> ord _ lessons))).

(** * Knowledge bases, src/data/course_generator/knowledge_base.rs *)

(** Lines 64-108 [KnowledgeBaseFile]. *)
Inductive kb_file :=
| KLessonName | KLessonDescription | KLessonDependencies | KLessonSuperseded | KLessonEncompassed | KLessonMetadata
| KLessonInstructions | KLessonMaterial | KLessonDefaultExerciseType
| KExerciseFront (id : string) | KExerciseBack (id : string) | KExerciseName (id : string)
| KExerciseDescription (id : string) | KExerciseType (id : string).
(** Lines 122-160 [try_from]. *)
Definition kb_kind (name : string) : option kb_file :=
  if bool_decide (name = "lesson.dependencies.json") then Some KLessonDependencies else
  if bool_decide (name = "lesson.superseded.json") then Some KLessonSuperseded else
  if bool_decide (name = "lesson.encompassed.json") then Some KLessonEncompassed else
  if bool_decide (name = "lesson.name.json") then Some KLessonName else
  if bool_decide (name = "lesson.description.json") then Some KLessonDescription else
  if bool_decide (name = "lesson.metadata.json") then Some KLessonMetadata else
  if bool_decide (name = "lesson.material.md") then Some KLessonMaterial else
  if bool_decide (name = "lesson.instructions.md") then Some KLessonInstructions else
  if bool_decide (name = "lesson.default_exercise_type.json") then Some KLessonDefaultExerciseType else
  match strip_suffix ".front.md" name with Some id => Some (KExerciseFront id) | None =>
  match strip_suffix ".back.md" name with Some id => Some (KExerciseBack id) | None =>
  match strip_suffix ".name.json" name with Some id => Some (KExerciseName id) | None =>
  match strip_suffix ".description.json" name with Some id => Some (KExerciseDescription id) | None =>
  match strip_suffix ".type.json" name with Some id => Some (KExerciseType id) | None =>
  None
  end end end end end.
(** The names under which the files are opened again, lines 279-323 and 442-473. *)
Definition kb_name (f : kb_file) : string :=
  match f with
  | KLessonName => "lesson.name.json" | KLessonDescription => "lesson.description.json"
  | KLessonDependencies => "lesson.dependencies.json" | KLessonSuperseded => "lesson.superseded.json"
  | KLessonEncompassed => "lesson.encompassed.json" | KLessonMetadata => "lesson.metadata.json"
  | KLessonInstructions => "lesson.instructions.md" | KLessonMaterial => "lesson.material.md"
  | KLessonDefaultExerciseType => "lesson.default_exercise_type.json"
  | KExerciseFront id => id +:+ ".front.md" | KExerciseBack id => id +:+ ".back.md"
  | KExerciseName id => id +:+ ".name.json" | KExerciseDescription id => id +:+ ".description.json"
  | KExerciseType id => id +:+ ".type.json"
  end.
(** The short identifier of a file of an exercise, lines 496-508. *)
Definition kb_exercise_of (f : kb_file) : option string :=
  match f with
  | KExerciseFront id | KExerciseBack id | KExerciseName id | KExerciseDescription id | KExerciseType id => Some id
  | _ => None
  end.
(** Lines 180-209 [KnowledgeBaseExercise], with whether there is a back file. *)
Record kb_exercise := KbExercise { ke_id : string; ke_back : bool; ke_type : option bool }.
(** Lines 266-328 [create_exercise]. *)
Definition kb_exercise_step (dir : directory) (id : string) (e : kb_exercise) (f : kb_file) : option kb_exercise :=
  match f with
  | KExerciseName _ => (λ _, e) <$> (find_file dir (kb_name (KExerciseName id)) ≫= as_name)
  | KExerciseDescription _ => (λ _, e) <$> (find_file dir (kb_name (KExerciseDescription id)) ≫= as_name)
  | KExerciseType _ => (λ t, KbExercise (ke_id e) (ke_back e) (Some t)) <$> (find_file dir (kb_name (KExerciseType id)) ≫= as_type)
  | _ => Some e
  end.
Definition is_back (id : string) (f : kb_file) : bool := match f with KExerciseBack x => bool_decide (x = id) | _ => false end.
Definition kb_create_exercise (dir : directory) (id : string) (files : list kb_file) : option kb_exercise :=
  try_fold (kb_exercise_step dir id) files (KbExercise id (existsb (is_back id) files) None).
(** Lines 354-397 [KnowledgeBaseLesson]. *)
Record kb_lesson := KbLesson {
  kl_dependencies : list uid; kl_encompassed : list (uid * f32); kl_superseded : list uid;
  kl_metadata : metadata; kl_default_type : option bool }.
Definition new_kb_lesson : kb_lesson := KbLesson [] [] [] None None.
(** Lines 418-478 [create_lesson]. *)
Definition kb_lesson_step (dir : directory) (l : kb_lesson) (f : kb_file) : option kb_lesson :=
  let file := find_file dir (kb_name f) in
  match f with
  | KLessonDependencies => (λ x, KbLesson x (kl_encompassed l) (kl_superseded l) (kl_metadata l) (kl_default_type l)) <$> (file ≫= as_ids)
  | KLessonEncompassed => (λ x, KbLesson (kl_dependencies l) x (kl_superseded l) (kl_metadata l) (kl_default_type l)) <$> (file ≫= as_weights)
  | KLessonSuperseded => (λ x, KbLesson (kl_dependencies l) (kl_encompassed l) x (kl_metadata l) (kl_default_type l)) <$> (file ≫= as_ids)
  | KLessonName | KLessonDescription => (λ _, l) <$> (file ≫= as_name)
  | KLessonMetadata => (λ x, KbLesson (kl_dependencies l) (kl_encompassed l) (kl_superseded l) (Some x) (kl_default_type l)) <$> (file ≫= as_metadata)
  | KLessonDefaultExerciseType => (λ x, KbLesson (kl_dependencies l) (kl_encompassed l) (kl_superseded l) (kl_metadata l) (Some x)) <$> (file ≫= as_type)
  | _ => Some l
  end.
(** Lines 400-416 and 480-535 [open_lesson]. [ord] is the order in which the map of exercises is
    iterated over. *)
Definition is_front (f : kb_file) : bool := match f with KExerciseFront _ => true | _ => false end.
Definition files_of (files : list kb_file) (id : string) : list kb_file := filter (λ f, kb_exercise_of f = Some id) files.
Definition kb_exercise_ids (files : list kb_file) : list string :=
  filter (λ id, id ≠ "" ∧ existsb is_front (files_of files id) = true) (remove_dups (omap kb_exercise_of files)).
Fixpoint try_map {A B} (f : A → option B) (l : list A) : option (list B) :=
  match l with
  | [] => Some []
  | a :: l => b ← f a; l ← try_map f l; Some (b :: l)
  end.
Definition open_kb_lesson (ord : list string → list string) (dir : directory) : option (kb_lesson * list kb_exercise) :=
  let files := omap kb_kind (fst <$> dir) in
  l ← try_fold (kb_lesson_step dir) (filter (λ f, kb_exercise_of f = None) files) new_kb_lesson;
  es ← try_map (λ id, kb_create_exercise dir id (files_of files id)) (ord (kb_exercise_ids files));
  Some (l, es).
(** Lines 212-264 and 538-566: the manifests. If the flashcards are inlined, the front and the back
    are read again, which can fail. *)
Definition kb_inlined (dir : directory) (e : kb_exercise) : option () :=
  _ ← find_file dir (kb_name (KExerciseFront (ke_id e))) ≫= as_text;
  if ke_back e then (λ _, ()) <$> (find_file dir (kb_name (KExerciseBack (ke_id e))) ≫= as_text) else Some ().
Definition kb_exercise_manifest (course short_id : uid) (default_type : option bool) (e : kb_exercise) : exercise_manifest :=
  ExerciseManifest (under (under course short_id) (ke_id e)) (under course short_id) course
    (default (default true default_type) (ke_type e)).
Definition kb_lesson_manifest (course : uid) (short_ids : list uid) (short_id : uid) (l : kb_lesson) : lesson_manifest :=
  LessonManifest (under course short_id) course
    (full_id course short_ids "" <$> kl_dependencies l)
    ((λ '(x, w), (full_id course short_ids "" x, w)) <$> kl_encompassed l)
    (full_id course short_ids "" <$> kl_superseded l) (kl_metadata l).
Definition kb_manifests (inlined : bool) (course : uid) (short_ids : list uid) (x : uid * (directory * (kb_lesson * list kb_exercise)))
    : option (lesson_manifest * list exercise_manifest) :=
  let '(short_id, (dir, (l, es))) := x in
  ems ← try_map (λ e, _ ← (if inlined then kb_inlined dir e else Some ()); Some (kb_exercise_manifest course short_id (kl_default_type l) e)) es;
  Some (kb_lesson_manifest course short_ids short_id l, ems).
(** Lines 577-635 [convert_to_full_ids] and 637-692 [generate_manifests]. An empty short identifier
    is accepted here. *)
Definition kb_dirs (dirs : course_directory) : list (uid * directory) :=
  omap (λ '(name, dir), (λ id, (id, dir)) <$> strip_suffix ".lesson" name) dirs.
Definition generate_kb (ord : ∀ A, list (uid * A) → list (uid * A)) (ord_exercises : list string → list string) (inlined : bool)
    (dirs : course_directory) (cm : course_manifest) : option open_course :=
  lessons ← open_all (λ dir, pair dir <$> open_kb_lesson ord_exercises dir) (kb_dirs dirs);
  manifests ← try_map (kb_manifests inlined (cm_id cm) (fst <$> lessons)) (ord _ lessons);
  Some (OpenCourse cm manifests).
