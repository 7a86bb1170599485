(** Properties of generated courses: C41, C42, C43, C44, C62, C63. The vocabulary (identifiers made
    of components, the sub-passage at a path, the lessons of a transcription course, ...) is in
    GenSpec.v. *)
From stdpp Require Import gmap strings list relations sorting pretty.
From Verif Require Import F32 Graph GraphSpec GraphMore Library LibrarySpec Generators GenSpec GenBase GenMusic GenTrans GenLiteracy GenKb LibrarySample GenSample.
Local Open Scope string_scope.
Local Open Scope list_scope.

(** C41: a course for a music piece has exactly one lesson, with one exercise, for each passage; it
    depends on the lessons of the direct sub-passages. *)
Theorem C41_lessons : ∀ c p le, le ∈ music_lessons c p ↔ ∃ path q, sub_at p path q ∧ le = passage_lesson c path q.
Proof. exact music_lessons_iff. Qed.
Print Assumptions C41_lessons.
(** Passages at different paths have different lessons. *)
Theorem C41_names : ∀ c path path', passage_id c path = passage_id c path' → path = path'.
Proof. exact passage_id_inj. Qed.
Print Assumptions C41_names.
(** Every dependency is a lesson of the course. *)
Theorem C41_dependencies : ∀ c p lm es x, (lm, es) ∈ music_lessons c p → x ∈ lm_dependencies lm →
  ∃ lm' es', (lm', es') ∈ music_lessons c p ∧ lm_id lm' = x.
Proof. exact music_depends_within. Qed.
Print Assumptions C41_dependencies.
(** All identifiers of the course are distinct. *)
Theorem C41_distinct : ∀ p cm, unique_indices p → NoDup (course_ids (generate_music p cm)).
Proof. exact music_distinct. Qed.
Print Assumptions C41_distinct.
(** The lessons add no cycle: the library opens exactly if it does without them. *)
Theorem C41_opens : ∀ before after cm p, distinct_ids (before ++ generate_music p cm :: after) → ∀ o, order_ok o →
  Forall consistent before → Forall consistent after →
  is_Some (open_library o (before ++ generate_music p cm :: after)) ↔ is_Some (open_library o (before ++ bare cm :: after)).
Proof. exact music_opens. Qed.
Print Assumptions C41_opens.
Example C41_nonvacuous : let cs := [sample_course_B; generate_music sample_passage (plain_course "M"); sample_course_A []] in
  unique_indices sample_passage ∧ distinct_ids cs ∧ is_Some (open_library sample_order cs) ∧
  ids (generate_music sample_passage (plain_course "M")) = ["M::0::1::3"; "M::0::1"; "M::0::2"; "M::0"].
Proof. exact music_sample. Qed.

(** C42: a transcription course has exactly the lessons that its flags and the instruments ask for;
    the relations and the exercises of each are those of its kind. *)
Theorem C42_lessons : ∀ c is files cm oc, generate_transcription c is files cm = Some oc →
  ((λ le, lm_id le.1) <$> oc_lessons oc) = kind_id (cm_id cm) <$> kinds_of c is ∧
  ∃ ts, open_tracks [] files = Some ts ∧ ∀ lm es, (lm, es) ∈ oc_lessons oc →
    ∃ k, k ∈ kinds_of c is ∧ lm_id lm = kind_id (cm_id cm) k ∧ lm_course_id lm = cm_id cm ∧
      lm_dependencies lm = needs c (cm_id cm) k ∧ lm_superseded lm = replaces (cm_id cm) k ∧ lm_encompassed lm = [] ∧
      em_id <$> es = exercise_ids_of c (cm_id cm) (ts ++ tr_inlined c) k ∧ ∀ em, em ∈ es → em_lesson_id em = lm_id lm.
Proof. exact transcription_kinds. Qed.
Print Assumptions C42_lessons.
(** What a lesson depends on or supersedes is a lesson of the course or a lesson that is not
    advanced of a course that its configuration names. *)
Theorem C42_refers : ∀ c is files cm oc, generate_transcription c is files cm = Some oc → ∀ lm es x, (lm, es) ∈ oc_lessons oc →
  x ∈ lm_dependencies lm ∨ x ∈ lm_superseded lm →
  x ∈ ((λ le, lm_id le.1) <$> oc_lessons oc) ∨ ∃ d k, d ∈ tr_dependencies c ∧ k ∈ all_kinds is ∧ advanced k = false ∧ x = kind_id d k.
Proof. exact transcription_refers. Qed.
Print Assumptions C42_refers.
(** Such a lesson exists in every transcription course for the same instruments, whatever its flags. *)
Theorem C42_offers : ∀ c is files cm oc k, generate_transcription c is files cm = Some oc → k ∈ all_kinds is → advanced k = false →
  kind_id (cm_id cm) k ∈ ((λ le, lm_id le.1) <$> oc_lessons oc).
Proof. exact transcription_offers. Qed.
Print Assumptions C42_offers.
(** The passage directory is accepted exactly if every file can be read and no two tracks have the
    same short identifier. *)
Theorem C42_tracks : ∀ seen files ts, open_tracks seen files = Some ts ↔
  files = Some <$> ts ∧ NoDup (tk_id <$> ts) ∧ ∀ t, t ∈ ts → tk_id t ∉ seen.
Proof. exact open_tracks_iff. Qed.
Print Assumptions C42_tracks.
(** The metadata of the course: artists and albums are added to those given by the user. *)
Theorem C42_metadata : ∀ m ts k, transcription_metadata m ts !! k =
  if decide (k = "transcription_course") then Some ["true"] else
  if decide (k = "transcription_artist") then added (default ∅ m !! k) (omap tk_artist ts) else
  if decide (k = "transcription_album") then added (default ∅ m !! k) (omap tk_album ts) else default ∅ m !! k.
Proof. exact transcription_metadata_lookup. Qed.
Print Assumptions C42_metadata.
(** The identifiers are distinct, provided that the names chosen by the user are distinct and
    contain no colon, inlined passages included. *)
Theorem C42_distinct_partial : ∀ c is files cm oc ts, generate_transcription c is files cm = Some oc → open_tracks [] files = Some ts →
  good_names is (ts ++ tr_inlined c) → NoDup (course_ids oc).
Proof. exact transcription_distinct. Qed.
Print Assumptions C42_distinct_partial.
(** The lessons add no cycle, provided that the dependencies between transcription courses have none. *)
Theorem C42_opens_partial : ∀ others gens inputs is, mapM (generate_input is) inputs = Some gens → distinct_ids (others ++ gens) →
  (∀ i d, i ∈ inputs → d ∈ tr_dependencies (ti_config i) →
    (∃ j, j ∈ inputs ∧ cm_id (ti_manifest j) = d) ∨ (∀ k, kind_id d k ∉ d_id <$> declared (others ++ gens))) →
  acyclic (course_needs inputs) → ∀ o, order_ok o → Forall consistent others →
  is_Some (open_library o (others ++ gens)) ↔ is_Some (open_library o (others ++ (input_bare <$> inputs))).
Proof. exact transcription_opens. Qed.
Print Assumptions C42_opens_partial.
(** Without these conditions generating succeeds and the library does not open, although it does
    without the lessons: an instrument given twice, ... *)
Theorem C42_instruments_refuted : ∃ c is ts cm oc, generate_transcription c is (Some <$> ts) cm = Some oc ∧
  tr_dependencies c = [] ∧ tr_inlined c = [] ∧ NoDup (tk_id <$> ts) ∧
  is_Some (open_library sample_order [bare cm]) ∧ open_library sample_order [oc] = None.
Proof. exact repeated_instrument. Qed.
Print Assumptions C42_instruments_refuted.
(** ... a colon in the short identifier of a track, ... *)
Theorem C42_colon_refuted : ∃ c is ts cm oc, generate_transcription c is (Some <$> ts) cm = Some oc ∧
  tr_dependencies c = [] ∧ tr_inlined c = [] ∧ NoDup is ∧ NoDup (tk_id <$> ts) ∧
  is_Some (open_library sample_order [bare cm]) ∧ open_library sample_order [oc] = None.
Proof. exact colon_track. Qed.
Print Assumptions C42_colon_refuted.
(** ... a track that is both in the directory and inlined (unlike a track in two files, which is
    reported), ... *)
Theorem C42_inlined_refuted : ∃ c is ts cm oc, generate_transcription c is (Some <$> ts) cm = Some oc ∧
  tr_dependencies c = [] ∧ NoDup is ∧ Forall colon_free is ∧ NoDup (tk_id <$> ts) ∧ NoDup (tk_id <$> tr_inlined c) ∧
  Forall (λ t, colon_free (tk_id t)) (ts ++ tr_inlined c) ∧
  is_Some (open_library sample_order [bare cm]) ∧ open_library sample_order [oc] = None.
Proof. exact inlined_track. Qed.
Print Assumptions C42_inlined_refuted.
(** ... or a course that names itself as a dependency. *)
Theorem C42_cycle_refuted : ∃ c is ts cm oc, generate_transcription c is (Some <$> ts) cm = Some oc ∧ good_names is (ts ++ tr_inlined c) ∧
  is_Some (open_library sample_order [bare cm]) ∧ open_library sample_order [oc] = None.
Proof. exact own_dependency. Qed.
Print Assumptions C42_cycle_refuted.
Example C42_nonvacuous : ∃ gens, mapM (generate_input ["guitar"; "piano"]) sample_inputs = Some gens ∧
  distinct_ids (sample_courses_plain ++ gens) ∧
  (∀ i d, i ∈ sample_inputs → d ∈ tr_dependencies (ti_config i) →
    (∃ j, j ∈ sample_inputs ∧ cm_id (ti_manifest j) = d) ∨ (∀ k, kind_id d k ∉ d_id <$> declared (sample_courses_plain ++ gens))) ∧
  acyclic (course_needs sample_inputs) ∧ is_Some (open_library sample_order (sample_courses_plain ++ gens)) ∧
  (ids <$> gens) = [["T1::singing"; "T1::advanced_singing"; "T1::transcription::guitar"; "T1::transcription::piano";
                     "T1::advanced_transcription::guitar"; "T1::advanced_transcription::piano"];
                    ["T2::singing"; "T2::transcription::guitar"; "T2::transcription::piano"];
                    ["T4::singing"; "T4::advanced_singing"; "T4::transcription::guitar"; "T4::transcription::piano";
                     "T4::advanced_transcription::guitar"; "T4::advanced_transcription::piano"]].
Proof. exact transcription_sample. Qed.
Example C42_names_nonvacuous : ∃ oc ts, generate_transcription (sample_transcription [] [sample_track "c" [7%N]] false) ["guitar"; "piano"]
    [Some (sample_track "a" [1%N; 2%N]); Some (sample_track "b" [])] (plain_course "T") = Some oc ∧
  open_tracks [] [Some (sample_track "a" [1%N; 2%N]); Some (sample_track "b" [])] = Some ts ∧
  good_names ["guitar"; "piano"] (ts ++ [sample_track "c" [7%N]]) ∧ length (course_ids oc) = 31.
Proof. exact names_sample. Qed.

(** C43: each lesson of a literacy course is the reading lesson, or, if asked for, the dictation
    lesson of a lesson directory. *)
Theorem C43_lessons : ∀ ord, (∀ A l, ord A l ≡ₚ l) → ∀ dictation instructions dirs cm oc,
  generate_literacy ord dictation instructions dirs cm = Some oc → ∀ lm es, (lm, es) ∈ oc_lessons oc →
  ∃ s dir l, lesson_dir dirs s dir ∧ open_literacy_lesson dir = Some l ∧
    (reading_of (cm_id cm) dirs s l lm es ∨ dictation = true ∧ dictation_of (cm_id cm) dirs s l lm es).
Proof. exact literacy_lessons. Qed.
Print Assumptions C43_lessons.
(** Every lesson directory gives one of each, in any order of the directories. *)
Theorem C43_lesson_ids : ∀ ord, (∀ A l, ord A l ≡ₚ l) → ∀ dictation instructions dirs cm oc,
  generate_literacy ord dictation instructions dirs cm = Some oc →
  ∃ ss, (∀ s, s ∈ ss ↔ literacy_inside dirs s) ∧ (NoDup dirs.*1 → NoDup ss) ∧
    ((λ le, lm_id le.1) <$> oc_lessons oc) = mjoin (names_of dictation (cm_id cm) <$> ss) ∧
    course_ids oc = cm_id cm :: mjoin ((λ s, mjoin ((λ n, [n; id_of n ["exercise"]]) <$> names_of dictation (cm_id cm) s)) <$> ss).
Proof. exact literacy_lesson_ids. Qed.
Print Assumptions C43_lesson_ids.
(** All identifiers are distinct, whatever characters the names contain. *)
Theorem C43_distinct : ∀ ord, (∀ A l, ord A l ≡ₚ l) → ∀ dictation instructions dirs cm oc,
  generate_literacy ord dictation instructions dirs cm = Some oc → NoDup dirs.*1 → NoDup (course_ids oc).
Proof. exact literacy_distinct. Qed.
Print Assumptions C43_distinct.
Example C43_nonvacuous : NoDup sample_literacy.*1 ∧
  ∃ oc, generate_literacy same_order true None sample_literacy (plain_course "L") = Some oc ∧
    ids oc = ["L::words::reading"; "L::words::dictation"; "L::vowels::reading"; "L::vowels::dictation"] ∧
    ((λ le, lm_dependencies le.1) <$> oc_lessons oc) =
      [["L::vowels::reading"; "elsewhere"]; ["L::vowels::dictation"; "L::words::reading"]; []; ["L::vowels::reading"]].
Proof. exact (proj2 (proj2 (proj2 literacy_sample))). Qed.

(** C44: a recognised name of a file determines its kind and short identifier: they give the name back. *)
Theorem C44_kind_name : ∀ n f, kb_kind n = Some f → kb_name f = n.
Proof. exact kb_kind_name. Qed.
Print Assumptions C44_kind_name.
(** A file is recognised under the name it is opened by, with two exceptions, ... *)
Theorem C44_name_kind_partial : ∀ f, ¬ kb_shadowed f → kb_kind (kb_name f) = Some f.
Proof. exact kb_name_kind. Qed.
Print Assumptions C44_name_kind_partial.
(** ... the name and the description of an exercise called "lesson", which are taken for those of
    the lesson. *)
Theorem C44_name_kind_refuted : ∃ f, kb_kind (kb_name f) ≠ Some f.
Proof. exact shadowed_file. Qed.
Print Assumptions C44_name_kind_refuted.
(** The names of the files of literacy lessons have no such exceptions. *)
Theorem C44_literacy_kind_name : ∀ n f, literacy_kind n = Some f → literacy_name f = n.
Proof. exact literacy_kind_name. Qed.
Print Assumptions C44_literacy_kind_name.
Theorem C44_literacy_name_kind : ∀ f, literacy_kind (literacy_name f) = Some f.
Proof. exact literacy_name_kind. Qed.
Print Assumptions C44_literacy_name_kind.
Example C44_nonvacuous : kb_kind "x.front.md.type.json" = Some (KExerciseType "x.front.md") ∧ kb_kind "lesson.front.md" = Some (KExerciseFront "lesson") ∧
  kb_kind "lesson.name.json" = Some KLessonName ∧ kb_kind "front.md" = None.
Proof. split_and!; vm_compute; reflexivity. Qed.

(** C62 (and the last part of C44): a knowledge base has exactly one lesson for each lesson
    directory, whose settings come from its files, with identifiers of lessons of the course
    expanded and others kept, and exactly one exercise for each front of a flashcard. *)
Theorem C62_lessons : ∀ ord, (∀ A l, ord A l ≡ₚ l) → ∀ orde, (∀ x, orde x ≡ₚ x) → ∀ inlined dirs cm oc,
  NoDup dirs.*1 → (∀ n dir, (n, dir) ∈ dirs → NoDup dir.*1) → generate_kb ord orde inlined dirs cm = Some oc →
  oc_manifest oc = cm ∧
  (∃ ss, NoDup ss ∧ (∀ s, s ∈ ss ↔ kb_inside dirs s) ∧ ((λ le, lm_id le.1) <$> oc_lessons oc) = (λ s, id_of (cm_id cm) [s]) <$> ss) ∧
  ∀ lm es, (lm, es) ∈ oc_lessons oc → ∃ s dir, kb_lesson_dir dirs s dir ∧ kb_lesson_of (cm_id cm) dirs s dir lm es.
Proof. exact kb_lessons. Qed.
Print Assumptions C62_lessons.
(** All identifiers are distinct if the names of the lessons contain no colon. *)
Theorem C62_distinct_partial : ∀ ord, (∀ A l, ord A l ≡ₚ l) → ∀ orde, (∀ x, orde x ≡ₚ x) → ∀ inlined dirs cm oc,
  NoDup dirs.*1 → (∀ n dir, (n, dir) ∈ dirs → NoDup dir.*1) → generate_kb ord orde inlined dirs cm = Some oc →
  (∀ s, kb_inside dirs s → colon_free s) → NoDup (course_ids oc).
Proof. exact kb_distinct. Qed.
Print Assumptions C62_distinct_partial.
(** Otherwise an exercise and a lesson can have the same identifier, and the library does not open. *)
Theorem C62_distinct_refuted : ∃ dirs cm oc, NoDup dirs.*1 ∧ (∀ n dir, (n, dir) ∈ dirs → NoDup dir.*1) ∧
  generate_kb same_order (λ l, l) false dirs cm = Some oc ∧ is_Some (open_library sample_order [bare cm]) ∧ open_library sample_order [oc] = None.
Proof. exact kb_clash. Qed.
Print Assumptions C62_distinct_refuted.
Example C62_nonvacuous : NoDup sample_kb.*1 ∧ (∀ n dir, (n, dir) ∈ sample_kb → NoDup dir.*1) ∧
  (∀ s, kb_inside sample_kb s → colon_free s) ∧
  ∃ oc, generate_kb same_order (λ l, l) false sample_kb (plain_course "K") = Some oc ∧ ids oc = ["K::second"; "K::first"] ∧
    ((λ le, lm_superseded le.1) <$> oc_lessons oc) = [["K::first"; "elsewhere"]; []] ∧
    ((λ le : lesson_manifest * list exercise_manifest, (λ em, (em_id em, em_procedural em)) <$> le.2) <$> oc_lessons oc) =
      [[("K::second::x", false); ("K::second::y", true)]; []].
Proof. exact kb_sample. Qed.

(** C63: a literacy lesson opens exactly if all its recognised files can be read, ... *)
Theorem C63_opens_iff : ∀ dir, NoDup dir.*1 → is_Some (open_literacy_lesson dir) ↔ all_files_readable dir.
Proof. exact literacy_opens_iff. Qed.
Print Assumptions C63_opens_iff.
(** ... its examples are those of its files, sorted, each with the answer of the same short
    identifier, ... *)
Theorem C63_contents : ∀ dir l, NoDup dir.*1 → open_literacy_lesson dir = Some l → literacy_contents dir l.
Proof. exact literacy_opened_contents. Qed.
Print Assumptions C63_contents.
(** ... and the order in which the directory is listed does not matter. *)
Theorem C63_order : ∀ dir dir', NoDup dir.*1 → dir ≡ₚ dir' → open_literacy_lesson dir = open_literacy_lesson dir'.
Proof. exact literacy_order. Qed.
Print Assumptions C63_order.
Example C63_nonvacuous : NoDup sample_lesson_dir.*1 ∧ all_files_readable sample_lesson_dir ∧
  ∃ l, open_literacy_lesson sample_lesson_dir = Some l ∧ ll_dependencies l = ["vowels"; "elsewhere"] ∧
     ll_examples l = [("b", None); ("c", None); ("m", None); ("z", Some "the answer")].
Proof. exact (let '(conj a (conj b (conj c _))) := literacy_sample in conj a (conj b c)). Qed.
