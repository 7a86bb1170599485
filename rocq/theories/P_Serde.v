(** Properties of the data in files: C81 to C83. The vocabulary is in JsonSpec.v and SerdeSpec.v. *)
From stdpp Require Import gmap strings list.
From Coq Require Import ZArith Ascii.
From Flocq Require Import IEEE754.BinarySingleNaN.
From Verif Require Import F32 Graph Library Filters FileSystem FileSpec FileSample Json JsonSpec JsonProofs JsonCut Serde SerdeSpec SerdeProofs SerdeMore SerdeFiles SerdeSample.
Local Open Scope string_scope.
Local Open Scope list_scope.

(** C81: preferences, exercises and the passages of a transcription are read again as they were
    saved, in one line or in several and with any blanks after them. *)
Theorem C81_preferences : ∀ p x trail, preferences_ok x → blank trail → load preferences_codec (save preferences_codec p x +:+ trail) = Some x.
Proof. exact preferences_again. Qed.
Print Assumptions C81_preferences.
Theorem C81_exercise : ∀ p x trail, blank trail → load exercise_codec (save exercise_codec p x +:+ trail) = Some x.
Proof. exact exercise_again. Qed.
Print Assumptions C81_exercise.
Theorem C81_passages : ∀ p x trail, keys_ok (pd_intervals x) → blank trail → load passages_codec (save passages_codec p x +:+ trail) = Some x.
Proof. exact passages_again. Qed.
Print Assumptions C81_passages.
(** C81, partial: lessons and courses with finite weights, where the passages of a piece of music
    are at most 62 levels deep, and filters and sessions that are less deep. *)
Theorem C81_lesson_partial : ∀ show read p x trail, exact_numbers show read → finite_weights (ld_encompassed x) → blank trail →
  load (lesson_codec show read) (save (lesson_codec show read) p x +:+ trail) = Some x.
Proof. exact lesson_again. Qed.
Print Assumptions C81_lesson_partial.
Theorem C81_course_partial : ∀ show read p x trail, exact_numbers show read → course_ok x → finite_weights (cd_encompassed x) → blank trail →
  load (course_codec show read) (save (course_codec show read) p x +:+ trail) = if (course_levels x <=? 62)%nat then Some x else None.
Proof. exact course_again. Qed.
Print Assumptions C81_course_partial.
Theorem C81_filter_partial : ∀ p x trail, unit_filter_ok (sf_filter x) → blank trail →
  (filter_levels (sf_filter x) ≤ 40 → load saved_codec (save saved_codec p x +:+ trail) = Some x) ∧
  (42 ≤ filter_levels (sf_filter x) → load saved_codec (save saved_codec p x +:+ trail) = None).
Proof. exact saved_again. Qed.
Print Assumptions C81_filter_partial.
Theorem C81_session_partial : ∀ p x trail, session_ok x → blank trail →
  (session_levels x ≤ 39 → load session_codec (save session_codec p x +:+ trail) = Some x) ∧
  (41 ≤ session_levels x → load session_codec (save session_codec p x +:+ trail) = None).
Proof. exact session_again. Qed.
Print Assumptions C81_session_partial.
(** A directory of saved filters with different identifiers opens, and each is found. *)
Theorem C81_filters_partial : ∀ p items, Forall (λ f, unit_filter_ok (sf_filter f) ∧ filter_levels (sf_filter f) ≤ 40) items → NoDup (sf_id <$> items) →
  ∃ m, open_saved sf_id (load saved_codec <$> (save saved_codec p <$> items)) = Some m ∧ ∀ f, f ∈ items → get_saved m (sf_id f) = Some f.
Proof. exact filters_open. Qed.
Print Assumptions C81_filters_partial.
Theorem C81_sessions_partial : ∀ p items, Forall (λ s, session_ok s ∧ session_levels s ≤ 39) items → NoDup (ss_id <$> items) →
  ∃ m, open_saved ss_id (load session_codec <$> (save session_codec p <$> items)) = Some m ∧ ∀ s, s ∈ items → get_saved m (ss_id s) = Some s.
Proof. exact sessions_open. Qed.
Print Assumptions C81_sessions_partial.
(** C81, false: a filter that is too deep is saved and cannot be read, and then no filter of its
    directory can. *)
Theorem C81_deep_filter_refuted : ∃ x, unit_filter_ok (sf_filter x) ∧ ∀ p trail, blank trail → load saved_codec (save saved_codec p x +:+ trail) = None.
Proof. exact deep_filter_lost. Qed.
Print Assumptions C81_deep_filter_refuted.
Theorem C81_locked_refuted : ∃ x, unit_filter_ok (sf_filter x) ∧
  ∀ p items, x ∈ items → open_saved sf_id (load saved_codec <$> (save saved_codec p <$> items)) = None.
Proof. exact deep_filter_locks. Qed.
Print Assumptions C81_locked_refuted.
(** The same for the passages of a piece of music, and for a weight that is not a number. *)
Theorem C81_deep_piece_refuted : ∃ x, course_ok x ∧ finite_weights (cd_encompassed x) ∧
  ∀ show read p trail, exact_numbers show read → blank trail → load (course_codec show read) (save (course_codec show read) p x +:+ trail) = None.
Proof. exact deep_piece_lost. Qed.
Print Assumptions C81_deep_piece_refuted.
Theorem C81_weight_refuted : ∃ x, ∀ show read p trail, exact_numbers show read → blank trail →
  load (lesson_codec show read) (save (lesson_codec show read) p x +:+ trail) = None.
Proof. exact nan_lost. Qed.
Print Assumptions C81_weight_refuted.
(** All weights have to be finite. *)
Theorem C81_lesson_only : ∀ show read p x trail, exact_numbers show read → ¬ finite_weights (ld_encompassed x) → blank trail →
  load (lesson_codec show read) (save (lesson_codec show read) p x +:+ trail) = None.
Proof. exact lesson_bad. Qed.
Print Assumptions C81_lesson_only.
Theorem C81_course_only : ∀ show read p x trail, exact_numbers show read → course_ok x → ¬ finite_weights (cd_encompassed x) → blank trail →
  load (course_codec show read) (save (course_codec show read) p x +:+ trail) = None.
Proof. exact course_bad. Qed.
Print Assumptions C81_course_only.
(** Every JSON value that fits is read again if it is not too deep, and reading always ends. *)
Theorem C81_json : ∀ p j trail, json_ok j → blank trail → of_text (to_text p j +:+ trail) = if (depth j <? 128)%nat then Value j else NotJson.
Proof. exact text_round_trip. Qed.
Print Assumptions C81_json.
Theorem C81_ends : ∀ text, of_text text ≠ TextOutOfFuel.
Proof. exact text_fuel. Qed.
Print Assumptions C81_ends.
Example C81_nonvacuous : exact_numbers show_parts read_parts ∧ blank (String "010" "") ∧ preferences_ok some_preferences ∧ session_ok some_session ∧ session_levels some_session ≤ 39 ∧
  unit_filter_ok (sf_filter some_saved) ∧ unit_filter_ok (FMetadata (nest 40)) ∧ filter_levels (FMetadata (nest 40)) = 40 ∧
  finite_weights (ld_encompassed (weighted_lesson f_0_3)) ∧ ¬ finite_weights (ld_encompassed (weighted_lesson B754_nan)) ∧
  course_ok (deep_course 61) ∧ course_levels (deep_course 61) = 62 ∧ finite_weights (cd_encompassed (deep_course 61)).
Proof. exact some_files. Qed.

(** C82: a file that was cut off anywhere is read as what was saved or not at all. *)
Theorem C82_preferences : ∀ p x, preferences_ok x → never_mistaken preferences_codec p x.
Proof. exact preferences_cut. Qed.
Print Assumptions C82_preferences.
Theorem C82_exercise : ∀ p x, never_mistaken exercise_codec p x.
Proof. exact exercise_cut. Qed.
Print Assumptions C82_exercise.
Theorem C82_lesson : ∀ show read p x, exact_numbers show read → finite_weights (ld_encompassed x) → never_mistaken (lesson_codec show read) p x.
Proof. exact lesson_cut. Qed.
Print Assumptions C82_lesson.
Theorem C82_course : ∀ show read p x, exact_numbers show read → course_ok x → finite_weights (cd_encompassed x) → never_mistaken (course_codec show read) p x.
Proof. exact course_cut. Qed.
Print Assumptions C82_course.
Theorem C82_filter : ∀ p x, unit_filter_ok (sf_filter x) → never_mistaken saved_codec p x.
Proof. exact saved_cut. Qed.
Print Assumptions C82_filter.
Theorem C82_session : ∀ p x, session_ok x → never_mistaken session_codec p x.
Proof. exact session_cut. Qed.
Print Assumptions C82_session.
Theorem C82_passages : ∀ p x, keys_ok (pd_intervals x) → never_mistaken passages_codec p x.
Proof. exact passages_cut. Qed.
Print Assumptions C82_passages.
(** Preferences that are set are read next; when this is interrupted, the old ones, the new ones
    or none are. *)
Theorem C82_set : ∀ p x n f a n' f', preferences_ok x → set_preferences (save preferences_codec true) p x n f = Over a n' f' →
  get_preferences (load preferences_codec) p f' = Some x ∧ ∀ q, q ≠ p → f' !! q = f !! q.
Proof. exact preferences_kept. Qed.
Print Assumptions C82_set.
Theorem C82_torn : ∀ p x n f, preferences_ok x →
  let get := get_preferences (load preferences_codec) p in let g := final (set_preferences (save preferences_codec true) p x n f) in
  get g = get f ∨ get g = Some x ∨ get g = None.
Proof. exact preferences_torn. Qed.
Print Assumptions C82_torn.
(** A new library whose opening is interrupted opens with the default preferences or not at all. *)
Theorem C82_new : ∀ root n f, config_free root f → f !! preferences_path root = None →
  let g := final (init_config root default_text n f) in let reopen := open_config (load preferences_codec) root default_text in
  reopen None g = reopen None f ∨
  ∃ s, starts s default_text ∧ s ≠ default_text ∧ g !! preferences_path root = Some (File s) ∧
    ((load preferences_codec s = Some default_preferences ∧ ∀ m, reopen m g = Over default_preferences m g) ∨ (load preferences_codec s = None ∧ ∀ m, reopen m g = Fails g)).
Proof. exact default_crash. Qed.
Print Assumptions C82_new.
Example C82_nonvacuous : starts "{" (save saved_codec false some_saved +:+ "") ∧ load saved_codec "{" = None ∧
  starts (save saved_codec true some_saved) (save saved_codec true some_saved +:+ String "010" "") ∧ load saved_codec (save saved_codec true some_saved) = Some some_saved ∧
  load saved_codec (save saved_codec true some_saved +:+ "}") = None.
Proof. exact some_cut. Qed.
Example C82_new_nonvacuous : config_free ["lib"] some_disk ∧ some_disk !! preferences_path ["lib"] = None.
Proof. exact some_free. Qed.

(** C83: in a file written by hand the fields are in any order, fields with a default can be left
    out and further ones are ignored. *)
Theorem C83_exercise : ∀ text x written given, of_text text = Value (JObject given) → enc exercise_codec x = JObject written →
  by_hand exercise_defaults written given → load exercise_codec text = Some x.
Proof. exact exercise_by_hand. Qed.
Print Assumptions C83_exercise.
Theorem C83_lesson : ∀ show read text x written given, exact_numbers show read → finite_weights (ld_encompassed x) → of_text text = Value (JObject given) →
  enc (lesson_codec show read) x = JObject written → by_hand lesson_defaults written given → load (lesson_codec show read) text = Some x.
Proof. exact lesson_by_hand. Qed.
Print Assumptions C83_lesson.
Theorem C83_course : ∀ show read text x written given, exact_numbers show read → course_ok x ∧ finite_weights (cd_encompassed x) → of_text text = Value (JObject given) →
  enc (course_codec show read) x = JObject written → by_hand course_defaults written given → load (course_codec show read) text = Some x.
Proof. exact course_by_hand. Qed.
Print Assumptions C83_course.
Theorem C83_preferences : ∀ text x written given, preferences_ok x → of_text text = Value (JObject given) → enc preferences_codec x = JObject written →
  by_hand preferences_defaults written given → load preferences_codec text = Some x.
Proof. exact preferences_by_hand. Qed.
Print Assumptions C83_preferences.
Theorem C83_session : ∀ text x written given, session_ok x → of_text text = Value (JObject given) → enc session_codec x = JObject written →
  by_hand session_defaults written given → load session_codec text = Some x.
Proof. exact session_by_hand. Qed.
Print Assumptions C83_session.
(** Without one of the other fields the file is not read. *)
Theorem C83_exercise_needs : ∀ text given k, of_text text = Value (JObject given) → k ∈ exercise_needed → k ∉ given.*1 → load exercise_codec text = None.
Proof. exact exercise_missing. Qed.
Print Assumptions C83_exercise_needs.
Theorem C83_lesson_needs : ∀ show read text given k, of_text text = Value (JObject given) → k ∈ lesson_needed → k ∉ given.*1 → load (lesson_codec show read) text = None.
Proof. exact lesson_missing. Qed.
Print Assumptions C83_lesson_needs.
Theorem C83_course_needs : ∀ show read text given k, of_text text = Value (JObject given) → k ∈ course_needed → k ∉ given.*1 → load (course_codec show read) text = None.
Proof. exact course_missing. Qed.
Print Assumptions C83_course_needs.
Theorem C83_session_needs : ∀ text given k, of_text text = Value (JObject given) → k ∈ session_needed → k ∉ given.*1 → load session_codec text = None.
Proof. exact session_missing. Qed.
Print Assumptions C83_session_needs.
Theorem C83_filter_needs : ∀ text given k, of_text text = Value (JObject given) → k ∈ saved_needed → k ∉ given.*1 → load saved_codec text = None.
Proof. exact saved_missing. Qed.
Print Assumptions C83_filter_needs.
(** With one of its fields given twice it is not read. *)
Theorem C83_exercise_once : ∀ text k l1 v l2 w l3, of_text text = Value (JObject (l1 ++ (k, v) :: l2 ++ (k, w) :: l3)) → k ∈ exercise_names → load exercise_codec text = None.
Proof. exact exercise_twice. Qed.
Print Assumptions C83_exercise_once.
Theorem C83_lesson_once : ∀ show read text k l1 v l2 w l3, of_text text = Value (JObject (l1 ++ (k, v) :: l2 ++ (k, w) :: l3)) → k ∈ lesson_names →
  load (lesson_codec show read) text = None.
Proof. exact lesson_twice. Qed.
Print Assumptions C83_lesson_once.
Theorem C83_course_once : ∀ show read text k l1 v l2 w l3, of_text text = Value (JObject (l1 ++ (k, v) :: l2 ++ (k, w) :: l3)) → k ∈ course_names →
  load (course_codec show read) text = None.
Proof. exact course_twice. Qed.
Print Assumptions C83_course_once.
Theorem C83_preferences_once : ∀ text k l1 v l2 w l3, of_text text = Value (JObject (l1 ++ (k, v) :: l2 ++ (k, w) :: l3)) → k ∈ preferences_names → load preferences_codec text = None.
Proof. exact preferences_twice. Qed.
Print Assumptions C83_preferences_once.
Theorem C83_session_once : ∀ text k l1 v l2 w l3, of_text text = Value (JObject (l1 ++ (k, v) :: l2 ++ (k, w) :: l3)) → k ∈ session_names → load session_codec text = None.
Proof. exact session_twice. Qed.
Print Assumptions C83_session_once.
Theorem C83_filter_once : ∀ text k l1 v l2 w l3, of_text text = Value (JObject (l1 ++ (k, v) :: l2 ++ (k, w) :: l3)) → k ∈ saved_names → load saved_codec text = None.
Proof. exact saved_twice. Qed.
Print Assumptions C83_filter_once.
Example C83_nonvacuous : of_text hand_text = Value (JObject hand_given) ∧
  (∃ written, enc exercise_codec hand_exercise_data = JObject written ∧ by_hand exercise_defaults written hand_given) ∧ load exercise_codec hand_text = Some hand_exercise_data.
Proof. exact some_hand. Qed.
