(** Concrete data in files. *)
From stdpp Require Import gmap strings list countable.
From Coq Require Import ZArith Ascii Floats.SpecFloat.
From Flocq Require Import IEEE754.BinarySingleNaN.
From Verif Require Import F32 Graph Library Filters StrFacts FileSystem FileSpec FileSample Json JsonSpec JsonProofs Serde SerdeSpec SerdeProofs SerdeMore SerdeFiles.
Local Open Scope string_scope.
Local Open Scope list_scope.

(** ** A way to write numbers *)
Definition parts (x : f32) : option (bool + bool * positive * Z) :=
  match x with B754_zero s => Some (inl s) | B754_finite s m e _ => Some (inr (s, m, e)) | _ => None end.
Definition of_parts (p : bool + bool * positive * Z) : option f32 :=
  match p with
  | inl s => Some (B754_zero s)
  | inr (s, m, e) =>
      match Bool.bool_dec (valid_binary 24 128 (S754_finite s m e)) true with left H => Some (SF2B (S754_finite s m e) H) | right _ => None end
  end.
Definition show_parts (x : f32) : list ascii :=
  match parts x with Some p => write_nat (N.pos (encode p)) | None => [] end ++ ["."%char; "0"%char].
Definition read_parts (t : list ascii) : option f32 :=
  match read_nat (fst (span is_digit t)) with Some (N.pos p) => match decode p with Some p => of_parts p | None => None end | _ => None end.
Lemma exact_parts : exact_numbers show_parts read_parts.
Proof.
  intros x Hx. assert (∃ p, parts x = Some p ∧ of_parts p = Some x) as (q & Hq & Ho).
  { destruct x as [s|s| |s m e H]; try done; [by exists (inl s)|]. exists (inr (s, m, e)). split; [done|]. unfold of_parts.
    destruct (Bool.bool_dec _ true) as [H'|H']; [|by destruct H']. f_equal. apply (SF2B_B2SF 24 128 (B754_finite s m e H)). }
  assert (E : show_parts x = write_nat (N.pos (encode q)) ++ ["."%char; "0"%char]) by (unfold show_parts; by rewrite Hq).
  pose proof (digits_nat (N.pos (encode q))) as Hd. pose proof (read_write_nat (N.pos (encode q))) as Hr. pose proof (write_nat_nonempty (N.pos (encode q))) as Hne.
  set (w := write_nat (N.pos (encode q))) in *. assert (Hs : span is_digit (w ++ ["."%char; "0"%char]) = (w, ["."%char; "0"%char])) by (by apply span_app).
  rewrite E. split; [split|].
  - rewrite forallb_app. apply andb_true_iff. split; [|done]. revert Hd. clear. induction w as [|c w IH]; cbn; [done|].
    intros [H1 H2]%andb_true_iff. rewrite IH by done. unfold number_char. by rewrite H1.
  - unfold read_number. destruct w as [|c w'] eqn:Ew; [done|]. assert (Hc : is_digit c = true) by (cbn in Hd; by apply andb_true_iff in Hd as [? _]).
    replace (match (c :: w') ++ _ with "-"%char :: s => (true, s) | _ => (false, (c :: w') ++ ["."%char; "0"%char]) end) with (false, (c :: w') ++ ["."%char; "0"%char])
      by (clear -Hc; destruct c as [[] [] [] [] [] [] [] []]; done).
    cbv beta iota. rewrite Hs. cbv beta iota. rewrite Hr. done.
  - unfold read_parts. rewrite Hs. cbn [fst]. rewrite Hr, decode_encode. exact Ho.
Qed.

(** ** Data *)
Fixpoint nest (n : nat) : kv_filter := match n with 0 => KCourse "k" "v" Include | S n => KCombined OpAny [nest n] end.
Definition deep_saved (n : nat) : saved_filter := SavedFilter "deep" "" (FMetadata (nest n)).
Definition some_saved : saved_filter := SavedFilter "one" "a filter" (FDependencies ["a"; "b"] 3).
Fixpoint passage_nest (n : nat) : passage_data := match n with 0 => PassageData "a" "b" [] | S n => PassageData "a" "b" [(7%N, passage_nest n)] end.
Definition bare_course (g : option generator_data) : course_data := CourseData "c" "" [] [] [] None None None None None g.
Definition deep_course (n : nat) : course_data := bare_course (Some (GMusicPiece (SoundSlice "u") (passage_nest n))).
Definition some_metadata : metadata := Some {[ "key" := ["v"; "w"] ]}.
Definition weighted_lesson (w : f32) : lesson_data := LessonData "c::l" ["d"] [("e", w)] [] "c" "name" (Some "text") some_metadata (Some (InlinedAsset "x")) None.
Definition some_exercise : exercise_data :=
  ExerciseData "c::l::e" "c::l" "c" "say ""hi""" None false (EFlashcard "front.md" (Some "back.md")).
Definition some_preferences : user_preferences :=
  UserPreferences (Some (TranscriptionPreferences [Instrument "Piano" "piano"] None (Some "/x"))) (Some (Some 30)) ["a"; "b c"].
Definition some_session : study_session :=
  StudySession "s" "" [PUnit FReviewList 30; PSaved "one" 10; PNone 5].
Lemma nest_levels n : kv_levels (nest n) = n. Proof. induction n as [|n IH]; cbn; [done|]. rewrite IH. lia. Qed.
Lemma passage_nest_levels n : passage_levels (passage_nest n) = S n. Proof. induction n as [|n IH]; cbn; [done|]. rewrite IH. lia. Qed.
Lemma passage_nest_ok n : passage_ok (passage_nest n).
Proof.
  induction n as [|n IH]; cbn; [by split; [split; constructor|]|]. split; [|done]. split; [by apply NoDup_singleton|by constructor].
Qed.
Lemma some_blank : blank (String "010" ""). Proof. done. Qed.
Lemma deep_filter_lost : ∃ x, unit_filter_ok (sf_filter x) ∧ ∀ p trail, blank trail → load saved_codec (save saved_codec p x +:+ trail) = None.
Proof. exists (deep_saved 42). split; [done|]. intros p trail Ht. apply saved_again; [done|done|]. cbn [deep_saved sf_filter filter_levels]. by rewrite nest_levels. Qed.
Lemma deep_filter_locks : ∃ x, unit_filter_ok (sf_filter x) ∧ ∀ p items, x ∈ items → open_saved sf_id (load saved_codec <$> (save saved_codec p <$> items)) = None.
Proof. exists (deep_saved 42). split; [done|]. intros p items Hx. apply (filters_locked p items _ Hx); [done|]. cbn [deep_saved sf_filter filter_levels]. by rewrite nest_levels. Qed.
Lemma deep_piece_lost : ∃ x, course_ok x ∧ finite_weights (cd_encompassed x) ∧
  ∀ show read p trail, exact_numbers show read → blank trail → load (course_codec show read) (save (course_codec show read) p x +:+ trail) = None.
Proof.
  exists (deep_course 62). split; [apply passage_nest_ok|]. split; [constructor|]. intros show read p trail Hn Ht. rewrite (course_again show read p _ trail Hn); [|apply passage_nest_ok|constructor|done].
  cbn [course_levels deep_course bare_course cd_generator]. by rewrite passage_nest_levels.
Qed.
Lemma nan_lost : ∃ x, ∀ show read p trail, exact_numbers show read → blank trail → load (lesson_codec show read) (save (lesson_codec show read) p x +:+ trail) = None.
Proof. exists (weighted_lesson B754_nan). intros show read p trail Hn Ht. apply lesson_bad; [done| |done]. intros H. by inversion H. Qed.
Lemma some_files : exact_numbers show_parts read_parts ∧ blank (String "010" "") ∧ preferences_ok some_preferences ∧ session_ok some_session ∧ session_levels some_session ≤ 39 ∧
  unit_filter_ok (sf_filter some_saved) ∧ unit_filter_ok (FMetadata (nest 40)) ∧ filter_levels (FMetadata (nest 40)) = 40 ∧
  finite_weights (ld_encompassed (weighted_lesson f_0_3)) ∧ ¬ finite_weights (ld_encompassed (weighted_lesson B754_nan)) ∧
  course_ok (deep_course 61) ∧ course_levels (deep_course 61) = 62 ∧ finite_weights (cd_encompassed (deep_course 61)).
Proof.
  split; [exact exact_parts|]. split; [done|]. split; [done|]. split; [by repeat constructor; cbn; lia|]. split; [cbn; lia|]. split; [done|]. split; [done|]. split; [apply nest_levels|].
  split; [by constructor|]. split; [intros H; by inversion H|]. split; [apply passage_nest_ok|]. split; [apply passage_nest_levels|constructor].
Qed.
Lemma some_cut : starts "{" (save saved_codec false some_saved +:+ "") ∧ load saved_codec "{" = None ∧
  starts (save saved_codec true some_saved) (save saved_codec true some_saved +:+ String "010" "") ∧ load saved_codec (save saved_codec true some_saved) = Some some_saved ∧
  load saved_codec (save saved_codec true some_saved +:+ "}") = None.
Proof. split; [by eexists|]. split; [reflexivity|]. split; [by eexists|]. split; vm_compute; reflexivity. Qed.

(** ** A file written by hand *)
Definition q (s : string) : string := String """" (s +:+ String """" "").
Definition hand_text : string :=
  "{ " +:+ q "course_id" +:+ ":" +:+ q "c" +:+ ", " +:+ q "note" +:+ " : [1, 2.5e3, {}], " +:+ q "exercise_asset" +:+ ":{" +:+ q "FlashcardAsset" +:+ ":{"
  +:+ q "front_path" +:+ ":" +:+ q "front.md" +:+ "," +:+ q "back_path" +:+ ":null}}," +:+ q "lesson_id" +:+ ":" +:+ q "c::l" +:+ "," +:+ q "id" +:+ ":" +:+ q "c::l::e" +:+ "}".
Definition hand_given : list (string * json) :=
  [("course_id", JString "c"); ("note", JArray [JInt 1; JDec (list_ascii_of_string "2.5e3"); JObject []]);
   ("exercise_asset", tagged "FlashcardAsset" (JObject [("front_path", JString "front.md"); ("back_path", JNull)])); ("lesson_id", JString "c::l"); ("id", JString "c::l::e")].
Definition hand_exercise_data : exercise_data := ExerciseData "c::l::e" "c::l" "c" "" None true (EFlashcard "front.md" None).
Lemma some_hand : of_text hand_text = Value (JObject hand_given) ∧
  (∃ written, enc exercise_codec hand_exercise_data = JObject written ∧ by_hand exercise_defaults written hand_given) ∧ load exercise_codec hand_text = Some hand_exercise_data.
Proof.
  split; [vm_compute; reflexivity|]. split; [|vm_compute; reflexivity]. eexists. split; [reflexivity|]. split.
  - apply keys_nodup. reflexivity.
  - intros k v Hk. repeat (apply elem_of_cons in Hk as [[= -> ->]|Hk]); [..|by apply elem_of_nil in Hk].
    1-3, 7: left; unfold hand_given; rewrite !elem_of_cons; tauto.
    all: right; split; [by apply (bool_decide_eq_true_1 _)|]; unfold exercise_defaults; rewrite !elem_of_cons; tauto.
Qed.
