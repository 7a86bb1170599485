(** Concrete courses that are written and read again. *)
From stdpp Require Import gmap strings list.
From Coq Require Import Ascii.
From Flocq Require Import IEEE754.BinarySingleNaN.
From Verif Require Import F32 Graph GraphSpec GraphMore Library LibrarySpec LibraryQueries LibrarySample Options FileSystem FileSpec FileProofs BuildProofs FileSample Walk WalkSpec WalkProofs WalkMore WalkBuild WalkSample Json Serde SerdeSpec SerdeSample Manifests ManifestSpec ManifestProofs ManifestMore.
Local Open Scope string_scope.
Local Open Scope list_scope.

Definition no_generator (f : files) (d : path) (cm : course_manifest) (config : string) : option (list (lesson_manifest * list exercise_manifest) * metadata) := None.
Notation sample_readers := (json_readers show_parts read_parts no_generator) (only parsing).
Definition front : asset_builder := AssetBuilder ["front.md"] "What is it?".
Definition notes : asset_builder := AssetBuilder ["notes"; "intro.md"] "Notes".
(** A course with a lesson and an exercise, and one that depends on it. *)
Definition scales_exercise : exercise_data := ExerciseData "scales::one::a" "scales::one" "scales" "say ""hi""" None false (EFlashcard "./front.md" None).
Definition scales_lesson (w : f32) : lesson_data :=
  LessonData "scales::one" [] [("arpeggios", w)] [] "scales" "One" (Some "text") some_metadata (Some (MarkdownAsset "notes/intro.md")) (Some (MarkdownAsset "/usr/help.md")).
Definition scales_plan (w : f32) : course_plan :=
  CoursePlan "Scales" (CourseData "scales" "Scales" [] [] [] None (Some ["someone"]) some_metadata None (Some (InlinedAsset "x")) None)
    [LessonPlan "one" (scales_lesson w) [ExercisePlan "a" scales_exercise [front]] [notes]] [].
Definition chords_plan : course_plan := CoursePlan "Chords" (CourseData "chords" "" ["scales"] [("scales", f_0_3)] [] None None None None None None) [] [].
Definition two_plans : list course_plan := [scales_plan f_0_3; chords_plan].

Lemma scales_files w : files_fine ["lib"] (course_builder_of show_parts read_parts (scales_plan w)).
Proof.
  assert (∀ n, n = "intro.md" ∨ n = "front.md" → ¬ reserved n) as R by (intros n [->| ->] [?|[?|?]]; done).
  split; [|split].
  - split; [by intros ? ?%elem_of_nil|]. intros l ->%elem_of_list_singleton. split; [by intros a ->%elem_of_list_singleton|].
    intros e ->%elem_of_list_singleton a ->%elem_of_list_singleton. done.
  - split; [by intros ? ? ?%elem_of_nil|]. intros l ->%elem_of_list_singleton. split; [intros a n ->%elem_of_list_singleton [= <-]; auto|].
    intros e ->%elem_of_list_singleton a n ->%elem_of_list_singleton [= <-]. auto.
  - apply apart_checked. unfold course_files, course_builder_of, lesson_builder_of, exercise_builder_of, lesson_files, exercise_files. cbv zeta.
    cbn [fmap list_fmap cb_dir cb_manifest cb_assets cb_lessons lb_dir lb_manifest lb_assets lb_exercises eb_dir eb_manifest eb_assets ut_json et_json
      cp_dir cp_data cp_lessons cp_assets lp_dir lp_data lp_exercises lp_assets xp_dir xp_data xp_assets scales_plan].
    generalize (save (course_codec show_parts read_parts) true (cp_data (scales_plan w)) +:+ line_end).
    generalize (save (lesson_codec show_parts read_parts) true (scales_lesson w) +:+ line_end).
    generalize (save exercise_codec true scales_exercise +:+ line_end). intros t1 t2 t3. vm_compute. reflexivity.
Qed.
Lemma chords_files : files_fine ["lib"] (course_builder_of show_parts read_parts chords_plan).
Proof.
  split; [|split].
  - split; [by intros ? ?%elem_of_nil|]. by intros l ?%elem_of_nil.
  - split; [by intros ? ? ?%elem_of_nil|]. by intros l ?%elem_of_nil.
  - intros i j v w Hi Hj Hne. destruct i as [|i]; [|done]. destruct j as [|j]; [|done]. done.
Qed.
Lemma scales_sound : course_sound (scales_plan f_0_3).
Proof.
  split; [done|]. split; [done|]. split; [constructor|]. constructor; [|constructor]. split; [done|]. split; [done|]. split; [by constructor|].
  constructor; [|constructor]. split; [done|]. by split.
Qed.
Lemma scales_whole : course_whole (scales_plan f_0_3).
Proof.
  split; [by intros a [= <-]|]. split; [done|]. constructor; [|constructor]. split; [intros a [= <-]; by left|]. split; [intros a [= <-]; right; by left|].
  constructor; [|constructor]. split; [right; by left|done].
Qed.
Lemma chords_fine : course_fine chords_plan.
Proof.
  split; [|split; [done|split; [done|constructor]]]. split; [done|]. split; [done|]. split; [by constructor|constructor].
Qed.
Lemma two_plans_fine : Forall (λ c, course_fine c ∧ files_fine ["lib"] (course_builder_of show_parts read_parts c)) two_plans.
Proof. constructor; [split; [exact (conj scales_sound scales_whole)|apply scales_files]|]. constructor; [split; [exact chords_fine|exact chords_files]|constructor]. Qed.

Definition plans_check (o : option library) : bool :=
  match o with
  | Some lib => match get_dependencies (lib_graph lib) "chords" with Some s => bool_decide ("scales" ∈ elements s) | None => false end
  | None => false
  end.
Lemma plans_checked : plans_check (open_library sample_order (planned <$> two_plans)) = true.
Proof. vm_compute. reflexivity. Qed.
Lemma plans_shown : exact_numbers show_parts read_parts ∧ walks some_walk ∧ generates_locally sample_readers ∧ generates_consistently sample_readers ∧
  tree some_disk ∧ some_disk !! ["lib"] = Some Dir ∧ (∀ p, above ["lib"] p → some_disk !! p = None) ∧ outside_courses some_disk ["lib"] ∧
  Forall (λ c, course_fine c ∧ files_fine ["lib"] (course_builder_of show_parts read_parts c)) two_plans ∧ NoDup (cp_dir <$> two_plans) ∧
  order_ok sample_order ∧ (∃ lib, open_library sample_order (planned <$> two_plans) = Some lib ∧ depends_on (lib_graph lib) "chords" "scales").
Proof.
  split; [exact exact_parts|]. split; [apply some_walks|]. split; [by intros f f' d cm config _|]. split; [by intros f d cm config ls m|].
  split; [apply some_tree|]. split; [apply lookup_insert|]. split; [intros p [H1 H2]; by apply some_none|]. split; [apply some_outside|].
  split; [exact two_plans_fine|]. split; [repeat constructor; by intros ?%elem_of_list_singleton || by intros ?%elem_of_nil|]. split; [exact sample_order_ok|].
  pose proof plans_checked as H. unfold plans_check in H. destruct (open_library sample_order (planned <$> two_plans)) as [lib|]; [|done].
  exists lib. split; [done|]. unfold depends_on. destruct (get_dependencies (lib_graph lib) "chords") as [s|]; [|done].
  by apply bool_decide_eq_true, elem_of_elements in H.
Qed.

(** A weight that is not a number is written, and then nothing can be opened. *)
Lemma nan_unreadable : ∃ c f f', files_fine ["lib"] (course_builder_of show_parts read_parts c) ∧ tree f ∧ scan_courses sample_readers some_walk [] f (Given true ["lib"]) [] = Some [] ∧
  build_course ["lib"] (course_builder_of show_parts read_parts c) None f = Over () None f' ∧ scan_courses sample_readers some_walk [] f' (Given true ["lib"]) [] = None.
Proof.
  exists (scales_plan B754_nan), some_disk. pose proof (scales_files B754_nan) as HF.
  destruct (course_builds ["lib"] (course_builder_of show_parts read_parts (scales_plan B754_nan)) some_disk) as [f' Hb];
    [apply some_tree|apply lookup_insert|by apply some_none; [exists ["Scales"]|]|apply HF|apply HF|].
  exists f'. split; [done|]. split; [apply some_tree|]. split; [|split; [done|]].
  - destruct (library_complete sample_readers some_walk some_walks [] some_disk (Given true ["lib"]) []) as (cs & E & k & Hk & H2).
    { apply nothing_read. intros p [H1 H2]. by apply some_none. }
    apply Permutation_nil_l in Hk as ->. by inversion H2; subst.
  - eapply (unreadable show_parts read_parts no_generator exact_parts some_walk some_walks ["lib"] (scales_plan B754_nan)); [exact HF|apply some_tree|by apply some_none; [exists ["Scales"]|]|reflexivity|exact Hb|done|].
    right. right. split; [by left|]. intros H. apply Forall_cons in H as [H _]. discriminate H.
Qed.
