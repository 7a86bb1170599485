(** Concrete batches for P_Batch.v. *)
From stdpp Require Import gmap strings list sorting.
From Coq Require Import ZArith.
From Verif Require Import F32 F32Real Graph GraphSpec GraphProofs GraphMore Library LibrarySpec LibrarySample
  Options OptionsSpec OptionsProofs Batch BatchSpec KnockProofs SelectProofs SizeProofs ShuffleProofs FinishProofs.
Local Open Scope string_scope.
Local Open Scope list_scope.

(** Choices that always take the first ones. *)
Definition first_choices : choices :=
  Choices elements (λ _ cs _ n, Some (take n cs))
    (λ s n, match n with Some n => take n (elements s) | None => elements s end) (λ _ l, l) (λ _, fzero).
Lemma first_choices_ok : choices_ok first_choices.
Proof.
  split; cbn [first_choices r_units r_draw r_sample r_shuffle].
  - intros s. split; [apply NoDup_elements|]. intros u. apply elem_of_elements.
  - intros i cs ws n _ _ Hn. exists (take n cs), (drop n cs). split; [done|]. rewrite take_drop. split; [done|].
    rewrite take_length. lia.
  - intros s [n|]; split_and!.
    + eapply NoDup_submseteq_sub; [apply sublist_submseteq, sublist_take|apply NoDup_elements].
    + intros u Hu. apply elem_of_elements. by eapply elem_of_take in Hu as (i & Hi & _); eapply elem_of_list_lookup_2.
    + rewrite take_length. done.
    + apply NoDup_elements.
    + intros u. by rewrite elem_of_elements.
    + done.
  - done.
Qed.
Definition no_libm : libm := Libm (λ x, x) (λ x, x) (λ x, x).
Definition no_edges : edges := Edges (λ _, None) (λ _, None) (λ _, None) [].
Lemma no_edges_ok : edges_ok no_edges.
Proof. split; [constructor|]. simpl. intros u [H|H]; done. Qed.
Lemma no_edges_weights : weights_ok no_edges.
Proof. intros u l v w H. done. Qed.

Definition scored (e l c : uid) (s : f32) : candidate :=
  Candidate e l c fzero s 0 fzero None false fzero fzero.
Definition same_options (o : scheduler_options) : option_copies := OptionCopies o o o.

(** Five candidates, one for each window, all end up in a batch of size one. *)
Definition one_each : list candidate :=
  [scored "a" "L" "C" fzero; scored "b" "L" "C" f_1; scored "c" "L" "C" f_3; scored "d" "L" "C" f_4; scored "e" "L" "C" f_5].
Definition small_options : scheduler_options := set_batch_size 1 default_options.
Definition batch_ids (b : option (list candidate)) : option (list uid) := (λ l : list candidate, exercise_id <$> l) <$> b.
Lemma five_in_one : verify_options small_options = true ∧ NoDup (exercise_id <$> one_each) ∧
  Forall (λ c, score_in_range (exercise_score c)) one_each ∧
  ∃ batch, finish_candidates no_libm first_choices no_edges (same_options small_options) f_1 ∅ one_each = Some batch ∧
    batch_size small_options < length batch.
Proof.
  split; [vm_compute; reflexivity|]. split; [apply (bool_decide_unpack _); vm_compute; exact I|].
  split; [repeat constructor; vm_compute; reflexivity|].
  destruct (batch_total no_libm first_choices no_edges (same_options small_options) f_1 ∅ one_each first_choices_ok no_edges_ok)
    as [batch E].
  exists batch. split; [exact E|].
  assert (H : (λ l, Nat.ltb 1 (length l)) <$> finish_candidates no_libm first_choices no_edges (same_options small_options) f_1 ∅ one_each = Some true)
    by (vm_compute; reflexivity).
  rewrite E in H. injection H as H. apply Nat.ltb_lt, H.
Qed.

(** Overlapping windows give the same exercise twice. *)
Lemma twice_in_batch : verify_options overlap_options = true ∧
  batch_ids (finish_candidates no_libm first_choices no_edges (same_options overlap_options) f_1 ∅ [scored "a" "L" "C" f_3])
  = Some ["a"; "a"].
Proof. split; vm_compute; reflexivity. Qed.

(** Two courses whose lessons encompass each other's course. *)
Definition digits : list string := ["0"; "1"; "2"; "3"; "4"; "5"; "6"; "7"; "8"; "9"].
Definition mutual_course (c d : uid) : open_course :=
  OpenCourse (CourseManifest c [] [] [] None)
    ((λ i, (LessonManifest (c +:+ "::" +:+ i) c [] [(d, f_1)] [] None,
            [ExerciseManifest (c +:+ "::" +:+ i +:+ "::x") (c +:+ "::" +:+ i) c true])) <$> digits).
Definition mutual_library : list open_course := [mutual_course "C" "D"; mutual_course "D" "C"].
Definition mutual_candidates : list candidate :=
  mjoin ((λ c, (λ i, scored (c +:+ "::" +:+ i +:+ "::x") (c +:+ "::" +:+ i) c f_5) <$> digits) <$> ["C"; "D"]).
Definition no_batch (b : option (list candidate)) : bool := match b with Some [] => true | _ => false end.
Lemma fmap_true {A} (f : A → bool) (o : option A) : f <$> o = Some true → ∃ x, o = Some x ∧ f x = true.
Proof. destruct o as [x|]; [|done]. intros [= H]. by exists x. Qed.
Lemma no_batch_true b : no_batch b = true → b = Some [].
Proof. by destruct b as [[]|]. Qed.
Lemma mutual_consistent : Forall consistent mutual_library.
Proof.
  assert (H : ∀ c d, consistent (mutual_course c d)).
  { intros c d lm ems Hle. cbn [mutual_course oc_lessons] in Hle. apply elem_of_list_fmap in Hle as (i & [= -> ->] & _).
    simpl. split; [done|]. intros em Hem. apply elem_of_list_singleton in Hem as ->. done. }
  constructor; [apply H|]. constructor; [apply H|constructor].
Qed.
Lemma all_knocked_out : ∃ lib, open_library sample_order mutual_library = Some lib ∧
  NoDup (exercise_id <$> mutual_candidates) ∧
  Forall (λ c, score_in_range (exercise_score c)) mutual_candidates ∧
  finish_candidates no_libm first_choices (graph_edges (lib_graph lib)) (same_options default_options) f_1 ∅
    mutual_candidates = Some [].
Proof.
  assert (H : (λ lib, no_batch (finish_candidates no_libm first_choices (graph_edges (lib_graph lib))
    (same_options default_options) f_1 ∅ mutual_candidates)) <$> open_library sample_order mutual_library = Some true)
    by (vm_compute; reflexivity).
  apply fmap_true in H as (lib & E & H). exists lib.
  split; [exact E|]. split; [apply (bool_decide_unpack _); vm_compute; exact I|]. split.
  - apply Forall_forall. intros c Hc. apply elem_of_list_join in Hc as (l & Hc & Hl).
    apply elem_of_list_fmap in Hl as (d & -> & _). apply elem_of_list_fmap in Hc as (i & -> & _). split; reflexivity.
  - apply no_batch_true. exact H.
Qed.

(** Ten lessons that encompass one other lesson. *)
Definition cover_ops : list gop :=
  [AddCourse "A"; AddLesson "A::0" "A"; AddExercise "A::0::x" "A::0"; AddCourse "B"] ++
  mjoin ((λ i, [AddLesson ("B::" +:+ i) "B"; AddExercise ("B::" +:+ i +:+ "::x") ("B::" +:+ i);
                AddEncompassed ("B::" +:+ i) [] [("A::0", f_1)]]) <$> digits).
Definition cover_candidates : list candidate :=
  scored "A::0::x" "A::0" "A" f_5 :: ((λ i, scored ("B::" +:+ i +:+ "::x") ("B::" +:+ i) "B" f_5) <$> digits).
Definition knocked_ids (k : option knockout) : option (list uid) := (λ k, exercise_id <$> ko_candidates k) <$> k.
Lemma cover_example : NoDup (exercise_id <$> cover_candidates) ∧
  knocked_ids (knock_out_reviews (graph_edges (grun cover_ops)) elements cover_candidates) =
    Some (exercise_id <$> drop 1 cover_candidates).
Proof. split; [apply (bool_decide_unpack _); vm_compute; exact I|vm_compute; reflexivity]. Qed.

(** A batch with exercises of two courses and the relearn pile. *)
Definition mixed_candidates : list candidate :=
  [scored "a" "L" "C" f_1; scored "b" "L" "C" f_2; scored "c" "M" "D" f_1; scored "d" "L" "C" f_1;
   scored "e" "L" "C" f_2; scored "f" "L" "C" f_5].
Lemma mixed_example : NoDup (exercise_id <$> mixed_candidates) ∧
  Forall (λ c, score_in_range (exercise_score c)) mixed_candidates ∧
  batch_ids (finish_candidates no_libm first_choices no_edges (same_options (set_batch_size 10 default_options)) f_1
    {["a"; "z"]} mixed_candidates) = Some ["f"; "z"; "e"; "a"; "b"; "d"; "c"].
Proof.
  split; [apply (bool_decide_unpack _); vm_compute; exact I|]. split; [repeat constructor; vm_compute; reflexivity|].
  vm_compute. reflexivity.
Qed.
