(** A concrete course whose writing is interrupted. *)
From stdpp Require Import gmap strings list.
From Coq Require Import Ascii.
From Verif Require Import F32 Graph Library FileSystem FileSpec FileSample Walk WalkSpec WalkSample Json Serde SerdeSpec SerdeSample Manifests ManifestSpec ManifestSample TornSpec.
Local Open Scope string_scope.
Local Open Scope list_scope.

(** The lesson and its notes are written, its exercise is not. *)
Definition torn_run : run () := build_course ["lib"] (course_builder_of show_parts read_parts (scales_plan f_0_3)) (Some 833) some_disk.
Definition torn_scan_of (f : files) : option (list open_course) := scan_courses sample_readers some_walk [] f (Given true ["lib"]) [].
Definition torn_check (r : run ()) : bool :=
  match r with
  | Interrupted f => match torn_scan_of f with Some [x] => match mjoin (oc_lessons x).*2, oc_lessons x with [], _ :: _ => true | _, _ => false end | _ => false end
  | _ => false
  end.
Lemma torn_checked : torn_check torn_run = true.
Proof. vm_compute. reflexivity. Qed.
Lemma torn_opens : ∃ c f n f' x, course_fine c ∧ files_fine ["lib"] (course_builder_of show_parts read_parts c) ∧ tree f ∧ f !! ["lib"] = Some Dir ∧
  f !! ["lib"; cp_dir c] = None ∧ outside_courses f ["lib"] ∧
  build_course ["lib"] (course_builder_of show_parts read_parts c) (Some n) f = Interrupted f' ∧
  scan_courses sample_readers some_walk [] f' (Given true ["lib"]) [] = Some [x] ∧
  mjoin (oc_lessons x).*2 = [] ∧ mjoin (oc_lessons (planned c)).*2 ≠ [].
Proof.
  pose proof torn_checked as H. unfold torn_check in H. destruct torn_run as [| |f'] eqn:E; [done|done|]. unfold torn_scan_of in H.
  destruct (scan_courses sample_readers some_walk [] f' (Given true ["lib"]) []) as [[|x [|y l]]|] eqn:Es; [done| |done|done].
  exists (scales_plan f_0_3), some_disk, 833, f', x. split; [exact (conj scales_sound scales_whole)|]. split; [apply scales_files|]. split; [apply some_tree|]. split; [apply lookup_insert|].
  split; [by apply some_none; [exists ["Scales"]|]|]. split; [apply some_outside|]. split; [exact E|]. split; [exact Es|].
  destruct (mjoin (oc_lessons x).*2); [|done]. split; [done|]. by intros ?.
Qed.
Lemma torn_example : exact_numbers show_parts read_parts ∧ walks some_walk ∧ generates_locally sample_readers ∧ course_sound (scales_plan f_0_3) ∧
  files_fine ["lib"] (course_builder_of show_parts read_parts (scales_plan f_0_3)) ∧ tree some_disk ∧ some_disk !! ["lib"] = Some Dir ∧
  some_disk !! (["lib"] ++ [cp_dir (scales_plan f_0_3)]) = None ∧ outside_courses some_disk ["lib"] ∧
  ∃ x, scan_courses sample_readers some_walk [] (final torn_run) (Given true ["lib"]) [] = Some [x].
Proof.
  split; [exact exact_parts|]. split; [apply some_walks|]. split; [by intros f f' d cm config _|]. split; [exact scales_sound|]. split; [apply scales_files|].
  split; [apply some_tree|]. split; [apply lookup_insert|]. split; [by apply some_none; [exists ["Scales"]|]|]. split; [apply some_outside|].
  pose proof torn_checked as H. unfold torn_check in H. destruct torn_run as [| |f'] eqn:E; [done|done|]. unfold torn_scan_of in H. cbn [final].
  destruct (scan_courses sample_readers some_walk [] f' (Given true ["lib"]) []) as [[|x [|y l]]|] eqn:Es; [done| |done|done]. by exists x.
Qed.
