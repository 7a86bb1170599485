(** Properties of a course whose writing is interrupted: C106. The vocabulary is in ManifestSpec.v and TornSpec.v. *)
From stdpp Require Import gmap strings list.
From Coq Require Import Ascii.
From Verif Require Import F32 Graph Library LibrarySpec FileSystem FileSpec FileSample Walk WalkSpec WalkSample Json Serde SerdeSpec SerdeSample Manifests ManifestSpec ManifestSample TornSpec TornProofs TornSample.
Local Open Scope string_scope.
Local Open Scope list_scope.

(** C106, partial: wherever the writing of a course stops, if the library opens, then it opened
    before, the other courses are as they were, and of the new one there is nothing or some of its
    lessons with some of their exercises, each as it was given. *)
Theorem C106_part_partial : ∀ show read gen, exact_numbers show read → ∀ parent c n f, course_sound c → files_fine parent (course_builder_of show read c) →
  tree f → f !! parent = Some Dir → f !! (parent ++ [cp_dir c]) = None →
  ∀ walk, walks walk → generates_locally (json_readers show read gen) → outside_courses f parent →
  ∀ cwd g cs', scan_courses (json_readers show read gen) walk cwd (final (build_course parent (course_builder_of show read c) n f)) g [] = Some cs' →
  ∃ cs old new, scan_courses (json_readers show read gen) walk cwd f g [] = Some cs ∧ same_courses old cs ∧ cs' ≡ₚ new ++ old ∧
    (new = [] ∨ ∃ x, new = [x] ∧ part_course x (planned c)).
Proof. exact torn_scan. Qed.
Print Assumptions C106_part_partial.
(** C106, false: it need not be all or nothing. The library opens with a lesson whose exercise was
    not written, without an error. *)
Theorem C106_whole_refuted : ∃ c f n f' x, course_fine c ∧ files_fine ["lib"] (course_builder_of show_parts read_parts c) ∧ tree f ∧ f !! ["lib"] = Some Dir ∧
  f !! ["lib"; cp_dir c] = None ∧ outside_courses f ["lib"] ∧
  build_course ["lib"] (course_builder_of show_parts read_parts c) (Some n) f = Interrupted f' ∧
  scan_courses (json_readers show_parts read_parts no_generator) some_walk [] f' (Given true ["lib"]) [] = Some [x] ∧
  mjoin (oc_lessons x).*2 = [] ∧ mjoin (oc_lessons (planned c)).*2 ≠ [].
Proof. exact torn_opens. Qed.
Print Assumptions C106_whole_refuted.
Example C106_nonvacuous : exact_numbers show_parts read_parts ∧ walks some_walk ∧ generates_locally (json_readers show_parts read_parts no_generator) ∧
  course_sound (scales_plan f_0_3) ∧ files_fine ["lib"] (course_builder_of show_parts read_parts (scales_plan f_0_3)) ∧ tree some_disk ∧ some_disk !! ["lib"] = Some Dir ∧
  some_disk !! (["lib"] ++ [cp_dir (scales_plan f_0_3)]) = None ∧ outside_courses some_disk ["lib"] ∧
  ∃ x, scan_courses (json_readers show_parts read_parts no_generator) some_walk [] (final torn_run) (Given true ["lib"]) [] = Some [x].
Proof. exact torn_example. Qed.
