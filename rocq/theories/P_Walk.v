(** What a library read from the disk contains, and when it can be opened. *)
From stdpp Require Import gmap strings list.
From Verif Require Import Graph GraphSpec GraphMore Library LibrarySpec Options FileSystem FileSpec FileSample Walk WalkSpec WalkMore WalkBuild WalkTrane WalkSample.
Local Open Scope string_scope.
Local Open Scope list_scope.

(** C73: opening a library finds exactly the courses below its root, each with exactly the lessons
    in its directory and those generated, and each of those with exactly the exercises in its
    directory. *)
Theorem C73_exact : ∀ rd walk, walks walk → ∀ cwd f root cs, scan_courses rd walk cwd f root [] = Some cs → library_reads rd f (locate cwd root) nothing cs.
Proof. exact library_exact. Qed.
Print Assumptions C73_exact.
Theorem C73_complete : ∀ rd walk, walks walk → ∀ cwd f root cs, library_reads rd f (locate cwd root) nothing cs →
  ∃ cs', scan_courses rd walk cwd f root [] = Some cs' ∧ same_courses cs cs'.
Proof. exact library_complete. Qed.
Print Assumptions C73_complete.
(** It opens exactly if all of them can be read and fit together. *)
Theorem C73_opens : ∀ rd walk o, generates_consistently rd → walks walk → order_ok o → ∀ cwd f root,
  is_Some (open_from_disk rd walk o cwd f root []) ↔
  ∃ cs, library_reads rd f (locate cwd root) nothing cs ∧ distinct_ids cs ∧ valid_weights cs ∧ no_cycles cs.
Proof. exact disk_opens. Qed.
Print Assumptions C73_opens.
(** The order in which directories are listed does not matter. *)
Theorem C73_order : ∀ rd walk walk' o o', generates_consistently rd → walks walk → walks walk' → order_ok o → order_ok o' → ∀ cwd f root ignored,
  (is_Some (open_from_disk rd walk o cwd f root ignored) ↔ is_Some (open_from_disk rd walk' o' cwd f root ignored)) ∧
  ∀ lib lib', open_from_disk rd walk o cwd f root ignored = Some lib → open_from_disk rd walk' o' cwd f root ignored = Some lib' → agree lib lib'.
Proof. exact disk_order. Qed.
Print Assumptions C73_order.
Example C73_nonvacuous : walks some_walk ∧ order_ok sample_order ∧
  let rd := some_readers (Some (Markdown (Relative ["course.md"]))) (Some (Markdown (Relative ["notes"; "lesson.md"]))) None in
  generates_consistently rd ∧ scan_courses rd some_walk [] (built_disk good_course) (Given true ["lib"]) [] = Some [c_course].
Proof. exact (conj some_walks (conj sample_order_ok (conj (some_consistently _ _ _) scan_good))). Qed.

(** C74, partial: with an absolute root, the courses in ignored paths are left out and nothing
    else. *)
Theorem C74_exact_partial : ∀ rd walk, walks walk → ∀ cwd f root ignored cs, is_absolute root = true →
  scan_courses rd walk cwd f root ignored = Some cs → library_reads rd f (names root) (below_any (names root) ignored) cs.
Proof. exact ignored_exact. Qed.
Print Assumptions C74_exact_partial.
Theorem C74_complete_partial : ∀ rd walk, walks walk → ∀ cwd f root ignored cs, is_absolute root = true →
  library_reads rd f (names root) (below_any (names root) ignored) cs →
  ∃ cs', scan_courses rd walk cwd f root ignored = Some cs' ∧ same_courses cs cs'.
Proof. exact ignored_complete. Qed.
Print Assumptions C74_complete_partial.
(** C74, false: with a relative root, nothing is ever left out. *)
Theorem C74_relative : ∀ rd walk cwd f root ignored, is_absolute root = false →
  scan_courses rd walk cwd f root ignored = scan_courses rd walk cwd f root [].
Proof. exact ignored_no_effect. Qed.
Print Assumptions C74_relative.
Theorem C74_relative_refuted : ∃ rd walk cwd f root ignored cs, walks walk ∧ generates_consistently rd ∧ scan_courses rd walk cwd f root ignored = Some cs ∧
  ¬ library_reads rd f (locate cwd root) (below_any (locate cwd root) ignored) cs.
Proof. exact not_ignored. Qed.
Print Assumptions C74_relative_refuted.
Example C74_nonvacuous :
  let rd := some_readers (Some (Markdown (Relative ["course.md"]))) (Some (Markdown (Relative ["notes"; "lesson.md"]))) None in
  scan_courses rd some_walk [] (built_disk good_course) (Given true ["lib"]) [Given false ["C"]] = Some [] ∧
  scan_courses rd some_walk [] (built_disk good_course) (Given false ["lib"]) [Given false ["C"]] = Some [c_course].
Proof. exact scan_ignored. Qed.

(** C75, partial: a course that was built into a library is part of it when it is opened next, and
    the other courses are as before, if the relative paths in its manifests lead somewhere. *)
Theorem C75_round_trip_partial : ∀ rd walk, walks walk → generates_locally rd → ∀ parent b c f n n' f' cwd root cs,
  names_given b → course_plain b → apart (course_files parent b) → course_given rd b c →
  tree f → f !! (parent ++ [cb_dir b]) = None → outside_courses f parent → locate cwd root `prefix_of` parent →
  scan_courses rd walk cwd f root [] = Some cs → build_course parent b n f = Over () n' f' → course_there f' parent b →
  ∃ cs', scan_courses rd walk cwd f' root [] = Some cs' ∧ same_courses (c :: cs) cs'.
Proof. exact build_then_open. Qed.
Print Assumptions C75_round_trip_partial.
Theorem C75_opens_partial : ∀ rd walk, walks walk → generates_locally rd → generates_consistently rd → ∀ o o' parent b c f n n' f' cwd root cs lib,
  order_ok o → order_ok o' → names_given b → course_plain b → apart (course_files parent b) → course_given rd b c →
  tree f → f !! (parent ++ [cb_dir b]) = None → outside_courses f parent → locate cwd root `prefix_of` parent →
  scan_courses rd walk cwd f root [] = Some cs → build_course parent b n f = Over () n' f' → course_there f' parent b →
  open_library o (c :: cs) = Some lib → ∃ lib', open_from_disk rd walk o' cwd f' root [] = Some lib' ∧ agree lib lib'.
Proof. exact build_then_library. Qed.
Print Assumptions C75_opens_partial.
(** C75, false: otherwise it is built as well, and nothing can be opened any more. *)
Theorem C75_breaks : ∀ rd walk, walks walk → ∀ parent b c f n n' f' cwd root,
  apart (course_files parent b) → course_given rd b c →
  tree f → f !! (parent ++ [cb_dir b]) = None → locate cwd root `prefix_of` parent →
  build_course parent b n f = Over () n' f' → ¬ course_there f' parent b → scan_courses rd walk cwd f' root [] = None.
Proof. exact build_breaks. Qed.
Print Assumptions C75_breaks.
Theorem C75_breaks_refuted : ∃ rd walk parent b c f f' root, walks walk ∧ generates_locally rd ∧ generates_consistently rd ∧
  names_given b ∧ course_plain b ∧ apart (course_files parent b) ∧
  course_given rd b c ∧ tree f ∧ f !! (parent ++ [cb_dir b]) = None ∧ outside_courses f parent ∧ root `prefix_of` parent ∧
  scan_courses rd walk [] f (Given true root) [] = Some [] ∧ build_course parent b None f = Over () None f' ∧
  scan_courses rd walk [] f' (Given true root) [] = None.
Proof. exact built_not_opened. Qed.
Print Assumptions C75_breaks_refuted.
Example C75_nonvacuous :
  let rd := some_readers (Some (Markdown (Relative ["course.md"]))) (Some (Markdown (Relative ["notes"; "lesson.md"]))) None in
  scan_courses rd some_walk [] some_disk (Given true ["lib"]) [] = Some [] ∧
  build_course ["lib"] good_course None some_disk = Over () None (built_disk good_course) ∧
  names_given good_course ∧ course_plain good_course ∧ apart (course_files ["lib"] good_course) ∧ course_given rd good_course c_course ∧
  tree some_disk ∧ some_disk !! ["lib"; "C"] = None ∧ outside_courses some_disk ["lib"] ∧ course_there (built_disk good_course) ["lib"] good_course ∧
  scan_courses rd some_walk [] (built_disk good_course) (Given true ["lib"]) [] = Some [c_course].
Proof. exact built_opens. Qed.

(** C76, partial: an absolute root does not depend on the working directory, and a relative one is
    resolved against it if it is that of the process. *)
Theorem C76_absolute_partial : ∀ rd walk o decode text cwd cwd' working working' root n f, is_absolute root = true →
  open_trane rd walk o decode text cwd working root n f = open_trane rd walk o decode text cwd' working' root n f.
Proof. exact absolute_root. Qed.
Print Assumptions C76_absolute_partial.
Theorem C76_process_partial : ∀ rd walk o decode text cwd r n f,
  open_trane rd walk o decode text cwd (Given true cwd) (Given false r) n f = open_trane rd walk o decode text cwd (Given true cwd) (Given true (cwd ++ r)) n f.
Proof. exact resolved_root. Qed.
Print Assumptions C76_process_partial.
(** C76, false: otherwise a library that is there is not opened, or its user data are kept in
    another directory. *)
Theorem C76_not_found_refuted : ∃ rd walk o decode text cwd working r f, walks walk ∧ generates_consistently rd ∧ order_ok o ∧
  (∃ x f', open_trane rd walk o decode text cwd (Given true working) (Given true (working ++ r)) None f = Over x None f') ∧
  ∀ n, open_trane rd walk o decode text cwd (Given true working) (Given false r) n f = Fails f.
Proof. exact root_not_found. Qed.
Print Assumptions C76_not_found_refuted.
Theorem C76_elsewhere_refuted : ∃ rd walk o decode text cwd working r f x n' f', walks walk ∧ generates_consistently rd ∧ order_ok o ∧
  open_trane rd walk o decode text cwd (Given true working) (Given false r) None f = Over x n' f' ∧
  course_map x.1 !! "c" ≠ None ∧ f' !! trane_dir (cwd ++ r) = Some Dir ∧ f' !! trane_dir (working ++ r) = None.
Proof. exact elsewhere. Qed.
Print Assumptions C76_elsewhere_refuted.
Example C76_nonvacuous : opened_with (open_here [] (Given true []) (Given true ["lib"]) None (built_disk good_course)) "c" = true.
Proof. exact open_absolute. Qed.

(** C77, partial: after the batch size was changed in the preferences of an open library, it opens
    again with the same units and the new batch size, if that is not zero. *)
Theorem C77_reopens_partial : ∀ rd walk o decode text encode, walks walk → generates_locally rd → generates_consistently rd → order_ok o →
  ∀ cwd working root x x' n f lib options n1 f1 n2 n3 f2, decode (encode x') = Some x' → is_absolute root = true →
  open_trane rd walk o decode text cwd working root n f = Over (lib, options) n1 f1 →
  get_preferences decode (preferences_path (names root)) f1 = Some x →
  set_preferences encode (preferences_path (names root)) x' n2 f1 = Over () n3 f2 →
  pf_ignored x' = pf_ignored x → pf_batch_size x' ≠ Some 0 →
  tree f1 → (∀ s, f1 !! (trane_dir (names root) ++ ["course_manifest.json"]) ≠ Some (File s)) →
  ∀ m, ∃ lib', open_trane rd walk o decode text cwd working root m f2 = Over (lib', create_scheduler_options (pf_batch_size x')) m f2 ∧ agree lib lib'.
Proof. exact reopens. Qed.
Print Assumptions C77_reopens_partial.
(** C77, false: a batch size of zero is accepted, and the library never opens again. *)
Theorem C77_zero_refuted : ∀ rd walk o decode text encode cwd working root x n f n' f', decode (encode x) = Some x → pf_batch_size x = Some 0 →
  set_preferences encode (preferences_path (locate cwd root)) x n f = Over () n' f' →
  ∀ m r m' g, open_trane rd walk o decode text cwd working root m f' ≠ Over r m' g.
Proof. exact stuck_with_zero. Qed.
Print Assumptions C77_zero_refuted.
Example C77_nonvacuous : (∀ x, parse_preferences (write_preferences x) = Some x) ∧
  ∃ lib op, open_here [] (Given true []) (Given true ["lib"]) None (built_disk good_course) = Over (lib, op) None opened_disk ∧
  get_preferences parse_preferences (preferences_path ["lib"]) opened_disk = Some no_preferences ∧
  (∀ x, ∃ f, set_preferences write_preferences (preferences_path ["lib"]) x None opened_disk = Over () None f) ∧ tree opened_disk ∧
  ∀ s, opened_disk !! (trane_dir ["lib"] ++ ["course_manifest.json"]) ≠ Some (File s).
Proof. exact (conj preferences_codec changed). Qed.
