(** Properties of courses that are written as JSON and read again: C105. The vocabulary is in ManifestSpec.v. *)
From stdpp Require Import gmap strings list.
From Coq Require Import Ascii.
From Verif Require Import F32 Graph GraphSpec GraphMore Library LibrarySpec Options FileSystem FileSpec FileSample Walk WalkSpec WalkSample Json Serde SerdeSpec SerdeSample Manifests ManifestSpec ManifestProofs ManifestMore ManifestSample.
Local Open Scope string_scope.
Local Open Scope list_scope.

(** C105, partial: any number of courses without generators are written into an empty library, and
    the library that is opened then has these courses and no others, with the lessons, exercises,
    dependencies, weights and metadata that their manifests were given. *)
Theorem C105_round_trip_partial : ∀ show read gen, exact_numbers show read → generates_locally (json_readers show read gen) → ∀ walk, walks walk →
  ∀ root plans cwd g f, tree f → f !! root = Some Dir → (∀ p, above root p → f !! p = None) → outside_courses f root →
  Forall (λ c, course_fine c ∧ files_fine root (course_builder_of show read c)) plans → NoDup (cp_dir <$> plans) → locate cwd g = root →
  ∃ f', each (build_course root) (course_builder_of show read <$> plans) None f = Over () None f' ∧
    (∃ cs, scan_courses (json_readers show read gen) walk cwd f' g [] = Some cs ∧ same_courses (planned <$> plans) cs) ∧
    (generates_consistently (json_readers show read gen) → ∀ o o' lib, order_ok o → order_ok o' → open_library o (planned <$> plans) = Some lib →
      ∃ lib', open_from_disk (json_readers show read gen) walk o' cwd f' g [] = Some lib' ∧ agree lib lib').
Proof. exact all_opened. Qed.
Print Assumptions C105_round_trip_partial.
(** What is missing: if a weight is not a number, or passages of music are too deep, the course is
    written and nothing can be opened any more. *)
Theorem C105_unreadable : ∀ show read gen, exact_numbers show read → ∀ walk, walks walk → ∀ parent c l f n n' f' cwd g,
  files_fine parent (course_builder_of show read c) → tree f → f !! (parent ++ [cp_dir c]) = None → locate cwd g `prefix_of` parent →
  build_course parent (course_builder_of show read c) n f = Over () n' f' → course_ok (cp_data c) →
  (¬ finite_weights (cd_encompassed (cp_data c)) ∨ 62 < course_levels (cp_data c) ∨ (l ∈ cp_lessons c ∧ ¬ finite_weights (ld_encompassed (lp_data l)))) →
  scan_courses (json_readers show read gen) walk cwd f' g [] = None.
Proof. exact unreadable. Qed.
Print Assumptions C105_unreadable.
(** The same if a relative path in a manifest leads nowhere. *)
Theorem C105_missing : ∀ show read gen, exact_numbers show read → ∀ walk, walks walk → ∀ parent c f n n' f' cwd g dir t,
  course_sound c → files_fine parent (course_builder_of show read c) → tree f → f !! (parent ++ [cp_dir c]) = None → locate cwd g `prefix_of` parent →
  build_course parent (course_builder_of show read c) n f = Over () n' f' → mentions parent c dir t → is_rooted t = false → f' !! (dir ++ path_of t) = None →
  scan_courses (json_readers show read gen) walk cwd f' g [] = None.
Proof. exact missing_file. Qed.
Print Assumptions C105_missing.
Theorem C105_weight_refuted : ∃ c f f', files_fine ["lib"] (course_builder_of show_parts read_parts c) ∧ tree f ∧
  scan_courses (json_readers show_parts read_parts no_generator) some_walk [] f (Given true ["lib"]) [] = Some [] ∧
  build_course ["lib"] (course_builder_of show_parts read_parts c) None f = Over () None f' ∧
  scan_courses (json_readers show_parts read_parts no_generator) some_walk [] f' (Given true ["lib"]) [] = None.
Proof. exact nan_unreadable. Qed.
Print Assumptions C105_weight_refuted.
Example C105_nonvacuous : exact_numbers show_parts read_parts ∧ walks some_walk ∧
  generates_locally (json_readers show_parts read_parts no_generator) ∧ generates_consistently (json_readers show_parts read_parts no_generator) ∧
  tree some_disk ∧ some_disk !! ["lib"] = Some Dir ∧ (∀ p, above ["lib"] p → some_disk !! p = None) ∧ outside_courses some_disk ["lib"] ∧
  Forall (λ c, course_fine c ∧ files_fine ["lib"] (course_builder_of show_parts read_parts c)) two_plans ∧ NoDup (cp_dir <$> two_plans) ∧
  order_ok sample_order ∧ (∃ lib, open_library sample_order (planned <$> two_plans) = Some lib ∧ depends_on (lib_graph lib) "chords" "scales").
Proof. exact plans_shown. Qed.
