(** Property C107: the option for dictation of a literacy course; and of C63, which courses can be read. *)
From stdpp Require Import gmap strings list.
From Verif Require Import F32 Graph GraphSpec GraphMore Library LibrarySpec LibrarySample Generators GenSpec GenSample DictationSpec DictationProofs DictationSample.
Local Open Scope string_scope.
Local Open Scope list_scope.

(** C107: the files of a course can be read with dictation exactly if they can without. *)
Theorem C107_generates : ∀ ord instructions dirs cm,
  is_Some (generate_literacy ord true instructions dirs cm) ↔ is_Some (generate_literacy ord false instructions dirs cm).
Proof. exact dictation_generates. Qed.
Print Assumptions C107_generates.
(** A library with the dictation lessons opens exactly if it does without them, provided that no
    manifest mentions a dictation lesson by its full name. *)
Theorem C107_opens_partial : ∀ ord, (∀ A l, ord A l ≡ₚ l) → ∀ instructions dirs cm short long before after,
  generate_literacy ord false instructions dirs cm = Some short → generate_literacy ord true instructions dirs cm = Some long →
  distinct_ids (before ++ long :: after) →
  (∀ s, literacy_inside dirs s → ¬ mentions (before ++ short :: after) (id_of (cm_id cm) [s; "dictation"])) →
  ∀ o, order_ok o → Forall consistent before → Forall consistent after →
  is_Some (open_library o (before ++ long :: after)) ↔ is_Some (open_library o (before ++ short :: after)).
Proof. exact dictation_opens. Qed.
Print Assumptions C107_opens_partial.
(** If one does, dictation can close a circle, and then nothing of the library opens. *)
Theorem C107_circle_refuted : ∃ ord instructions dirs cm short long before after, (∀ A l, ord A l ≡ₚ l) ∧
  generate_literacy ord false instructions dirs cm = Some short ∧ generate_literacy ord true instructions dirs cm = Some long ∧
  distinct_ids (before ++ long :: after) ∧ Forall consistent after ∧
  is_Some (open_library sample_order (before ++ short :: after)) ∧ open_library sample_order (before ++ long :: after) = None.
Proof. exact dictation_circle. Qed.
Print Assumptions C107_circle_refuted.
Example C107_nonvacuous : ∃ short long, generate_literacy same_order false None sample_literacy (plain_course "L") = Some short ∧
  generate_literacy same_order true None sample_literacy (plain_course "L") = Some long ∧
  distinct_ids [sample_course_B; long; elsewhere []] ∧
  (∀ s, literacy_inside sample_literacy s → ¬ mentions [sample_course_B; short; elsewhere []] (id_of "L" [s; "dictation"])) ∧
  consistent (elsewhere []) ∧ is_Some (open_library sample_order [sample_course_B; long; elsewhere []]).
Proof. exact dictation_sample. Qed.

(** C63: a literacy course can be read exactly if all recognised files of its lesson directories and
    its instructions can, with or without dictation. *)
Theorem C63_course : ∀ ord dictation instructions dirs cm, (∀ n dir, (n, dir) ∈ dirs → NoDup dir.*1) →
  is_Some (generate_literacy ord dictation instructions dirs cm) ↔
  (∀ s dir, lesson_dir dirs s dir → all_files_readable dir) ∧ (∀ c, instructions = Some c → readable LLessonInstructions c).
Proof. exact literacy_reads. Qed.
Print Assumptions C63_course.
Example C63_course_nonvacuous : (∀ n dir, (n, dir) ∈ sample_literacy → NoDup dir.*1) ∧
  is_Some (generate_literacy same_order true None sample_literacy (plain_course "L")) ∧
  generate_literacy same_order true (Some no_content) sample_literacy (plain_course "L") = None.
Proof. exact literacy_reads_sample. Qed.
