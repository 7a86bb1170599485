(** Properties of knowledge bases on disk: C62, C68 and C69. The vocabulary (listing a directory,
    what a builder stands for, reserved names, ...) is in KbSpec.v. *)
From stdpp Require Import gmap strings list.
From Verif Require Import F32 Graph Library Generators GenSpec GenSample FileSystem FileSpec FileSample KbBuilder KbSpec KbOpens KbMain KbCards KbSample.
Local Open Scope string_scope.
Local Open Scope list_scope.

(** C62: a knowledge base opens exactly if all files that are read can be read. *)
Theorem C62_opens_iff : ∀ ord, (∀ A l, ord A l ≡ₚ l) → ∀ orde, (∀ x, orde x ≡ₚ x) → ∀ inlined dirs cm,
  NoDup dirs.*1 → (∀ n dir, (n, dir) ∈ dirs → NoDup dir.*1) →
  is_Some (generate_kb ord orde inlined dirs cm) ↔ ∀ s dir, kb_lesson_dir dirs s dir → kb_all_readable inlined dir.
Proof. exact kb_generates. Qed.
Print Assumptions C62_opens_iff.

(** C68: a course written by the builder is opened as the course that was meant, in whatever order
    the directories are listed. *)
Theorem C68_round_trip : ∀ w read above b n f a n' f', codec_ok w read → tree f → tidy_course b → build_kb_course w above b n f = Over a n' f' →
  f' !! (above ++ [zb_dir b; "course_manifest.json"]) = Some (File (w_course w (zb_manifest b) +:+ newline)) ∧
  ∀ dirs, lists_dirs read f' (above ++ [zb_dir b]) dirs → ∀ ord, (∀ A l, ord A l ≡ₚ l) → ∀ orde, (∀ x, orde x ≡ₚ x) → ∀ inlined,
  ∃ oc, generate_kb ord orde inlined dirs (zb_manifest b) = Some oc ∧ oc_manifest oc = zb_manifest b ∧
    one_each (stands_for (cm_id (zb_manifest b)) (yb_id <$> zb_lessons b)) (zb_lessons b) (oc_lessons oc).
Proof. exact kb_round_trip. Qed.
Print Assumptions C68_round_trip.
(** Every directory has a listing. *)
Theorem C68_listed : ∀ read f root, ∃ dirs, lists_dirs read f root dirs.
Proof. exact can_list. Qed.
Print Assumptions C68_listed.
Example C68_nonvacuous : codec_ok bit_writers bit_read ∧ tree empty_disk ∧ tidy_course kb_sample_builder ∧
  ∃ n' f', build_kb_course bit_writers [] kb_sample_builder None empty_disk = Over () n' f'.
Proof. exact sample_built. Qed.

(** C69, partial: the same for simple courses, which can be written over an earlier version, if no
    other lesson directory was there, ... *)
Theorem C69_round_trip_partial : ∀ w read root c n f a n' f', codec_ok w read → tree f → tidy_simple c →
  (∀ s, f !! (root ++ [s +:+ ".lesson"]) = Some Dir → s ∈ sl_id <$> sc_lessons c) → build_simple w root c n f = Over a n' f' →
  ∃ cm, meant_manifest c cm ∧ f' !! (root ++ ["course_manifest.json"]) = Some (File (w_course w cm)) ∧
  ∀ dirs, lists_dirs read f' root dirs → ∀ ord, (∀ A l, ord A l ≡ₚ l) → ∀ orde, (∀ x, orde x ≡ₚ x) → ∀ inlined,
  ∃ oc, generate_kb ord orde inlined dirs cm = Some oc ∧ oc_manifest oc = cm ∧
    one_each (stands_for_simple (cm_id (sc_manifest c)) (sl_id <$> sc_lessons c)) (sc_lessons c) (oc_lessons oc).
Proof. exact simple_round_trip. Qed.
Print Assumptions C69_round_trip_partial.
(** ... building again changes nothing, ... *)
Theorem C69_again : ∀ w root c n f a n' f' m b m' f'', tree f → build_simple w root c n f = Over a n' f' → build_simple w root c m f' = Over b m' f'' →
  ∀ p, root `prefix_of` p → f'' !! p = f' !! p.
Proof. exact simple_again. Qed.
Print Assumptions C69_again.
(** ... the two sides of every card are in the directory of the lesson, line by line, and there is
    no file for a back without lines, ... *)
Theorem C69_cards : ∀ w root c n f a n' f', tree f → tidy_simple c → build_simple w root c n f = Over a n' f' →
  ∀ l e, l ∈ sc_lessons c → e ∈ sl_exercises l →
  f' !! (root ++ [sl_id l +:+ ".lesson"; se_id e +:+ ".front.md"]) = Some (File (String.concat newline (se_front e))) ∧
  f' !! (root ++ [sl_id l +:+ ".lesson"; se_id e +:+ ".back.md"]) =
    match se_back e with [] => None | back => Some (File (String.concat newline back)) end.
Proof. exact simple_cards. Qed.
Print Assumptions C69_cards.
(** ... and a configuration that is not valid is refused before anything is written. *)
Theorem C69_refused : ∀ w root c n f, ¬ valid_simple c → build_simple w root c n f = Fails f.
Proof. exact simple_refused. Qed.
Print Assumptions C69_refused.
Example C69_nonvacuous : codec_ok bit_writers bit_read ∧ tree root_disk ∧ tidy_simple simple_full ∧ valid_simple simple_full ∧
  (∀ s, root_disk !! (["lib"] ++ [s +:+ ".lesson"]) = Some Dir → s ∈ sl_id <$> sc_lessons simple_full) ∧
  (∃ n', build_simple bit_writers ["lib"] simple_full None root_disk = Over () n' full_disk) ∧
  ∃ n' f', build_simple bit_writers ["lib"] simple_full None full_disk = Over () n' f'.
Proof. exact simple_sample. Qed.
(** C69, false: a lesson that was taken out of the configuration is still in the course. *)
Theorem C69_stale_refuted : ∃ w read f0 c0 f c f' n n' dirs oc, codec_ok w read ∧ tree f0 ∧ tidy_simple c0 ∧ tidy_simple c ∧ build_simple w ["lib"] c0 None f0 = Over () n f ∧
  build_simple w ["lib"] c None f = Over () n' f' ∧ lists_dirs read f' ["lib"] dirs ∧
  generate_kb same_order (λ l, l) false dirs (simple_manifest c) = Some oc ∧
  (∀ l, l ∈ sc_lessons c → sl_id l ≠ "two") ∧ id_of "S" ["two"] ∈ (λ le, lm_id le.1) <$> oc_lessons oc.
Proof. exact simple_stale. Qed.
Print Assumptions C69_stale_refuted.
(** C69, false: building an unchanged course again and being interrupted loses files of a lesson. *)
Theorem C69_interrupted_refuted : ∃ w root c f0 f f' n p s, tree f0 ∧ tidy_simple c ∧ valid_simple c ∧
  (∃ n', build_simple w root c None f0 = Over () n' f) ∧ build_simple w root c (Some n) f = Interrupted f' ∧ f !! p = Some (File s) ∧ f' !! p = None.
Proof. exact simple_interrupted. Qed.
Print Assumptions C69_interrupted_refuted.
