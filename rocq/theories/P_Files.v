(** Properties of the parts that read and write files: C45, C48 and C64 to C67.
    The vocabulary is in FileSpec.v. *)
From stdpp Require Import gmap strings list sorting.
From Verif Require Import Library FileSystem FileSpec ConfigProofs SavedProofs BuildProofs FileSample.
Local Open Scope string_scope.
Local Open Scope list_scope.

(** C45, partial: a file to which a manifest refers exists after a successful build exactly if
    it existed before or is, or is above, one of the files that are written. *)
Theorem C45_exists_partial : ∀ parent b n f a n' f', build_course parent b n f = Over a n' f' →
  ∀ p, f' !! p ≠ None ↔ (f !! p ≠ None ∨ ∃ w, w ∈ course_files parent b ∧ p `prefix_of` w.1).
Proof. exact course_exists. Qed.
Print Assumptions C45_exists_partial.
(** C45, false: a course, a lesson and an exercise with missing files are built without an error. *)
Theorem C45_course_refuted : ∃ b p, missing b p ∧ unit_refers ([] ++ [cb_dir b]) (cb_manifest b) p.
Proof. exact missing_course. Qed.
Print Assumptions C45_course_refuted.
Theorem C45_lesson_refuted : ∃ b l p, missing b p ∧ l ∈ cb_lessons b ∧ unit_refers ([cb_dir b] ++ [lb_dir l]) (lb_manifest l) p.
Proof. exact missing_lesson. Qed.
Print Assumptions C45_lesson_refuted.
Theorem C45_exercise_refuted : ∃ b l e p, missing b p ∧ l ∈ cb_lessons b ∧ e ∈ lb_exercises l ∧
  exercise_refers ([cb_dir b] ++ [lb_dir l] ++ [eb_dir e]) (et_asset (eb_manifest e)) p.
Proof. exact missing_exercise. Qed.
Print Assumptions C45_exercise_refuted.

(** C66, partial: the files after a successful build are exactly these. *)
Theorem C66_files : ∀ parent b n f a n' f', build_course parent b n f = Over a n' f' → ∀ p, f' !! p = after_writing (course_files parent b) f p.
Proof. exact course_exact. Qed.
Print Assumptions C66_files.
(** If no two of them collide, each has its contents, and a build in a new directory succeeds. *)
Theorem C66_contains_partial : ∀ parent b n f a n' f', build_course parent b n f = Over a n' f' → apart (course_files parent b) →
  ∀ p s, (p, s) ∈ course_files parent b → f' !! p = Some (File s).
Proof. exact course_contains. Qed.
Print Assumptions C66_contains_partial.
Theorem C66_builds_partial : ∀ parent b f, tree f → f !! parent = Some Dir → f !! (parent ++ [cb_dir b]) = None → names_given b → apart (course_files parent b) →
  ∃ f', build_course parent b None f = Over () None f'.
Proof. exact course_builds. Qed.
Print Assumptions C66_builds_partial.
(** C66, false: of two lessons in one directory, the first is nowhere. *)
Theorem C66_lost_refuted : ∃ b f f' l, tree f ∧ names_given b ∧ build_course [] b None f = Over () None f' ∧ l ∈ cb_lessons b ∧
  ∀ p, f' !! p ≠ Some (File (ut_json (lb_manifest l))).
Proof. exact twin_lost. Qed.
Print Assumptions C66_lost_refuted.
Example C66_nonvacuous : ∃ f', build_course [] good_course None empty_disk = Over () None f' ∧ apart (course_files [] good_course) ∧ names_given good_course ∧
  tree empty_disk ∧ (["C"; "L"; "notes"; "lesson.md"], "notes") ∈ course_files [] good_course ∧
  f' !! ["C"; "L"; "notes"; "lesson.md"] = Some (File "notes") ∧ f' !! ["C"; "L"; "E"] = Some Dir ∧ f' !! ["C"; "X"] = None.
Proof. exact good_built. Qed.

(** C67: however a build ends, nothing outside the directory of the course has changed, except
    that missing directories on the way may exist. *)
Theorem C67_outside : ∀ parent b n f p, let g := final (build_course parent b n f) in
  ¬ parent ++ [cb_dir b] `prefix_of` p → g !! p = f !! p ∨ (f !! p = None ∧ g !! p = Some Dir ∧ p `prefix_of` parent).
Proof. exact course_outside. Qed.
Print Assumptions C67_outside.
(** Inside it, every path is as before, a new directory, or the start of a file to be written there. *)
Theorem C67_inside : ∀ parent b n f, while_writing (course_files parent b) f (final (build_course parent b n f)).
Proof. exact course_while. Qed.
Print Assumptions C67_inside.
Example C67_nonvacuous : ∃ g, build_course [] good_course (Some 3) empty_disk = Interrupted g ∧ ¬ [] ++ [cb_dir good_course] `prefix_of` ["other"].
Proof. eexists. split; [vm_compute; reflexivity|]. apply (bool_decide_eq_false _). vm_compute. reflexivity. Qed.

(** C48: a directory of saved items opens exactly if every file is readable and no two have the
    same identifier. *)
Theorem C48_opens : ∀ (A : Type) (id : A → string) entries, is_Some (open_saved id entries) ↔ ∃ items, entries = Some <$> items ∧ NoDup (id <$> items).
Proof. exact @saved_opens. Qed.
Print Assumptions C48_opens.
(** Looking up an identifier returns the item that has it. *)
Theorem C48_get : ∀ (A : Type) (id : A → string) items m, open_saved id (Some <$> items) = Some m → ∀ i a, get_saved m i = Some a ↔ a ∈ items ∧ id a = i.
Proof. exact @saved_get. Qed.
Print Assumptions C48_get.
(** Every item is listed once, and the identifiers are sorted. *)
Theorem C48_list : ∀ (A : Type) (id describe : A → string) items m visited, open_saved id (Some <$> items) = Some m → visited ≡ₚ map_to_list m →
  list_saved describe visited ≡ₚ (λ a, (id a, describe a)) <$> items ∧ Sorted uid_le (list_saved describe visited).*1 ∧ NoDup (list_saved describe visited).*1.
Proof. exact @saved_list. Qed.
Print Assumptions C48_list.
(** Neither the order of the directory nor that of the map matters. *)
Theorem C48_order : ∀ (A : Type) (id : A → string) entries entries' m, entries' ≡ₚ entries → open_saved id entries = Some m → open_saved id entries' = Some m.
Proof. exact @saved_order. Qed.
Print Assumptions C48_order.
Theorem C48_list_order : ∀ (A : Type) (describe : A → string) m visited visited', visited ≡ₚ map_to_list m → visited' ≡ₚ map_to_list m →
  list_saved describe visited = list_saved describe visited'.
Proof. exact @saved_list_order. Qed.
Print Assumptions C48_list_order.
Example C48_nonvacuous : ∃ m, open_saved fst (Some <$> some_saved) = Some m ∧ get_saved m "b" = Some ("b", "second") ∧
  list_saved snd (map_to_list m) = [("a", "first"); ("b", "second")].
Proof. exact some_opened. Qed.

(** C64: opening a library prepares its configuration directory exactly when nothing is in the
    way, adds what is missing and changes nothing that exists. *)
Theorem C64_opens : ∀ root text f, (∃ f', init_config root text None f = Over () None f') ↔ config_free root f.
Proof. exact config_opens. Qed.
Print Assumptions C64_opens.
Theorem C64_exact : ∀ root text n f a n' f', init_config root text n f = Over a n' f' →
  ∀ p, f' !! p = match f !! p with Some x => Some x | None => config_node root text p end.
Proof. exact config_exact. Qed.
Print Assumptions C64_exact.
(** However it ends, nothing that existed has changed, and only these paths are new. *)
Theorem C64_frame : ∀ root text n f p, let g := final (init_config root text n f) in
  g !! p = f !! p ∨ (f !! p = None ∧ ((g !! p = Some Dir ∧ (p = trane_dir root ∨ p = filters_dir root ∨ p = sessions_dir root)) ∨
    (p = preferences_path root ∧ ∃ s, starts s text ∧ g !! p = Some (File s)))).
Proof. exact config_frame. Qed.
Print Assumptions C64_frame.
(** C64, partial: after an interruption before the preferences are begun, opening again leads to
    the same files as without it. *)
Theorem C64_resume_partial : ∀ root text n f f', init_config root text None f = Over () None f' →
  let g := final (init_config root text n f) in g !! preferences_path root = f !! preferences_path root → init_config root text None g = Over () None f'.
Proof. exact config_resume. Qed.
Print Assumptions C64_resume_partial.
(** After any interruption, opening again does what it would have done, or the preferences are
    cut off: then every later opening reads the same preferences or fails. *)
Theorem C64_crash : ∀ root text (A : Type) (decode : string → option A) n f x, config_free root f → f !! preferences_path root = None →
  decode text = Some x → (∀ s, starts s text → decode s = Some x ∨ decode s = None) →
  let g := final (init_config root text n f) in
  open_config decode root text None g = open_config decode root text None f ∨
  ∃ s, starts s text ∧ s ≠ text ∧ g !! preferences_path root = Some (File s) ∧
    ((decode s = Some x ∧ ∀ m, open_config decode root text m g = Over x m g) ∨ (decode s = None ∧ ∀ m, open_config decode root text m g = Fails g)).
Proof. exact @config_crash. Qed.
Print Assumptions C64_crash.
(** C64, false: every new library has an interruption after which it never opens again. *)
Theorem C64_stuck_refuted : ∀ root text (A : Type) (decode : string → option A) f, config_free root f → f !! preferences_path root = None →
  text ≠ "" → decode "" = None →
  ∃ n g, init_config root text (Some n) f = Interrupted g ∧ ∀ m, open_config decode root text m g = Fails g.
Proof. exact @config_stuck. Qed.
Print Assumptions C64_stuck_refuted.
Example C64_nonvacuous : config_free ["lib"] some_disk ∧ some_disk !! preferences_path ["lib"] = None ∧
  decode_bit (encode_bit false) = Some false ∧ decode_bit "" = None ∧ encode_bit false ≠ "" ∧
  (∀ s, starts s (encode_bit false) → decode_bit s = Some false ∨ decode_bit s = None) ∧
  ∃ f', open_config decode_bit ["lib"] (encode_bit false) None some_disk = Over false None f' ∧ f' !! preferences_path ["lib"] = Some (File "{0}").
Proof. exact some_config. Qed.

(** C65: preferences that are set are the ones read next, and no other file changes. *)
Theorem C65_set : ∀ (A : Type) (encode : A → string) (decode : string → option A) p x n f a n' f', decode (encode x) = Some x →
  set_preferences encode p x n f = Over a n' f' → get_preferences decode p f' = Some x ∧ ∀ q, q ≠ p → f' !! q = f !! q.
Proof. exact @preferences_set. Qed.
Print Assumptions C65_set.
Theorem C65_can : ∀ (A : Type) (encode : A → string) p x f,
  (∃ f', set_preferences encode p x None f = Over () None f') ↔ f !! parent p = Some Dir ∧ f !! p ≠ Some Dir.
Proof. exact @preferences_can. Qed.
Print Assumptions C65_can.
(** C65, partial: however it ends, only that file can have changed, to the start of the new text. *)
Theorem C65_frame_partial : ∀ (A : Type) (encode : A → string) p x n f, let g := final (set_preferences encode p x n f) in
  (∀ q, q ≠ p → g !! q = f !! q) ∧ (g !! p = f !! p ∨ ∃ s, starts s (encode x) ∧ g !! p = Some (File s)).
Proof. exact @preferences_frame. Qed.
Print Assumptions C65_frame_partial.
(** C65, false: an interruption can lose the old preferences and the new ones. *)
Theorem C65_lost_refuted : ∀ (A : Type) (encode : A → string) (decode : string → option A) p x y f, decode (encode x) = Some x →
  decode "" = None → f !! parent p = Some Dir → get_preferences decode p f = Some y →
  ∃ n g, set_preferences encode p x (Some n) f = Interrupted g ∧ get_preferences decode p g = None.
Proof. exact @preferences_lost. Qed.
Print Assumptions C65_lost_refuted.
Example C65_nonvacuous : (∀ b, decode_bit (encode_bit b) = Some b) ∧ decode_bit "" = None ∧
  ∃ f', set_preferences encode_bit ["p"] true None (<[ ["p"] := File "{0}" ]> empty_disk) = Over () None f' ∧
    (<[ ["p"] := File "{0}" ]> empty_disk) !! parent ["p"] = Some Dir ∧
    get_preferences decode_bit ["p"] (<[ ["p"] := File "{0}" ]> empty_disk) = Some false ∧ get_preferences decode_bit ["p"] f' = Some true.
Proof.
  split; [exact bit_codec|]. split; [reflexivity|]. eexists. split; [vm_compute; reflexivity|].
  split; [vm_compute; reflexivity|]. split; vm_compute; reflexivity.
Qed.
