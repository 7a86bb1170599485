(** Vocabulary for the statements about files. Definitions only. *)
From stdpp Require Import gmap strings list.
From Coq Require Import Ascii.
From Verif Require Import Library FileSystem.
Local Open Scope string_scope.
Local Open Scope list_scope.

(** The files at the end of a run, however it ends. *)
Definition final {A : Type} (r : run A) : files :=
  match r with Over _ _ f => f | Fails f => f | Interrupted f => f end.
(** Everything is in a directory. *)
Definition tree (f : files) : Prop := f !! [] = Some Dir ∧ ∀ p x n, f !! (p ++ [x]) = Some n → f !! p = Some Dir.
(** [p] is above [q]. *)
Definition above (p q : path) : Prop := p `prefix_of` q ∧ p ≠ q.
Global Instance above_dec p q : Decision (above p q).
Proof. unfold above. apply _. Defined.
(** [s] is the start of [t]. *)
Definition starts (s t : string) : Prop := ∃ u, s +:+ u = t.

(** What is written at [p] last. *)
Definition last_at (p : path) (ws : list (path * string)) : option string :=
  snd <$> last (filter (λ w, w.1 = p) ws).
(** The files that remain when [ws] have been written, in this order: those in [ws], those that
    existed, and the directories that were missing. *)
Definition after_writing (ws : list (path * string)) (f : files) (p : path) : option node :=
  match last_at p ws, f !! p with
  | Some s, _ => Some (File s)
  | None, Some n => Some n
  | None, None => if decide (Exists (λ w, above p w.1) ws) then Some Dir else None
  end.
(** What [p] may be when the writing of [ws] stops at some point. *)
Definition while_writing (ws : list (path * string)) (f f' : files) : Prop :=
  ∀ p, f' !! p = f !! p ∨
    (f !! p = None ∧ f' !! p = Some Dir ∧ Exists (λ w, p `prefix_of` w.1) ws) ∨
    ∃ s t, (p, t) ∈ ws ∧ starts s t ∧ f' !! p = Some (File s).
(** No path is another one or above it. *)
Definition apart (ws : list (path * string)) : Prop :=
  ∀ i j v w, ws !! i = Some v → ws !! j = Some w → i ≠ j → ¬ v.1 `prefix_of` w.1.

(** The files of a builder, in the order in which they are written. *)
Definition asset_file (dir : path) (a : asset_builder) : path * string := (dir ++ ab_name a, ab_contents a).
Definition exercise_files (dir : path) (b : exercise_builder) : list (path * string) :=
  (dir ++ ["exercise_manifest.json"], et_json (eb_manifest b)) :: (asset_file dir <$> eb_assets b).
Definition lesson_files (dir : path) (b : lesson_builder) : list (path * string) :=
  (dir ++ ["lesson_manifest.json"], ut_json (lb_manifest b)) :: (asset_file dir <$> lb_assets b) ++
  mjoin ((λ e, exercise_files (dir ++ [eb_dir e]) e) <$> lb_exercises b).
Definition course_files (parent : path) (b : course_builder) : list (path * string) :=
  let dir := parent ++ [cb_dir b] in
  (dir ++ ["course_manifest.json"], ut_json (cb_manifest b)) :: (asset_file dir <$> cb_assets b) ++
  mjoin ((λ l, lesson_files (dir ++ [lb_dir l]) l) <$> cb_lessons b).

(** The files to which manifests refer. *)
Definition basic_refers (dir : path) (a : basic_asset) (p : path) : Prop :=
  match a with Inlined => False | Markdown r => p = resolve dir r end.
Definition exercise_refers (dir : path) (a : exercise_asset) (p : path) : Prop :=
  match a with
  | BasicExercise a => basic_refers dir a p
  | Flashcard front back => p = resolve dir front ∨ ∃ r, back = Some r ∧ p = resolve dir r
  | SoundSlice backup => ∃ r, backup = Some r ∧ p = resolve dir r
  | InlineFlashcard | OtherExercise => False
  end.
Definition unit_refers (dir : path) (u : unit_text) (p : path) : Prop :=
  ∃ a, (ut_instructions u = Some a ∨ ut_material u = Some a) ∧ basic_refers dir a p.
Definition course_refers (parent : path) (b : course_builder) (p : path) : Prop :=
  let dir := parent ++ [cb_dir b] in
  unit_refers dir (cb_manifest b) p ∨
  ∃ l, l ∈ cb_lessons b ∧ let ldir := dir ++ [lb_dir l] in
    (unit_refers ldir (lb_manifest l) p ∨ ∃ e, e ∈ lb_exercises l ∧ exercise_refers (ldir ++ [eb_dir e]) (et_asset (eb_manifest e)) p).

(** The configuration directory: what opening a library creates. *)
Definition config_node (root : path) (text : string) (p : path) : option node :=
  if decide (p = trane_dir root ∨ p = filters_dir root ∨ p = sessions_dir root) then Some Dir
  else if decide (p = preferences_path root) then Some (File text) else None.
(** Nothing is in its way. *)
Definition config_free (root : path) (f : files) : Prop :=
  f !! root = Some Dir ∧
  (∀ p, p = trane_dir root ∨ p = filters_dir root ∨ p = sessions_dir root → f !! p = None ∨ f !! p = Some Dir) ∧
  f !! preferences_path root ≠ Some Dir.
(** Every asset of a builder has a name. *)
Definition assets_named (l : list asset_builder) : Prop := ∀ a, a ∈ l → ab_name a ≠ [].
Definition names_given (b : course_builder) : Prop :=
  assets_named (cb_assets b) ∧
  ∀ l, l ∈ cb_lessons b → assets_named (lb_assets l) ∧ ∀ e, e ∈ lb_exercises l → assets_named (eb_assets e).
(** A course is built, but a file to which it refers does not exist. *)
Definition missing (b : course_builder) (p : path) : Prop :=
  ∃ f f', tree f ∧ build_course [] b None f = Over () None f' ∧ course_refers [] b p ∧ f' !! p = None.
