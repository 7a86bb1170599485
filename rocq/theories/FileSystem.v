(** A small file system for the parts of the code that write files, and those parts: the
    configuration directory, the preferences, the builders. Definitions only.

    A path is a list of names without separators. Links, permissions and concurrent changes are
    not modelled. Every step that changes the file system can be the last one, because it fails or
    because the process dies: programs run with a limit on the number of such steps. *)
From stdpp Require Import gmap strings list sorting.
From Coq Require Import Ascii.
From Verif Require Import Library.
Local Open Scope string_scope.
Local Open Scope list_scope.

Notation path := (list string) (only parsing).
Inductive node := Dir | File (contents : string).
Notation files := (gmap (list string) node) (only parsing).

(** [exists], [is_dir] and [is_file] of std::path::Path. *)
Definition path_exists (f : files) (p : path) : bool := match f !! p with Some _ => true | None => false end.
Definition is_dir (f : files) (p : path) : bool := match f !! p with Some Dir => true | _ => false end.
Definition is_file (f : files) (p : path) : bool := match f !! p with Some (File _) => true | _ => false end.
(** The contents of a file ([read_to_string]). *)
Definition read_file (f : files) (p : path) : option string := match f !! p with Some (File s) => Some s | _ => None end.
Definition parent (p : path) : path := take (length p - 1) p.

(** [create_dir] of std::fs. *)
Definition make_dir (p : path) (f : files) : option files :=
  if is_dir f (parent p) && negb (path_exists f p) then Some (<[p := Dir]> f) else None.
(** [File::create]: an existing file is truncated. *)
Definition make_file (p : path) (f : files) : option files :=
  if is_dir f (parent p) && negb (is_dir f p) then Some (<[p := File ""]> f) else None.
(** One step of [write_all]. *)
Definition append_char (p : path) (a : ascii) (f : files) : option files :=
  match f !! p with Some (File s) => Some (<[p := File (s +:+ String a "")]> f) | _ => None end.
(** [remove_dir_all] of std::fs, as a single step. *)
Definition remove_tree (p : path) (f : files) : option files :=
  if is_dir f p then Some (filter (λ x, ¬ p `prefix_of` x.1) f) else None.

(** ** Programs *)

(** A run is over, has failed or has been interrupted. *)
Inductive run (A : Type) :=
| Over (a : A) (left : option nat) (f : files)
| Fails (f : files)
| Interrupted (f : files).
Arguments Over {A} a left f.
Arguments Fails {A} f.
Arguments Interrupted {A} f.
(** The limit is [None] if the program is not interrupted. *)
Definition io (A : Type) : Type := option nat → files → run A.
Definition give {A : Type} (a : A) : io A := λ limit f, Over a limit f.
Definition fail {A : Type} : io A := λ _ f, Fails f.
Definition bind {A B : Type} (m : io A) (k : A → io B) : io B := λ limit f,
  match m limit f with
  | Over a limit f => k a limit f
  | Fails f => Fails f
  | Interrupted f => Interrupted f
  end.
Definition step (change : files → option files) : io () := λ limit f,
  match limit with
  | Some 0 => Interrupted f
  | _ => match change f with Some f => Over () (pred <$> limit) f | None => Fails f end
  end.
Definition look {A : Type} (q : files → A) : io A := λ limit f, Over (q f) limit f.
Notation "x <-- m ;;; k" := (bind m (λ x, k)) (at level 100, m at next level, right associativity).
Notation "m >>> k" := (bind m (λ _, k)) (at level 100, right associativity).
(** [ensure!]. *)
Definition require (q : files → bool) : io () := b <-- look q ;;; if (b : bool) then give () else fail.
Fixpoint each {A : Type} (k : A → io ()) (l : list A) : io () :=
  match l with
  | [] => give ()
  | a :: l => k a >>> each k l
  end.

(** [write_all] and [File::create] followed by it. *)
Fixpoint write_all (p : path) (s : string) : io () :=
  match s with
  | EmptyString => give ()
  | String a s => step (append_char p a) >>> write_all p s
  end.
Definition write_file (p : path) (s : string) : io () := step (make_file p) >>> write_all p s.
(** [create_dir_all] of std::fs: the directories on the way are created if they are missing. *)
Definition ensure_dir (p : path) : io () :=
  b <-- look (λ f, is_dir f p) ;;; if (b : bool) then give () else step (make_dir p).
Definition create_dir_all (p : path) : io () := each ensure_dir ((λ n, take n p) <$> seq 0 (S (length p))).

(** * The configuration directory, src/lib.rs *)

(** Lines 105-132. *)
Definition trane_dir (root : path) : path := root ++ [".trane"].
Definition filters_dir (root : path) : path := trane_dir root ++ ["filters"].
Definition sessions_dir (root : path) : path := trane_dir root ++ ["study_sessions"].
Definition preferences_path (root : path) : path := trane_dir root ++ ["user_preferences.json"].
(** Lines 195-237 [init_config_directory]; [text] is the text of the default preferences. *)
Definition init_config (root : path) (text : string) : io () :=
  require (λ f, is_dir f root) >>>
  (b <-- look (λ f, path_exists f (trane_dir root)) ;;;
   if (b : bool) then require (λ f, is_dir f (trane_dir root)) else step (make_dir (trane_dir root))) >>>
  ensure_dir (filters_dir root) >>>
  ensure_dir (sessions_dir root) >>>
  (b <-- look (λ f, path_exists f (preferences_path root)) ;;;
   if (b : bool) then require (λ f, is_file f (preferences_path root)) else write_file (preferences_path root) text).

(** * Preferences, src/preferences_manager.rs *)

(** Lines 28-34; [decode] reads JSON. *)
Definition get_preferences {A : Type} (decode : string → option A) (p : path) (f : files) : option A := read_file f p ≫= decode.
(** Lines 37-41; [fs::write] truncates the file and writes it. *)
Definition set_preferences {A : Type} (encode : A → string) (p : path) (x : A) : io () := write_file p (encode x).
(** The first steps of [new_local] (src/lib.rs:308-320): the configuration directory and the preferences. *)
Definition open_config {A : Type} (decode : string → option A) (root : path) (text : string) : io A :=
  init_config root text >>>
  x <-- look (get_preferences decode (preferences_path root)) ;;;
  match x with Some x => give x | None => fail end.

(** * Saved filters and study sessions, src/filter_manager.rs and src/study_session_manager.rs *)

(** Lines 30-54 of both: the entries in the order in which they are listed; [None] is one that
    cannot be read as JSON. The items are identified by [id]. *)
Fixpoint scan_saved {A : Type} (id : A → string) (found : gmap string A) (entries : list (option A)) : option (gmap string A) :=
  match entries with
  | [] => Some found
  | None :: _ => None
  | Some a :: entries => if bool_decide (is_Some (found !! id a)) then None else scan_saved id (<[id a := a]> found) entries
  end.
Definition open_saved {A : Type} (id : A → string) (entries : list (option A)) : option (gmap string A) := scan_saved id ∅ entries.
(** Lines 65-67. *)
Definition get_saved {A : Type} (saved : gmap string A) (id : string) : option A := saved !! id.
(** Lines 69-80: identifiers and descriptions, sorted by identifier. The order in which the hash
    map is visited is an argument. *)
Definition pair_le (a b : string * string) : Prop := uid_le a.1 b.1.
Global Instance pair_le_dec : RelDecision pair_le.
Proof. intros a b. unfold pair_le. apply _. Defined.
Definition list_saved {A : Type} (describe : A → string) (visited : list (string * A)) : list (string * string) :=
  merge_sort pair_le ((λ x, (x.1, describe x.2)) <$> visited).

(** * Builders, src/course_builder.rs *)

(** Lines 33-39 [AssetBuilder], 41-62 [build]. The name of the file is a relative path. *)
Record asset_builder := AssetBuilder { ab_name : path; ab_contents : string }.
Definition build_asset (dir : path) (a : asset_builder) : io () :=
  create_dir_all dir >>>
  require (λ f, negb (path_exists f (dir ++ ab_name a))) >>>
  create_dir_all (parent (dir ++ ab_name a)) >>>
  write_file (dir ++ ab_name a) (ab_contents a).

(** A path in a manifest, relative to its directory or absolute. *)
Inductive reference := Relative (p : path) | Absolute (p : path).
Definition resolve (dir : path) (r : reference) : path := match r with Relative p => dir ++ p | Absolute p => p end.
(** src/data.rs:220-242 [BasicAsset] and 589-662 [ExerciseAsset], as far as they name files. *)
Inductive basic_asset := Inlined | Markdown (r : reference).
Inductive exercise_asset :=
| BasicExercise (a : basic_asset) | Flashcard (front : reference) (back : option reference) | InlineFlashcard
| SoundSlice (backup : option reference) | OtherExercise.
(** src/data.rs:258-268, 710-742 and 790-794 [verify_paths]. *)
Definition verify_basic (f : files) (dir : path) (a : basic_asset) : bool :=
  match a with Inlined => true | Markdown r => path_exists f (resolve dir r) end.
Definition verify_exercise (f : files) (dir : path) (a : exercise_asset) : bool :=
  match a with
  | BasicExercise a => verify_basic f dir a
  | Flashcard front (Some back) => path_exists f (resolve dir front) && path_exists f (resolve dir back)
  | Flashcard front None => path_exists f (resolve dir front)
  | InlineFlashcard | OtherExercise | SoundSlice None => true
  | SoundSlice (Some r) => path_exists f (resolve dir r)
  end.
(** src/data.rs:451-464 and 560-573: the instructions and the material. *)
Definition verify_unit (f : files) (dir : path) (instructions material : option basic_asset) : bool :=
  match instructions with None => true | Some a => verify_basic f dir a end &&
  match material with None => true | Some a => verify_basic f dir a end.

(** A manifest: its JSON text and the files it names. *)
Record exercise_text := ExerciseText { et_json : string; et_asset : exercise_asset }.
Record unit_text := UnitText { ut_json : string; ut_instructions : option basic_asset; ut_material : option basic_asset }.
(** Lines 64-75; the manifest is what the closure returns. *)
Record exercise_builder := ExerciseBuilder { eb_dir : string; eb_manifest : exercise_text; eb_assets : list asset_builder }.
(** Lines 106-125 and 163-179. *)
Record lesson_builder := LessonBuilder {
  lb_dir : string; lb_manifest : unit_text; lb_exercises : list exercise_builder; lb_assets : list asset_builder }.
Record course_builder := CourseBuilder {
  cb_dir : string; cb_manifest : unit_text; cb_lessons : list lesson_builder; cb_assets : list asset_builder }.
(** Lines 77-103. The answer of [verify_paths] is dropped; only an error would be reported, and
    it never returns one. *)
Definition build_exercise (dir : path) (b : exercise_builder) : io () :=
  create_dir_all dir >>>
  write_file (dir ++ ["exercise_manifest.json"]) (et_json (eb_manifest b)) >>>
  each (build_asset dir) (eb_assets b) >>>
  ok <-- look (λ f, verify_exercise f dir (et_asset (eb_manifest b))) ;;;
  let _ := ok in give ().
(** Lines 127-161. *)
Definition build_lesson (dir : path) (b : lesson_builder) : io () :=
  create_dir_all dir >>>
  write_file (dir ++ ["lesson_manifest.json"]) (ut_json (lb_manifest b)) >>>
  each (build_asset dir) (lb_assets b) >>>
  each (λ e, build_exercise (dir ++ [eb_dir e]) e) (lb_exercises b) >>>
  ok <-- look (λ f, verify_unit f dir (ut_instructions (lb_manifest b)) (ut_material (lb_manifest b))) ;;;
  let _ := ok in give ().
(** Lines 181-213. *)
Definition build_course (above : path) (b : course_builder) : io () :=
  let dir := above ++ [cb_dir b] in
  create_dir_all dir >>>
  write_file (dir ++ ["course_manifest.json"]) (ut_json (cb_manifest b)) >>>
  each (build_asset dir) (cb_assets b) >>>
  each (λ l, build_lesson (dir ++ [lb_dir l]) l) (cb_lessons b) >>>
  ok <-- look (λ f, verify_unit f dir (ut_instructions (cb_manifest b)) (ut_material (cb_manifest b))) ;;;
  let _ := ok in give ().
