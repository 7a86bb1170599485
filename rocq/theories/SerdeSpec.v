(** Vocabulary for the data in files. *)
From stdpp Require Import gmap strings list.
From Coq Require Import ZArith Ascii.
From Flocq Require Import IEEE754.BinarySingleNaN.
From Verif Require Import F32 Graph Library Filters FileSystem FileSpec Json JsonSpec Serde.
Local Open Scope list_scope.

(** A text of spaces, tabs and line ends. *)
Definition blank (s : string) : Prop := forallb is_space (list_ascii_of_string s) = true.
(** The text of a finite number is a number and is read as that number. *)
Definition exact_numbers (show : f32 → list ascii) (read : list ascii → option f32) : Prop :=
  ∀ x, is_finite x = true → decimal_text (show x) ∧ read (show x) = Some x.

(** The values that the types of Rust allow: a duration has 32 bits, a depth and an index 64 bits,
    and the keys of a map are distinct. *)
Definition usize_ok (n : nat) : Prop := (Z.of_nat n < 2 ^ 64)%Z.
Definition unit_filter_ok (f : unit_filter) : Prop := match f with FDependencies _ n => usize_ok n | _ => True end.
Definition part_ok (p : session_part) : Prop :=
  (0 ≤ part_duration p < 2 ^ 32)%Z ∧ match p with PUnit f _ => unit_filter_ok f | _ => True end.
Definition session_ok (s : study_session) : Prop := Forall part_ok (ss_parts s).
Definition preferences_ok (p : user_preferences) : Prop :=
  match up_scheduler p with Some (Some n) => usize_ok n | _ => True end.
Definition keys_ok {A} (l : list (N * A)) : Prop := NoDup l.*1 ∧ Forall (λ x, (x.1 < 2 ^ 64)%N) l.
Fixpoint passage_ok (p : passage_data) : Prop :=
  match p with PassageData _ _ l => keys_ok l ∧ (fix go l := match l with [] => True | x :: l => passage_ok x.2 ∧ go l end) l end.
Definition generator_ok (g : generator_data) : Prop :=
  match g with
  | GMusicPiece _ p => passage_ok p
  | GTranscription t => Forall (λ p, keys_ok (pd_intervals p)) (tr_inlined t)
  | _ => True
  end.
Definition course_ok (c : course_data) : Prop := match cd_generator c with Some g => generator_ok g | None => True end.
(** Weights that are numbers. *)
Definition finite_weights (l : list (uid * f32)) : Prop := Forall (λ x, is_finite x.2 = true) l.

(** How many combined filters are inside each other. *)
Fixpoint kv_levels (f : kv_filter) : nat := match f with KCombined _ fs => S (list_max (map kv_levels fs)) | _ => 0 end.
Definition filter_levels (f : unit_filter) : nat := match f with FMetadata f => kv_levels f | _ => 0 end.
Definition part_levels (p : session_part) : nat := match p with PUnit f _ => filter_levels f | _ => 0 end.
Definition session_levels (s : study_session) : nat := list_max (map part_levels (ss_parts s)).
(** How many passages of a piece are inside each other. *)
Fixpoint passage_levels (p : passage_data) : nat := match p with PassageData _ _ l => S (list_max (map (λ x, passage_levels x.2) l)) end.
Definition course_levels (c : course_data) : nat := match cd_generator c with Some (GMusicPiece _ p) => passage_levels p | _ => 0 end.

(** [given] is a way to write the fields [written]: in any order, with further fields, and without
    some of those that have the value of [defaults]. *)
Definition by_hand (defaults written given : list (string * json)) : Prop :=
  NoDup given.*1 ∧ ∀ k v, (k, v) ∈ written → (k, v) ∈ given ∨ (k ∉ given.*1 ∧ (k, v) ∈ defaults).
Local Open Scope string_scope.
Definition no_list : json := JArray [].
(** What a field stands for when it is left out of the file of an exercise, a lesson, a course, the
    preferences or a study session. All the fields of a saved filter are needed. *)
Definition exercise_defaults : list (string * json) :=
  [("name", JString ""); ("description", JNull); ("exercise_type", JString "Procedural")].
Definition lesson_defaults : list (string * json) :=
  [("dependencies", no_list); ("encompassed", no_list); ("superseded", no_list); ("name", JString ""); ("description", JNull);
   ("metadata", JNull); ("lesson_material", JNull); ("lesson_instructions", JNull)].
Definition course_defaults : list (string * json) :=
  [("name", JString ""); ("dependencies", no_list); ("encompassed", no_list); ("superseded", no_list); ("description", JNull); ("authors", JNull);
   ("metadata", JNull); ("course_material", JNull); ("course_instructions", JNull); ("generator_config", JNull)].
Definition preferences_defaults : list (string * json) :=
  [("transcription", JNull); ("scheduler", JNull); ("ignored_paths", no_list)].
Definition session_defaults : list (string * json) := [("description", JString ""); ("parts", no_list)].
(** The other fields are needed. *)
Definition exercise_needed : list string := ["id"; "lesson_id"; "course_id"; "exercise_asset"].
Definition lesson_needed : list string := ["id"; "course_id"].
Definition course_needed : list string := ["id"].
Definition session_needed : list string := ["id"].
Definition saved_needed : list string := ["id"; "description"; "filter"].

(** However much of the text of [x] is on the disk, it is read as [x] or not at all. *)
Definition never_mistaken {A} (c : codec A) (pretty : bool) (x : A) : Prop :=
  ∀ s trail, blank trail → starts s (save c pretty x +:+ trail) → load c s = None ∨ load c s = Some x.
(** The preferences of a new library and their text (src/data.rs:1091, derived [Default]; src/lib.rs:229-230). *)
Definition default_preferences : user_preferences := UserPreferences None None [].
Definition default_text : string := save preferences_codec true default_preferences +:+ String "010" "".
