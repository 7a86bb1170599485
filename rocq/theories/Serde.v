(** Model of the [Serialize] and [Deserialize] implementations that serde 1.0.228 derives for the
    data that trane writes to files and reads from them, on top of the JSON values of Json.v.
    Definitions only.

    The order of the entries of hash maps is that of the lists that stand for them. Keys of maps
    from numbers are read here after their escapes have been resolved, while serde_json only
    accepts plain digits. *)
From stdpp Require Import gmap strings list sorting.
From Coq Require Import ZArith Ascii.
From Flocq Require Import IEEE754.BinarySingleNaN.
From Verif Require Import F32 Graph Library Filters Json.
Local Open Scope string_scope.
Local Open Scope list_scope.

(** * Reading structures *)

(** The values of the field [k]. *)
Fixpoint found {A} (k : string) (l : list (string * A)) : list A :=
  match l with [] => [] | (k', a) :: l => if String.eqb k' k then a :: found k l else found k l end.
(** A field that is given twice is an error; [absent] is used when it is not given. *)
Definition pick {A} (k : string) (absent : option A) (l : list (string * option A)) : option A :=
  match found k l with [] => absent | [a] => a | _ => None end.
Section entries.
  Context {A : Type} (d : json → A).
  Fixpoint named (l : list (string * json)) : list (string * A) :=
    match l with [] => [] | (k, v) :: l => (k, d v) :: named l end.
  Fixpoint positions (names : list string) (l : list json) {struct l} : list (string * A) :=
    match l, names with v :: l, k :: names => (k, d v) :: positions names l | _, _ => [] end.
End entries.
(** The field [k] of a structure with the given fields. Structures are read from objects, whose
    unknown fields are ignored, and from arrays that have the fields in their order and may lack
    some of the last ones. *)
Definition field {A} (names : list string) (k : string) (d : json → option A) (absent : option A) (j : json) : option A :=
  match j with
  | JObject l => pick k absent (named d l)
  | JArray l => if (length names <? length l)%nat then None else pick k absent (positions d names l)
  | _ => None
  end.
Section traverse.
  Context {A B : Type} (f : A → option B).
  Fixpoint traverse (l : list A) : option (list B) :=
    match l with [] => Some [] | x :: l => match f x with None => None | Some y => match traverse l with None => None | Some l => Some (y :: l) end end end.
End traverse.

(** * Simple types *)

Record codec (A : Type) := Codec { enc : A → json; dec : json → option A }.
Arguments Codec {A}. Arguments enc {A}. Arguments dec {A}.

(** [String] and [Ustr]. *)
Definition string_codec : codec string := Codec JString (λ j, match j with JString s => Some s | _ => None end).
Definition bool_codec : codec bool := Codec JBool (λ j, match j with JBool b => Some b | _ => None end).
(** Unsigned integers of the given number of bits ([u32], [usize]). *)
Definition unsigned (bits : Z) : codec Z :=
  Codec JInt (λ j, match j with JInt z => if (0 <=? z)%Z && (z <? 2 ^ bits)%Z then Some z else None | _ => None end).
Definition usize_codec : codec nat := Codec (λ n, JInt (Z.of_nat n)) (λ j, Z.to_nat <$> dec (unsigned 64) j).
(** [Option]. *)
Definition option_codec {A} (c : codec A) : codec (option A) :=
  Codec (λ x, match x with None => JNull | Some x => enc c x end) (λ j, match j with JNull => Some None | _ => Some <$> dec c j end).
(** [Vec]. *)
Definition list_codec {A} (c : codec A) : codec (list A) :=
  Codec (λ l, JArray (map (enc c) l)) (λ j, match j with JArray l => traverse (dec c) l | _ => None end).
(** Pairs. *)
Definition pair_codec {A B} (a : codec A) (b : codec B) : codec (A * B) :=
  Codec (λ x, JArray [enc a x.1; enc b x.2])
    (λ j, match j with JArray [x; y] => match dec a x, dec b y with Some x, Some y => Some (x, y) | _, _ => None end | _ => None end).
(** [BTreeMap<String, _>]: written in the order of the keys; of entries with the same key the last
    one is kept. *)
Definition key_le {A} (x y : string * A) : Prop := uid_le x.1 y.1.
Global Instance key_le_dec {A} (x y : string * A) : Decision (key_le x y).
Proof. unfold key_le. apply _. Defined.
Definition tree_codec {A} (c : codec A) : codec (gmap string A) :=
  Codec (λ m, JObject (map (λ x, (x.1, enc c x.2)) (merge_sort key_le (map_to_list m))))
    (λ j, match j with
          | JObject l => foldl (λ m x, <[x.1 := x.2]> m) ∅ <$> traverse (λ x, match dec c x.2 with Some v => Some (x.1, v) | None => None end) l
          | _ => None
          end).
(** [HashMap<usize, _>]: the keys are written as strings. *)
Definition write_key (n : N) : string := string_of_list_ascii (write_nat n).
Definition read_key (s : string) : option N :=
  match read_number (list_ascii_of_string s) with
  | Some (JInt z) => if (0 <=? z)%Z && (z <? 2 ^ 64)%Z then Some (Z.to_N z) else None
  | _ => None
  end.
Definition put_last {A} (l : list (N * A)) (x : N * A) : list (N * A) := base.filter (λ y : N * A, y.1 ≠ x.1) l ++ [x].
Definition last_wins {A} (l : list (N * A)) : list (N * A) := foldl put_last [] l.
Section numbered.
  Context {A : Type} (d : json → option A).
  Definition numbered_entry (x : string * json) : option (N * A) :=
    match x with (k, j) => match read_key k, d j with Some n, Some a => Some (n, a) | _, _ => None end end.
  Definition read_numbered (j : json) : option (list (N * A)) :=
    match j with JObject l => last_wins <$> traverse numbered_entry l | _ => None end.
End numbered.
Definition numbered_codec {A} (c : codec A) : codec (list (N * A)) :=
  Codec (λ l, JObject (map (λ x, (write_key x.1, enc c x.2)) l)) (read_numbered (dec c)).

(** Enumerations: a unit variant is a string (or an object with null), any other an object with one
    entry. *)
Definition unit_of (name : string) : json := JString name.
Definition is_unit (name : string) (j : json) : bool :=
  match j with JString s => String.eqb s name | JObject [(k, JNull)] => String.eqb k name | _ => false end.
Definition tagged (name : string) (j : json) : json := JObject [(name, j)].
Definition content (name : string) (j : json) : option json :=
  match j with JObject [(k, v)] => if String.eqb k name then Some v else None | _ => None end.

(** * src/data/filter.rs *)

(** Lines 20-27 and 30-37 [FilterOp], [FilterType]. *)
Definition op_codec : codec filter_op :=
  Codec (λ o, unit_of (match o with OpAll => "All" | OpAny => "Any" end))
    (λ j, if is_unit "All" j then Some OpAll else if is_unit "Any" j then Some OpAny else None).
Definition type_codec : codec filter_type :=
  Codec (λ o, unit_of (match o with Include => "Include" | Exclude => "Exclude" end))
    (λ j, if is_unit "Include" j then Some Include else if is_unit "Exclude" j then Some Exclude else None).
(** Lines 40-74 [KeyValueFilter]. *)
Definition kv_names : list string := ["key"; "value"; "filter_type"].
Definition combined_names : list string := ["op"; "filters"].
Fixpoint enc_kv (f : kv_filter) : json :=
  match f with
  | KCourse k v t => tagged "CourseFilter" (JObject [("key", JString k); ("value", JString v); ("filter_type", enc type_codec t)])
  | KLesson k v t => tagged "LessonFilter" (JObject [("key", JString k); ("value", JString v); ("filter_type", enc type_codec t)])
  | KCombined op fs => tagged "CombinedFilter" (JObject [("op", enc op_codec op); ("filters", JArray (map enc_kv fs))])
  end.
Fixpoint dec_kv (j : json) : option kv_filter :=
  match j with
  | JObject [(tag, body)] =>
      if String.eqb tag "CombinedFilter" then
        op ← field combined_names "op" (dec op_codec) None body;
        fs ← field combined_names "filters" (λ v, match v with JArray l => traverse dec_kv l | _ => None end) None body;
        Some (KCombined op fs)
      else
        k ← field kv_names "key" (dec string_codec) None body;
        v ← field kv_names "value" (dec string_codec) None body;
        t ← field kv_names "filter_type" (dec type_codec) None body;
        if String.eqb tag "CourseFilter" then Some (KCourse k v t)
        else if String.eqb tag "LessonFilter" then Some (KLesson k v t)
        else None
  | _ => None
  end.
Definition kv_codec : codec kv_filter := Codec enc_kv dec_kv.
Definition ids_codec : codec (list uid) := list_codec string_codec.
(** Lines 202-239 [UnitFilter]. *)
Definition unit_filter_codec : codec unit_filter := Codec
  (λ f, match f with
        | FCourses l => tagged "CourseFilter" (JObject [("course_ids", enc ids_codec l)])
        | FLessons l => tagged "LessonFilter" (JObject [("lesson_ids", enc ids_codec l)])
        | FMetadata f => tagged "MetadataFilter" (JObject [("filter", enc kv_codec f)])
        | FReviewList => unit_of "ReviewListFilter"
        | FDependents l => tagged "Dependents" (JObject [("unit_ids", enc ids_codec l)])
        | FDependencies l n => tagged "Dependencies" (JObject [("unit_ids", enc ids_codec l); ("depth", enc usize_codec n)])
        end)
  (λ j,
    if is_unit "ReviewListFilter" j then Some FReviewList
    else match content "CourseFilter" j with Some b => FCourses <$> field ["course_ids"] "course_ids" (dec ids_codec) None b | None =>
    match content "LessonFilter" j with Some b => FLessons <$> field ["lesson_ids"] "lesson_ids" (dec ids_codec) None b | None =>
    match content "MetadataFilter" j with Some b => FMetadata <$> field ["filter"] "filter" (dec kv_codec) None b | None =>
    match content "Dependents" j with Some b => FDependents <$> field ["unit_ids"] "unit_ids" (dec ids_codec) None b | None =>
    match content "Dependencies" j with
    | Some b =>
        l ← field ["unit_ids"; "depth"] "unit_ids" (dec ids_codec) None b;
        n ← field ["unit_ids"; "depth"] "depth" (dec usize_codec) None b;
        Some (FDependencies l n)
    | None => None
    end end end end end).
(** Lines 263-273 [SavedFilter]. *)
Record saved_filter := SavedFilter { sf_id : string; sf_description : string; sf_filter : unit_filter }.
Definition saved_names : list string := ["id"; "description"; "filter"].
Definition saved_codec : codec saved_filter := Codec
  (λ f, JObject [("id", JString (sf_id f)); ("description", JString (sf_description f)); ("filter", enc unit_filter_codec (sf_filter f))])
  (λ j,
    i ← field saved_names "id" (dec string_codec) None j;
    d ← field saved_names "description" (dec string_codec) None j;
    f ← field saved_names "filter" (dec unit_filter_codec) None j;
    Some (SavedFilter i d f)).
(** Lines 279-303 [SessionPart]. *)
Definition part_codec : codec session_part := Codec
  (λ p, match p with
        | PUnit f d => tagged "UnitFilter" (JObject [("filter", enc unit_filter_codec f); ("duration", JInt d)])
        | PSaved f d => tagged "SavedFilter" (JObject [("filter_id", JString f); ("duration", JInt d)])
        | PNone d => tagged "NoFilter" (JObject [("duration", JInt d)])
        end)
  (λ j,
    match content "UnitFilter" j with
    | Some b =>
        f ← field ["filter"; "duration"] "filter" (dec unit_filter_codec) None b;
        d ← field ["filter"; "duration"] "duration" (dec (unsigned 32)) None b;
        Some (PUnit f d)
    | None =>
    match content "SavedFilter" j with
    | Some b =>
        f ← field ["filter_id"; "duration"] "filter_id" (dec string_codec) None b;
        d ← field ["filter_id"; "duration"] "duration" (dec (unsigned 32)) None b;
        Some (PSaved f d)
    | None =>
    match content "NoFilter" j with Some b => PNone <$> field ["duration"] "duration" (dec (unsigned 32)) None b | None => None end
    end end).
(** Lines 320-332 [StudySession]. *)
Record study_session := StudySession { ss_id : string; ss_description : string; ss_parts : list session_part }.
Definition session_names : list string := ["id"; "description"; "parts"].
Definition session_codec : codec study_session := Codec
  (λ s, JObject [("id", JString (ss_id s)); ("description", JString (ss_description s)); ("parts", enc (list_codec part_codec) (ss_parts s))])
  (λ j,
    i ← field session_names "id" (dec string_codec) None j;
    d ← field session_names "description" (dec string_codec) (Some "") j;
    p ← field session_names "parts" (dec (list_codec part_codec)) (Some []) j;
    Some (StudySession i d p)).

(** * The preferences of the user *)

(** src/data/course_generator.rs:17-24 [Instrument]. *)
Record instrument := Instrument { in_name : string; in_id : string }.
Definition instrument_codec : codec instrument := Codec
  (λ i, JObject [("name", JString (in_name i)); ("id", JString (in_id i))])
  (λ j, n ← field ["name"; "id"] "name" (dec string_codec) None j; i ← field ["name"; "id"] "id" (dec string_codec) None j; Some (Instrument n i)).
Definition text_codec : codec (option string) := option_codec string_codec.
(** src/data/course_generator/transcription.rs:166-184 [TranscriptionPreferences]. *)
Record transcription_preferences := TranscriptionPreferences { tp_instruments : list instrument; tp_download : option string; tp_alias : option string }.
Definition transcription_preferences_names : list string := ["instruments"; "download_path"; "download_path_alias"].
Definition transcription_preferences_codec : codec transcription_preferences := Codec
  (λ p, JObject [("instruments", enc (list_codec instrument_codec) (tp_instruments p)); ("download_path", enc text_codec (tp_download p));
                 ("download_path_alias", enc text_codec (tp_alias p))])
  (λ j,
    i ← field transcription_preferences_names "instruments" (dec (list_codec instrument_codec)) (Some []) j;
    d ← field transcription_preferences_names "download_path" (dec text_codec) (Some None) j;
    a ← field transcription_preferences_names "download_path_alias" (dec text_codec) (Some None) j;
    Some (TranscriptionPreferences i d a)).
(** src/data.rs:1072-1077 [SchedulerPreferences]. *)
Definition scheduler_preferences_codec : codec (option nat) := Codec
  (λ b, JObject [("batch_size", enc (option_codec usize_codec) b)])
  (λ j, field ["batch_size"] "batch_size" (dec (option_codec usize_codec)) (Some None) j).
(** src/data.rs:1091-1106 [UserPreferences]. *)
Record user_preferences := UserPreferences {
  up_transcription : option transcription_preferences;
  (** [SchedulerPreferences] has the batch size only. *)
  up_scheduler : option (option nat);
  up_ignored : list string
}.
Definition preferences_names : list string := ["transcription"; "scheduler"; "ignored_paths"].
Definition preferences_codec : codec user_preferences := Codec
  (λ p, JObject [("transcription", enc (option_codec transcription_preferences_codec) (up_transcription p));
                 ("scheduler", enc (option_codec scheduler_preferences_codec) (up_scheduler p)); ("ignored_paths", enc ids_codec (up_ignored p))])
  (λ j,
    t ← field preferences_names "transcription" (dec (option_codec transcription_preferences_codec)) (Some None) j;
    s ← field preferences_names "scheduler" (dec (option_codec scheduler_preferences_codec)) (Some None) j;
    i ← field preferences_names "ignored_paths" (dec ids_codec) (Some []) j;
    Some (UserPreferences t s i)).

(** * Manifests *)

Section weights.
  (** How serde_json writes a finite [f32] with a fraction and how it reads such a number as an
      [f32]. *)
  Context (show : f32 → list ascii) (read : list ascii → option f32).
  (** [f32]: not a number and the infinities are written as null, which is not read as a number. *)
  Definition f32_codec : codec f32 := Codec
    (λ x, if is_finite x then JDec (show x) else JNull)
    (λ j, match j with JDec t => read t | JInt z => Some (f_of_Z z) | _ => None end).
  Definition weights_codec : codec (list (uid * f32)) := list_codec (pair_codec string_codec f32_codec).
  Definition metadata_codec : codec metadata := option_codec (tree_codec ids_codec).

  (** src/data.rs:222-242 [BasicAsset]. *)
  Inductive asset_data := MarkdownAsset (path : string) | InlinedAsset (text : string) | InlinedUniqueAsset (text : string).
  Definition asset_codec : codec asset_data := Codec
    (λ a, match a with
          | MarkdownAsset p => tagged "MarkdownAsset" (JObject [("path", JString p)])
          | InlinedAsset t => tagged "InlinedAsset" (JObject [("content", JString t)])
          | InlinedUniqueAsset t => tagged "InlinedUniqueAsset" (JObject [("content", JString t)])
          end)
    (λ j,
      match content "MarkdownAsset" j with Some b => MarkdownAsset <$> field ["path"] "path" (dec string_codec) None b | None =>
      match content "InlinedAsset" j with Some b => InlinedAsset <$> field ["content"] "content" (dec string_codec) None b | None =>
      match content "InlinedUniqueAsset" j with Some b => InlinedUniqueAsset <$> field ["content"] "content" (dec string_codec) None b | None =>
      None end end end).
  (** src/data/course_generator/transcription.rs:30-34 [TranscriptionLink]: the address. *)
  Definition link_codec : codec string := Codec (λ u, tagged "YouTube" (JString u)) (λ j, match content "YouTube" j with Some b => dec string_codec b | None => None end).
  (** src/data/course_generator/literacy.rs:222-230 [LiteracyLessonType]: whether it is a dictation. *)
  Definition literacy_codec : codec bool := Codec
    (λ d, unit_of (if d : bool then "Dictation" else "Reading"))
    (λ j, if is_unit "Reading" j then Some false else if is_unit "Dictation" j then Some true else None).
  Definition answers_codec : codec (list (string * option string)) := list_codec (pair_codec string_codec text_codec).
  (** src/data.rs:588-662 [ExerciseAsset]. *)
  Inductive exercise_asset_data :=
  | EBasic (a : asset_data)
  | EFlashcard (front : string) (back : option string)
  | EInlineFlashcard (front : string) (back : option string)
  | ELiteracy (dictation : bool) (examples exceptions : list (string * option string))
  | ESoundSlice (link : string) (description backup : option string)
  | ETranscription (text : string) (external_link : option string).
  Definition exercise_asset_codec : codec exercise_asset_data := Codec
    (λ a, match a with
          | EBasic a => tagged "BasicAsset" (enc asset_codec a)
          | EFlashcard f b => tagged "FlashcardAsset" (JObject [("front_path", JString f); ("back_path", enc text_codec b)])
          | EInlineFlashcard f b => tagged "InlineFlashcardAsset" (JObject [("front_content", JString f); ("back_content", enc text_codec b)])
          | ELiteracy d e x => tagged "LiteracyAsset" (JObject [("lesson_type", enc literacy_codec d); ("examples", enc answers_codec e); ("exceptions", enc answers_codec x)])
          | ESoundSlice l d b => tagged "SoundSliceAsset" (JObject [("link", JString l); ("description", enc text_codec d); ("backup", enc text_codec b)])
          | ETranscription t l => tagged "TranscriptionAsset" (JObject [("content", JString t); ("external_link", enc (option_codec link_codec) l)])
          end)
    (λ j,
      match content "BasicAsset" j with Some b => EBasic <$> dec asset_codec b | None =>
      match content "FlashcardAsset" j with
      | Some b =>
          f ← field ["front_path"; "back_path"] "front_path" (dec string_codec) None b;
          k ← field ["front_path"; "back_path"] "back_path" (dec text_codec) (Some None) b;
          Some (EFlashcard f k)
      | None =>
      match content "InlineFlashcardAsset" j with
      | Some b =>
          f ← field ["front_content"; "back_content"] "front_content" (dec string_codec) None b;
          k ← field ["front_content"; "back_content"] "back_content" (dec text_codec) (Some None) b;
          Some (EInlineFlashcard f k)
      | None =>
      match content "LiteracyAsset" j with
      | Some b =>
          d ← field ["lesson_type"; "examples"; "exceptions"] "lesson_type" (dec literacy_codec) None b;
          e ← field ["lesson_type"; "examples"; "exceptions"] "examples" (dec answers_codec) (Some []) b;
          x ← field ["lesson_type"; "examples"; "exceptions"] "exceptions" (dec answers_codec) (Some []) b;
          Some (ELiteracy d e x)
      | None =>
      match content "SoundSliceAsset" j with
      | Some b =>
          l ← field ["link"; "description"; "backup"] "link" (dec string_codec) None b;
          d ← field ["link"; "description"; "backup"] "description" (dec text_codec) (Some None) b;
          k ← field ["link"; "description"; "backup"] "backup" (dec text_codec) (Some None) b;
          Some (ESoundSlice l d k)
      | None =>
      match content "TranscriptionAsset" j with
      | Some b =>
          t ← field ["content"; "external_link"] "content" (dec string_codec) (Some "") b;
          l ← field ["content"; "external_link"] "external_link" (dec (option_codec link_codec)) (Some None) b;
          Some (ETranscription t l)
      | None => None
      end end end end end end).
  (** src/data.rs:339-349 [ExerciseType]: whether it is procedural, which is the default. *)
  Definition exercise_type_codec : codec bool := Codec
    (λ p, unit_of (if p : bool then "Procedural" else "Declarative"))
    (λ j, if is_unit "Declarative" j then Some false else if is_unit "Procedural" j then Some true else None).
  (** src/data.rs:745-780 [ExerciseManifest]. *)
  Record exercise_data := ExerciseData {
    ed_id : uid; ed_lesson_id : uid; ed_course_id : uid; ed_name : string; ed_description : option string;
    ed_procedural : bool; ed_asset : exercise_asset_data
  }.
  Definition exercise_names : list string := ["id"; "lesson_id"; "course_id"; "name"; "description"; "exercise_type"; "exercise_asset"].
  Definition exercise_codec : codec exercise_data := Codec
    (λ e, JObject [("id", JString (ed_id e)); ("lesson_id", JString (ed_lesson_id e)); ("course_id", JString (ed_course_id e));
                   ("name", JString (ed_name e)); ("description", enc text_codec (ed_description e));
                   ("exercise_type", enc exercise_type_codec (ed_procedural e)); ("exercise_asset", enc exercise_asset_codec (ed_asset e))])
    (λ j,
      i ← field exercise_names "id" (dec string_codec) None j;
      l ← field exercise_names "lesson_id" (dec string_codec) None j;
      c ← field exercise_names "course_id" (dec string_codec) None j;
      n ← field exercise_names "name" (dec string_codec) (Some "") j;
      d ← field exercise_names "description" (dec text_codec) (Some None) j;
      t ← field exercise_names "exercise_type" (dec exercise_type_codec) (Some true) j;
      a ← field exercise_names "exercise_asset" (dec exercise_asset_codec) None j;
      Some (ExerciseData i l c n d t a)).

  (** src/data.rs:479-545 [LessonManifest]. *)
  Record lesson_data := LessonData {
    ld_id : uid; ld_dependencies : list uid; ld_encompassed : list (uid * f32); ld_superseded : list uid; ld_course_id : uid;
    ld_name : string; ld_description : option string; ld_metadata : metadata; ld_material : option asset_data; ld_instructions : option asset_data
  }.
  Definition lesson_names : list string :=
    ["id"; "dependencies"; "encompassed"; "superseded"; "course_id"; "name"; "description"; "metadata"; "lesson_material"; "lesson_instructions"].
  Definition lesson_codec : codec lesson_data := Codec
    (λ l, JObject [("id", JString (ld_id l)); ("dependencies", enc ids_codec (ld_dependencies l)); ("encompassed", enc weights_codec (ld_encompassed l));
                   ("superseded", enc ids_codec (ld_superseded l)); ("course_id", JString (ld_course_id l)); ("name", JString (ld_name l));
                   ("description", enc text_codec (ld_description l)); ("metadata", enc metadata_codec (ld_metadata l));
                   ("lesson_material", enc (option_codec asset_codec) (ld_material l)); ("lesson_instructions", enc (option_codec asset_codec) (ld_instructions l))])
    (λ j,
      i ← field lesson_names "id" (dec string_codec) None j;
      dd ← field lesson_names "dependencies" (dec ids_codec) (Some []) j;
      ee ← field lesson_names "encompassed" (dec weights_codec) (Some []) j;
      ss ← field lesson_names "superseded" (dec ids_codec) (Some []) j;
      c ← field lesson_names "course_id" (dec string_codec) None j;
      n ← field lesson_names "name" (dec string_codec) (Some "") j;
      d ← field lesson_names "description" (dec text_codec) (Some None) j;
      m ← field lesson_names "metadata" (dec metadata_codec) (Some None) j;
      t ← field lesson_names "lesson_material" (dec (option_codec asset_codec)) (Some None) j;
      u ← field lesson_names "lesson_instructions" (dec (option_codec asset_codec)) (Some None) j;
      Some (LessonData i dd ee ss c n d m t u)).

  (** src/data/course_generator/music_piece.rs:27-34 [MusicAsset]. *)
  Inductive music_asset := SoundSlice (url : string) | LocalFile (path : string).
  Definition music_asset_codec : codec music_asset := Codec
    (λ a, match a with SoundSlice u => tagged "SoundSlice" (JString u) | LocalFile p => tagged "LocalFile" (JString p) end)
    (λ j,
      match content "SoundSlice" j with Some b => SoundSlice <$> dec string_codec b | None =>
      match content "LocalFile" j with Some b => LocalFile <$> dec string_codec b | None => None end end).
  (** src/data/course_generator/music_piece.rs:73-87 [MusicPassage]. *)
  Inductive passage_data := PassageData (start stop : string) (subs : list (N * passage_data)).
  Definition passage_names : list string := ["start"; "end"; "sub_passages"].
  Fixpoint enc_passage (p : passage_data) : json :=
    match p with PassageData s e l =>
      JObject [("start", JString s); ("end", JString e); ("sub_passages", JObject (map (λ x, (write_key x.1, enc_passage x.2)) l))]
    end.
  Fixpoint dec_passage (j : json) : option passage_data :=
    s ← field passage_names "start" (dec string_codec) None j;
    e ← field passage_names "end" (dec string_codec) None j;
    l ← field passage_names "sub_passages" (read_numbered dec_passage) None j;
    Some (PassageData s e l).
  Definition passage_codec : codec passage_data := Codec enc_passage dec_passage.
  (** src/data/course_generator/transcription.rs:49-76 [TranscriptionAsset]. *)
  Record track_data := TrackData { td_id : string; td_track : string; td_artist : option string; td_album : option string; td_duration : option string; td_link : option string }.
  Definition track_names : list string := ["short_id"; "track_name"; "artist_name"; "album_name"; "duration"; "external_link"].
  Definition track_codec : codec track_data := Codec
    (λ t, tagged "Track" (JObject [("short_id", JString (td_id t)); ("track_name", JString (td_track t)); ("artist_name", enc text_codec (td_artist t));
            ("album_name", enc text_codec (td_album t)); ("duration", enc text_codec (td_duration t)); ("external_link", enc (option_codec link_codec) (td_link t))]))
    (λ j, match content "Track" j with
          | Some b =>
              i ← field track_names "short_id" (dec string_codec) None b;
              n ← field track_names "track_name" (dec string_codec) None b;
              a ← field track_names "artist_name" (dec text_codec) (Some None) b;
              m ← field track_names "album_name" (dec text_codec) (Some None) b;
              d ← field track_names "duration" (dec text_codec) (Some None) b;
              l ← field track_names "external_link" (dec (option_codec link_codec)) (Some None) b;
              Some (TrackData i n a m d l)
          | None => None
          end).
  (** src/data/course_generator/transcription.rs:91-104 [TranscriptionPassages]. *)
  Record passages_data := PassagesData { pd_asset : track_data; pd_intervals : list (N * (string * string)) }.
  Definition intervals_codec : codec (list (N * (string * string))) := numbered_codec (pair_codec string_codec string_codec).
  Definition passages_codec : codec passages_data := Codec
    (λ p, JObject [("asset", enc track_codec (pd_asset p)); ("intervals", enc intervals_codec (pd_intervals p))])
    (λ j,
      a ← field ["asset"; "intervals"] "asset" (dec track_codec) None j;
      i ← field ["asset"; "intervals"] "intervals" (dec intervals_codec) (Some []) j;
      Some (PassagesData a i)).
  (** src/data/course_generator/transcription.rs:189-222 [TranscriptionConfig]. *)
  Record transcription_data := TranscriptionData {
    tr_dependencies : list uid; tr_directory : string; tr_inlined : list passages_data; tr_skip_singing : bool; tr_skip_advanced : bool
  }.
  Definition transcription_names : list string :=
    ["transcription_dependencies"; "passage_directory"; "inlined_passages"; "skip_singing_lessons"; "skip_advanced_lessons"].
  Definition transcription_codec : codec transcription_data := Codec
    (λ t, JObject [("transcription_dependencies", enc ids_codec (tr_dependencies t)); ("passage_directory", JString (tr_directory t));
                   ("inlined_passages", enc (list_codec passages_codec) (tr_inlined t)); ("skip_singing_lessons", JBool (tr_skip_singing t));
                   ("skip_advanced_lessons", JBool (tr_skip_advanced t))])
    (λ j,
      dd ← field transcription_names "transcription_dependencies" (dec ids_codec) (Some []) j;
      d ← field transcription_names "passage_directory" (dec string_codec) (Some "") j;
      i ← field transcription_names "inlined_passages" (dec (list_codec passages_codec)) (Some []) j;
      s ← field transcription_names "skip_singing_lessons" (dec bool_codec) (Some false) j;
      a ← field transcription_names "skip_advanced_lessons" (dec bool_codec) (Some false) j;
      Some (TranscriptionData dd d i s a)).
  (** src/data.rs:272-287 [CourseGenerator], with [KnowledgeBaseConfig] (knowledge_base.rs:569-575,
      whether the cards are inlined), [LiteracyConfig] (literacy.rs:683-689, whether dictations are
      generated) and [MusicPieceConfig] (music_piece.rs:174-181) of src/data/course_generator. *)
  Inductive generator_data :=
  | GKnowledgeBase (inlined : bool) | GLiteracy (dictation : bool) | GMusicPiece (a : music_asset) (p : passage_data) | GTranscription (t : transcription_data).
  Definition generator_codec : codec generator_data := Codec
    (λ g, match g with
          | GKnowledgeBase i => tagged "KnowledgeBase" (JObject [("inlined", JBool i)])
          | GLiteracy d => tagged "Literacy" (JObject [("generate_dictation", JBool d)])
          | GMusicPiece a p => tagged "MusicPiece" (JObject [("music_asset", enc music_asset_codec a); ("passages", enc passage_codec p)])
          | GTranscription t => tagged "Transcription" (enc transcription_codec t)
          end)
    (λ j,
      match content "KnowledgeBase" j with Some b => GKnowledgeBase <$> field ["inlined"] "inlined" (dec bool_codec) (Some false) b | None =>
      match content "Literacy" j with Some b => GLiteracy <$> field ["generate_dictation"] "generate_dictation" (dec bool_codec) (Some false) b | None =>
      match content "MusicPiece" j with
      | Some b =>
          a ← field ["music_asset"; "passages"] "music_asset" (dec music_asset_codec) None b;
          p ← field ["music_asset"; "passages"] "passages" (dec passage_codec) None b;
          Some (GMusicPiece a p)
      | None =>
      match content "Transcription" j with Some b => GTranscription <$> dec transcription_codec b | None => None end end end end).

  (** src/data.rs:352-432 [CourseManifest]. *)
  Record course_data := CourseData {
    cd_id : uid; cd_name : string; cd_dependencies : list uid; cd_encompassed : list (uid * f32); cd_superseded : list uid;
    cd_description : option string; cd_authors : option (list string); cd_metadata : metadata;
    cd_material : option asset_data; cd_instructions : option asset_data; cd_generator : option generator_data
  }.
  Definition course_names : list string :=
    ["id"; "name"; "dependencies"; "encompassed"; "superseded"; "description"; "authors"; "metadata"; "course_material"; "course_instructions"; "generator_config"].
  Definition course_codec : codec course_data := Codec
    (λ c, JObject [("id", JString (cd_id c)); ("name", JString (cd_name c)); ("dependencies", enc ids_codec (cd_dependencies c));
                   ("encompassed", enc weights_codec (cd_encompassed c)); ("superseded", enc ids_codec (cd_superseded c));
                   ("description", enc text_codec (cd_description c)); ("authors", enc (option_codec ids_codec) (cd_authors c));
                   ("metadata", enc metadata_codec (cd_metadata c)); ("course_material", enc (option_codec asset_codec) (cd_material c));
                   ("course_instructions", enc (option_codec asset_codec) (cd_instructions c));
                   ("generator_config", enc (option_codec generator_codec) (cd_generator c))])
    (λ j,
      i ← field course_names "id" (dec string_codec) None j;
      n ← field course_names "name" (dec string_codec) (Some "") j;
      dd ← field course_names "dependencies" (dec ids_codec) (Some []) j;
      ee ← field course_names "encompassed" (dec weights_codec) (Some []) j;
      ss ← field course_names "superseded" (dec ids_codec) (Some []) j;
      d ← field course_names "description" (dec text_codec) (Some None) j;
      a ← field course_names "authors" (dec (option_codec ids_codec)) (Some None) j;
      m ← field course_names "metadata" (dec metadata_codec) (Some None) j;
      t ← field course_names "course_material" (dec (option_codec asset_codec)) (Some None) j;
      u ← field course_names "course_instructions" (dec (option_codec asset_codec)) (Some None) j;
      g ← field course_names "generator_config" (dec (option_codec generator_codec)) (Some None) j;
      Some (CourseData i n dd ee ss d a m t u g)).
End weights.

(** * Files *)

(** [serde_json::to_string] and [to_string_pretty]; neither fails for these types. *)
Definition save {A} (c : codec A) (pretty : bool) (x : A) : string := to_text pretty (enc c x).
(** [serde_json::from_str] and [from_reader]. *)
Definition load {A} (c : codec A) (text : string) : option A := match of_text text with Value j => dec c j | _ => None end.
(** The parts of the manifests that the rest of the model uses. *)
Definition exercise_of (e : exercise_data) : exercise_manifest := ExerciseManifest (ed_id e) (ed_lesson_id e) (ed_course_id e) (ed_procedural e).
Definition lesson_of (l : lesson_data) : lesson_manifest :=
  LessonManifest (ld_id l) (ld_course_id l) (ld_dependencies l) (ld_encompassed l) (ld_superseded l) (ld_metadata l).
Definition course_of (c : course_data) : course_manifest :=
  CourseManifest (cd_id c) (cd_dependencies c) (cd_encompassed c) (cd_superseded c) (cd_metadata c).
