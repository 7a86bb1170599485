(** Model of src/data/filter.rs: metadata filters and study sessions. Their JSON is in
    Serde.v. *)
From stdpp Require Import gmap strings list.
From Coq Require Import ZArith.
From Verif Require Import F32 Graph Library.

(** src/data/filter.rs:19-37 [FilterOp], [FilterType]. *)
Inductive filter_op := OpAll | OpAny.
Inductive filter_type := Include | Exclude.

(** src/data/filter.rs:39-74 [KeyValueFilter]. *)
Inductive kv_filter :=
| KCourse (key value : string) (ft : filter_type)
| KLesson (key value : string) (ft : filter_type)
| KCombined (op : filter_op) (filters : list kv_filter).

(** src/data/filter.rs:79-92 [KeyValueFilter::passes_filter]; the [BTreeMap] of metadata is
    a [gmap]. The default metadata (lines 96-97, 165-167) is the empty map. *)
Definition passes_filter (md : metadata) (key value : string) (ft : filter_type) : bool :=
  let contains :=
    match default ∅ md !! key with
    | Some values => existsb (String.eqb value) values
    | None => false
    end in
  match ft with Include => contains | Exclude => negb contains end.

Definition is_course_filter (f : kv_filter) : bool :=
  match f with KCourse _ _ _ => true | _ => false end.

(** src/data/filter.rs:95-156 [KeyValueFilter::apply_to_course]. [course_result] and
    [other_result] are the two halves of lines 115-141; the inner functions go through the
    list and skip the filters of the other half. *)
Fixpoint apply_to_course (f : kv_filter) (cm : metadata) : bool :=
  match f with
  | KCourse key value ft => passes_filter cm key value ft
  | KLesson _ _ _ => false
  | KCombined op filters =>
      let all_of (course : bool) :=
        (fix go (fs : list kv_filter) := match fs with
         | [] => true
         | f :: fs => (if Bool.eqb (is_course_filter f) course then apply_to_course f cm else true) && go fs
         end) in
      let any_of (course : bool) :=
        (fix go (fs : list kv_filter) := match fs with
         | [] => false
         | f :: fs => (if Bool.eqb (is_course_filter f) course then apply_to_course f cm else false) || go fs
         end) in
      let course_result := match op with OpAll => all_of true filters | OpAny => any_of true filters end in
      let other_result := match op with OpAll => all_of false filters | OpAny => any_of false filters end in
      if forallb is_course_filter filters then course_result
      else match op with OpAll => course_result && other_result | OpAny => false end
  end.

(** src/data/filter.rs:160-198 [KeyValueFilter::apply_to_lesson]. *)
Fixpoint apply_to_lesson (f : kv_filter) (cm lm : metadata) : bool :=
  match f with
  | KCourse key value ft => passes_filter cm key value ft
  | KLesson key value ft => passes_filter lm key value ft
  | KCombined op filters =>
      match op with
      | OpAll => forallb (λ f, apply_to_lesson f cm lm) filters
      | OpAny => existsb (λ f, apply_to_lesson f cm lm) filters
      end
  end.

(** src/data/filter.rs:203-239 [UnitFilter]. *)
Inductive unit_filter :=
| FCourses (course_ids : list uid)
| FLessons (lesson_ids : list uid)
| FMetadata (f : kv_filter)
| FReviewList
| FDependents (unit_ids : list uid)
| FDependencies (unit_ids : list uid) (depth : nat).

(** src/data/filter.rs:244-258 [UnitFilter::passes_course_filter], [passes_lesson_filter]. *)
Definition passes_course_filter (f : unit_filter) (c : uid) : bool :=
  match f with FCourses ids => existsb (String.eqb c) ids | _ => false end.
Definition passes_lesson_filter (f : unit_filter) (l : uid) : bool :=
  match f with FLessons ids => existsb (String.eqb l) ids | _ => false end.

(** src/data/filter.rs:279-303 [SessionPart] and 308-314 [duration] (an [u32]). *)
Inductive session_part :=
| PUnit (f : unit_filter) (duration : Z)
| PSaved (filter_id : string) (duration : Z)
| PNone (duration : Z).
Definition part_duration (p : session_part) : Z :=
  match p with PUnit _ d | PSaved _ d | PNone d => d end.

(** src/data/filter.rs:336-343 [StudySessionData]; times are nanoseconds. *)
Record session_data := SessionData { sd_start : Z; sd_parts : list session_part }.

Definition two32 : Z := 4294967296.

(** [TimeDelta::num_minutes] of the chrono crate: both divisions round towards zero. *)
Definition num_minutes (delta : Z) : Z := Z.quot (Z.quot delta 1000000000) 60.

(** src/data/filter.rs:364-371: the loop over the parts. [checks] says whether the program is
    compiled with overflow checks (debug builds): then an overflow of the sum panics
    ([None]); otherwise the sum wraps around. *)
Fixpoint part_loop (checks : bool) (m len : Z) (last : session_part) (ps : list session_part) : option session_part :=
  match ps with
  | [] => Some last
  | p :: ps =>
      let sum := (len + part_duration p)%Z in
      if checks && (two32 <=? sum)%Z then None
      else
        let len := (sum mod two32)%Z in
        if (m <? len)%Z then Some p else part_loop checks m len p ps
  end.

(** src/data/filter.rs:348-372 [StudySessionData::get_part]. [as u32] (line 360) keeps the
    low 32 bits. *)
Definition get_part (checks : bool) (s : session_data) (time : Z) : option session_part :=
  match sd_parts s with
  | [] => Some (PNone 0)
  | p0 :: ps =>
      let m := num_minutes (time - sd_start s) in
      if (m <? 0)%Z then Some p0
      else part_loop checks (m mod two32)%Z 0 p0 (p0 :: ps)
  end.
