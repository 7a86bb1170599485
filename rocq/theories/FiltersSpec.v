(** Vocabulary of C10, C11 and C12. *)
From stdpp Require Import gmap strings list.
From Coq Require Import ZArith.
From Verif Require Import F32 Graph Library Filters.

(** The metadata lists [value] under [key]. *)
Definition lists_value (md : metadata) (key value : string) : Prop :=
  ∃ m values, md = Some m ∧ m !! key = Some values ∧ value ∈ values.

(** The boolean formula spelled by a filter, for a lesson with metadata [lm] in a course with
    metadata [cm]. *)
Inductive formula :=
| FTrue | FFalse
| FAtom (course : bool) (key value : string)
| FNot (a : formula) | FAnd (a b : formula) | FOr (a b : formula).
Fixpoint formula_of (f : kv_filter) : formula :=
  match f with
  | KCourse k v Include => FAtom true k v
  | KCourse k v Exclude => FNot (FAtom true k v)
  | KLesson k v Include => FAtom false k v
  | KLesson k v Exclude => FNot (FAtom false k v)
  | KCombined OpAll fs => foldr (λ f a, FAnd (formula_of f) a) FTrue fs
  | KCombined OpAny fs => foldr (λ f a, FOr (formula_of f) a) FFalse fs
  end.
Fixpoint satisfied (a : formula) (cm lm : metadata) : Prop :=
  match a with
  | FTrue => True | FFalse => False
  | FAtom true k v => lists_value cm k v
  | FAtom false k v => lists_value lm k v
  | FNot a => ¬ satisfied a cm lm
  | FAnd a b => satisfied a cm lm ∧ satisfied b cm lm
  | FOr a b => satisfied a cm lm ∨ satisfied b cm lm
  end.

(** Total duration of the parts, in minutes. *)
Definition total (ps : list session_part) : Z := foldr (λ p s, part_duration p + s)%Z 0%Z ps.
(** Number of nanoseconds in [m] minutes. *)
Definition minutes (m : Z) : Z := (m * 60000000000)%Z.
(** What the property says: [p] is the part to use at [time]. *)
Definition right_part (s : session_data) (time : Z) (p : session_part) : Prop :=
  let parts := sd_parts s in let d := (time - sd_start s)%Z in
  (parts = [] ∧ p = PNone 0) ∨
  (** the start lies in the future: the first part *)
  ((d < 0)%Z ∧ head parts = Some p) ∨
  (** inside the part *)
  (∃ before after, parts = before ++ p :: after ∧
     (minutes (total before) <= d < minutes (total before + part_duration p))%Z) ∨
  (** the session has ended: the last part *)
  ((minutes (total parts) <= d)%Z ∧ last parts = Some p).
(** Durations are [u32] values. *)
Definition durations_ok (s : session_data) : Prop := Forall (λ p, (0 <= part_duration p < two32)%Z) (sd_parts s).
