(** What the theorem about removals by prefix is stated with (C35). *)
From stdpp Require Import gmap strings list.
From Coq Require Import ZArith.
From Verif Require Import F32 Graph Library Sql UnitScorer PracticeSpec.

(** The unit itself, the lesson and the course it belongs to. *)
Definition above (g : graph) (u v : uid) : Prop :=
  v = u ∨ get_exercise_lesson g u = Some v ∨ get_lesson_course g u = Some v ∨
  ∃ l, get_exercise_lesson g u = Some l ∧ get_lesson_course g l = Some v.
(** Whatever a removal by prefix takes off the list, its identifier and those of its lesson and
    course start with the prefix, letter for letter. *)
Definition whole_prefix (g : graph) (pre : string) (banned : gset uid) : Prop :=
  ∀ u v, u ∈ banned → like_prefix pre u = true → above g u v → String.prefix pre v = true.
(** Every call of the history keeps the caches right, or is a removal of such a prefix from the
    blacklist. *)
Fixpoint tidy_calls (s : setting) (fuel : nat) (p : practice) (cs : list (Z * call)) : Prop :=
  match cs with
  | [] => True
  | (t, c) :: cs =>
      (keeps_caches c ∨ ∃ pre, c = CUnbanPrefix pre ∧ whole_prefix (lib_graph (g_lib s)) pre (p_banned p)) ∧
      ∀ p', call_step s fuel t p c = Some p' → tidy_calls s fuel p' cs
  end.
