(** What the theorems about the scores of units are stated with. *)
From stdpp Require Import gmap strings list.
From Verif Require Import F32 Graph GraphSpec.
From Verif Require Export UnitScorer.

(** [below g u v]: the score of [u] is computed from that of [v]: [v] supersedes [u], or [v] is
    a lesson of the course [u]. *)
Definition lesson_of (g : graph) (u l : uid) : Prop := ∃ ls, get_course_lessons g u = Some ls ∧ l ∈ ls.
Definition below (g : graph) (u v : uid) : Prop := is_superseded_by g u v ∨ lesson_of g u v.
(** [low g n u]: no chain of such steps from [u] has [n] steps or more. *)
Inductive low (g : graph) : nat → uid → Prop :=
  | low_intro n u : (∀ v, below g u v → low g n v) → low g (S n) u.

(** No unit supersedes [u], nor any lesson of the course [u]. *)
Definition not_superseded (g : graph) (u : uid) : Prop :=
  get_superseded_by g u = None ∧ ∀ ls, get_course_lessons g u = Some ls → ∀ l, l ∈ ls → get_superseded_by g l = None.
