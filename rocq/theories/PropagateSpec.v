(** What the theorems about propagated rewards are stated with. *)
From stdpp Require Import gmap strings list.
From Coq Require Import ZArith.
From Verif Require Import F32 Graph GraphSpec Stores Options Scorer ScorerSpec.
From Verif Require Export Propagate.

(** The lesson and the course of an exercise. *)
Definition home (g : graph) (e l c : uid) : Prop := get_exercise_lesson g e = Some l ∧ get_lesson_course g l = Some c.
(** Good scores go down the graph, to the encompassed units; bad ones go up. *)
Definition good_score (s : mastery_score) : bool := match s with Five | Four => true | _ => false end.
(** The documented rewards. *)
Definition documented_reward (s : mastery_score) : f32 :=
  match s with Five => f_0_8 | Four => f_0_4 | Three => fneg f_0_3 | Two => fneg f_0_5 | One => fneg f_1 end.
Definition leads (g : graph) (s : mastery_score) (u v : uid) (w : f32) : Prop :=
  if good_score s then encompasses g u v w else is_encompassed_by g u v w.

(** The orders in which neighbours may be listed. *)
Definition any_order (ord : uid → list (uid * f32) → list (uid * f32)) : Prop := ∀ u l, ord u l ≡ₚ l.

(** A value and a weight that are strong enough to go on. *)
Definition strong (v w : f32) : Prop := fle f_0_2 (fabs v) = true ∧ fle f_0_2 w = true.

(** [carried n u v w]: a path with [n] units after the roots ends in [u] and brings it the
    value [v] with the weight [w], all along strong enough. *)
Inductive carried (g : graph) (s : mastery_score) (lesson course : uid) : nat → uid → f32 → f32 → Prop :=
  | carried_first root u e : root = lesson ∨ root = course → leads g s root u e →
      strong (fmul e (documented_reward s)) e →
      carried g s lesson course 1 u (fmul e (documented_reward s)) e
  | carried_next n u v w u' e : carried g s lesson course n u v w → leads g s u u' e →
      strong (fmul (fmul e f_0_9) v) (fmul (fmul e f_0_8) w) →
      carried g s lesson course (S n) u' (fmul (fmul e f_0_9) v) (fmul (fmul e f_0_8) w).

(** [fade s n]: value and weight after [n] edges of weight 1. *)
Fixpoint fade (s : mastery_score) (n : nat) : f32 * f32 :=
  match n with
  | O => (documented_reward s, f_1)
  | S O => (fmul f_1 (documented_reward s), f_1)
  | S n => (fmul (fmul f_1 f_0_9) (fade s n).1, fmul (fmul f_1 f_0_8) (fade s n).2)
  end.
(** The shortest distance from the lesson or the course. *)
Inductive steps (g : graph) (s : mastery_score) (lesson course : uid) : nat → uid → Prop :=
  | steps_first root u e : root = lesson ∨ root = course → leads g s root u e → steps g s lesson course 1 u
  | steps_next n u u' e : steps g s lesson course n u → leads g s u u' e → steps g s lesson course (S n) u'.
Definition distance (g : graph) (s : mastery_score) (lesson course : uid) (n : nat) (u : uid) : Prop :=
  steps g s lesson course n u ∧ ∀ m, steps g s lesson course m u → n ≤ m.
