(** Model of src/scheduler/reward_propagator.rs: the rewards that a score sends through the
    graph. *)
From stdpp Require Import gmap strings list.
From Coq Require Import ZArith.
From Verif Require Import F32 Graph Stores Options.

(** src/scheduler/reward_propagator.rs:63-72 [initial_reward]. *)
Definition initial_reward (s : mastery_score) : f32 :=
  match s with
  | Five => f_0_8
  | Four => f_0_4
  | Three => fneg f_0_3
  | Two => fneg f_0_5
  | One => fneg f_1
  end.

(** src/scheduler/reward_propagator.rs:83-86 [stop_propagation]. *)
Definition stop_propagation (reward weight : f32) : bool :=
  flt (fabs reward) f_0_2 || flt weight f_0_2.

Section propagate.
  (** [ord u l] is the order in which the neighbours [l] of [u] are listed: it is that of the
      manifests, or of a hash set when no encompassed units are given. *)
  Context (g : graph) (ord : uid → list (uid * f32) → list (uid * f32)).

  (** src/scheduler/reward_propagator.rs:74-81 [get_next_units]. *)
  Definition get_next_units (u : uid) (reward : f32) : list (uid * f32) :=
    ord u (default [] (if fgt reward fzero then get_encompasses g u else get_encompassed_by g u)).

  (** src/scheduler/reward_propagator.rs:108-128: the first stack. The top is the head. *)
  Definition push_reward (stack : list (entry reward)) (r : entry reward) : list (entry reward) :=
    if stop_propagation (e_val r).1 (e_val r).2 then stack else r :: stack.
  Definition first_reward (init : f32) (ts : Z) (e : uid * f32) : entry reward :=
    Entry e.1 (fmul e.2 init, e.2) ts.
  Definition first_stack (lesson course : uid) (init : f32) (ts : Z) : list (entry reward) :=
    fold_left push_reward (first_reward init ts <$> get_next_units lesson init ++ get_next_units course init) [].

  (** src/scheduler/reward_propagator.rs:142-157: the rewards pushed after one is recorded. *)
  Definition next_reward (item : entry reward) (ts : Z) (e : uid * f32) : entry reward :=
    Entry e.1 (fmul (fmul e.2 f_0_9) (e_val item).1, fmul (fmul e.2 f_0_8) (e_val item).2) ts.
  Definition push_next (item : entry reward) (ts : Z) (stack : list (entry reward)) : list (entry reward) :=
    fold_left push_reward (next_reward item ts <$> get_next_units (e_unit item) (e_val item).1) stack.

  (** src/scheduler/reward_propagator.rs:130-158: the loop. [None]: the fuel ran out. *)
  Definition weaker (results : gmap uid (entry reward)) (item : entry reward) : bool :=
    match results !! e_unit item with
    | Some r => fge (fabs (e_val r).1) (fabs (e_val item).1)
    | None => false
    end.
  Fixpoint propagate_loop (fuel : nat) (ts : Z) (stack : list (entry reward)) (results : gmap uid (entry reward)) :
      option (gmap uid (entry reward)) :=
    match fuel with
    | O => None
    | S fuel =>
        match stack with
        | [] => Some results
        | item :: stack =>
            if weaker results item then propagate_loop fuel ts stack results
            else propagate_loop fuel ts (push_next item ts stack) (<[e_unit item := item]> results)
        end
    end.

  (** src/scheduler/reward_propagator.rs:95-160 [propagate_rewards_helper]. The code returns
      the values of the map in hash order. *)
  Definition propagate_helper (fuel : nat) (lesson course : uid) (s : mastery_score) (ts : Z) :
      option (gmap uid (entry reward)) :=
    if bool_decide (lesson = ""%string) || bool_decide (course = ""%string) then Some ∅
    else propagate_loop fuel ts (first_stack lesson course (initial_reward s) ts) ∅.

  (** src/scheduler/reward_propagator.rs:88-93 [resolve_roots], 162-175 [propagate_rewards]. *)
  Definition resolve_roots (e : uid) : option (uid * uid) :=
    match get_exercise_lesson g e with
    | Some l => match get_lesson_course g l with Some c => Some (l, c) | None => None end
    | None => None
    end.
  Definition propagate_rewards (fuel : nat) (e : uid) (s : mastery_score) (ts : Z) : option (gmap uid (entry reward)) :=
    match resolve_roots e with
    | None => Some ∅
    | Some (l, c) => propagate_helper fuel l c s ts
    end.
End propagate.
