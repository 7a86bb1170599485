(** Vocabulary for C98: changes of the graph of an open library. *)
From stdpp Require Import gmap strings list.
From Verif Require Import F32 Graph Library Edit.

(** Every call of the history succeeded. *)
Fixpoint all_accepted (g : graph) (ops : list gop) : bool :=
  match ops with
  | [] => true
  | o :: ops => (edit_step g o).2 && all_accepted (edit_step g o).1 ops
  end.
(** Calls that add no units. *)
Definition adds_no_unit (o : gop) : Prop :=
  match o with AddCourse _ | AddLesson _ _ | AddExercise _ _ => False | _ => True end.
