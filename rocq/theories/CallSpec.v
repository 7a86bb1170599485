(** What the theorems about the effect of one score on the stores are stated with. *)
From stdpp Require Import gmap strings list.
From Coq Require Import ZArith.
From Verif Require Import F32 Graph Stores StoresSpec Options Practice.

(** Something happened to the stored trials and deltas: [new_trials u] and [new_deltas u] were
    added for each unit [u], and nothing was removed. *)
Definition adds (p p' : practice) (new_trials new_deltas : string → list (item f32)) : Prop :=
  (∀ u, stored (p_trials p') u = stored (p_trials p) u ++ new_trials u) ∧
  (∀ u, stored (p_deltas p') u = stored (p_deltas p) u ++ new_deltas u).
Definition only (e : string) (l : list (item f32)) (u : string) : list (item f32) := if bool_decide (u = e) then l else [].
