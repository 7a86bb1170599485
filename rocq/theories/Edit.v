(** Model of the changes of the unit graph through the [Trane] object of an open library:
    src/lib.rs:626-672, which forwards to src/graph.rs. Definitions only. The course library and
    the scheduler hold the same graph (src/lib.rs:249, 276, 300), so every later call sees the change;
    the manifests do not change. *)
From stdpp Require Import gmap strings list.
From Verif Require Import F32 Graph Library Facade.

(** src/lib.rs:627-668 and 682-684 [update_starting_lessons]. The boolean says whether the call
    succeeded. *)
Definition edit_step (g : graph) (o : gop) : graph * bool :=
  match o with
  | SetEncompassingEqualsDependency => (trane_set_encompasing_equals_dependency g, true)
  | o => gstep g o
  end.
(** The library after a history of such calls; failed calls are part of it. *)
Definition edit_graph (g : graph) (ops : list gop) : graph := fold_left (λ g o, (edit_step g o).1) ops g.
Definition edit_library (lib : library) (ops : list gop) : library := set_graph lib (edit_graph (lib_graph lib) ops).
