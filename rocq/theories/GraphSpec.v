(** Vocabulary for the statements about the unit graph: the relations a caller
    can observe through the query functions of the API. *)
From stdpp Require Import gmap strings list relations.
From Verif Require Import F32 Graph.

(** [x] is in the set returned by a query; a missing entry is an empty answer. *)
Definition answers (o : option (gset uid)) (x : uid) : Prop :=
  match o with Some s => x ∈ s | None => False end.
(** [x] is in the vector returned by a query. *)
Definition lists {A} (o : option (list A)) (x : A) : Prop :=
  match o with Some l => x ∈ l | None => False end.

Definition depends_on (g : graph) (u d : uid) : Prop := answers (get_dependencies g u) d.
Definition dependent_of (g : graph) (d u : uid) : Prop := answers (get_dependents g d) u.
Definition supersedes (g : graph) (u s : uid) : Prop := answers (get_supersedes g u) s.
Definition is_superseded_by (g : graph) (s u : uid) : Prop := answers (get_superseded_by g s) u.
Definition encompasses (g : graph) (u e : uid) (w : f32) : Prop := lists (get_encompasses g u) (e, w).
Definition is_encompassed_by (g : graph) (e u : uid) (w : f32) : Prop :=
  lists (get_encompassed_by g e) (u, w).
(** [u] encompasses [e] with some weight. *)
Definition encompasses_some (g : graph) (u e : uid) : Prop := ∃ w, encompasses g u e w.

(** No unit is related to itself through one or more steps. *)
Definition acyclic (R : uid → uid → Prop) : Prop := ∀ u, ¬ tc R u u.

(** An iteration order lists every element of the set exactly once. *)
Definition order_ok (o : order) : Prop :=
  (∀ i s, ord_keys o i s ≡ₚ elements s) ∧ (∀ i u s, ord_set o i u s ≡ₚ elements s).
