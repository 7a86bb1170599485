(** What the theorems about better grades are stated with. *)
From stdpp Require Import list.
From Coq Require Import ZArith.
From Verif Require Import F32 Stores Scorer.

(** The same trials at the same times, with grades that are at least as good. *)
Definition better (l l' : list trial) : Prop :=
  Forall2 (λ t t', e_ts t = e_ts t' ∧ fle (e_val t) (e_val t') = true) l l'.
(** Whether a trial counts as a failure. *)
Definition failed (t : trial) : bool := flt (e_val t) f_3.
