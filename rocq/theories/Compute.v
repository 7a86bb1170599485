(** A tactic for closed decidable goals. *)
From stdpp Require Import base decidable.
Ltac by_compute :=
  cbv zeta; lazymatch goal with |- ?P => refine (bool_decide_unpack P _) end; vm_compute; exact I.
