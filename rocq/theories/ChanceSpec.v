(** What it means that an exercise can be chosen (C100). *)
From stdpp Require Import gmap strings list.
From Verif Require Import F32 Batch BatchSpec.

(** The same choices with another random draw. The order of the sets, the sample of the relearn
    pile and the shuffles stay as they are. *)
Definition with_draw (r : choices) (draw : nat → list candidate → list f32 → nat → option (list candidate)) : choices :=
  Choices (r_units r) draw (r_sample r) (r_shuffle r) (r_key r).
