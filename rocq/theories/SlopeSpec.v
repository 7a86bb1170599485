(** The slope of the grades of an exercise over the real numbers, for C99. *)
From stdpp Require Import list.
From Coq Require Import ZArith Reals.
From Verif Require Import F32 F32Real Stores Scorer ExactSpec.
Local Open Scope R_scope.

(** The average of some numbers. *)
Definition average_of (l : list R) : R := total l / INR (length l).
(** The slope of the straight line through points with the least sum of squared distances. *)
Definition least_squares (l : list (R * R)) : R :=
  total ((λ p, (p.1 - average_of l.*1) * (p.2 - average_of l.*2)) <$> l) /
  total ((λ p, (p.1 - average_of l.*1) ^ 2) <$> l).
(** The grade of each trial against the day it was given. *)
Definition grade_points (l : list trial) : list (R * R) := (λ t, (IZR (e_ts t) / 86400, val (e_val t))) <$> l.
(** The days from the oldest trial to the newest; trials come newest first. *)
Definition span (l : list trial) : R :=
  match l with t :: _ => IZR (e_ts t - e_ts (List.last l t)) / 86400 | [] => 0 end.
(** A time of which the difference to every other such time is an [i64]. *)
Definition plain_time (t : trial) : Prop := (Z.abs (e_ts t) <= 4611686018427387903)%Z.
