(** The documented formulas of the reward of an exercise, over the real numbers. *)
From stdpp Require Import list.
From Coq Require Import ZArith Reals.
From Verif Require Import F32 F32Real Stores Scorer ScorerSpec ExactSpec.
Local Open Scope R_scope.

(** Whole days since a time. *)
Definition whole_days (now ts : Z) : Z := Z.max 0 ((now - ts) / 86400).
(** The part that is left of a reward: a half after 14 days. *)
Definition left_of (now ts : Z) : R := Rpower (1 / 2) (IZR (whole_days now ts) / 14).
Definition left_weight (now : Z) (r : entry reward) : R := val (e_val r).2 * left_of now (e_ts r).
Definition left_value (now : Z) (r : entry reward) : R := val (e_val r).1 * left_of now (e_ts r).
(** The mean of what is left, without the rewards that have less than 0.05 of weight left. *)
Definition weighty (now : Z) (rs : list (entry reward)) : list (R * R) :=
  omap (λ r, if Rlt_dec (left_weight now r) (5 / 100) then None else Some (left_weight now r, left_value now r)) rs.
Definition exact_rewards (now : Z) (rs : list (entry reward)) : R :=
  match weighty now rs with [] => 0 | l => mean l end.
(** 30 percent for the course and 70 percent for the lesson, if there are rewards of both. *)
Definition exact_reward (now : Z) (course lesson : list (entry reward)) : R :=
  match course, lesson with
  | [], _ => exact_rewards now lesson
  | _, [] => exact_rewards now course
  | _, _ => 3 / 10 * exact_rewards now course + 7 / 10 * exact_rewards now lesson
  end.
(** A weight that is not within a hair of 0.05, so that rounding does not decide. *)
Definition clear_cut (now : Z) (r : entry reward) : Prop := / 100000 < Rabs (left_weight now r - 5 / 100).
(** Rewards that the program records, at times whose differences do not overflow. *)
Definition near_reward (valid_time : Z → bool) (now : Z) (r : entry reward) : Prop :=
  plain_reward r ∧ valid_time (e_ts r) = true ∧ (Z.abs (e_ts r) <= 4611686018427387903)%Z ∧ clear_cut now r.
