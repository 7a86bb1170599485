(** Vocabulary for the simulated students. *)
From stdpp Require Import gmap strings list.
From Coq Require Import ZArith Lia.
From Verif Require Import F32 Graph Library Options Benchmark.
Local Open Scope bool_scope.

(** Five probabilities, none of them negative. *)
Definition five_probabilities (p : list f32) : Prop := length p = 5 ∧ Forall (λ x, fle fzero x = true) p.
(** A number that is counted in 32 bits. *)
Definition counted (z : Z) : Prop := (0 ≤ z < 2 ^ 32)%Z.
(** A source of random numbers in a range from zero to an upper end that is not reached. *)
Definition picks_below (pick : f32 → f32) : Prop :=
  ∀ total, flt fzero total = true → fle fzero (pick total) = true ∧ flt (pick total) total = true.
(** The place of a score among the probabilities. *)
Definition score_place (s : mastery_score) : nat :=
  match s with One => 0 | Two => 1 | Three => 2 | Four => 3 | Five => 4 end.
(** How often an exercise is in a list of what was scored. *)
Definition times_scored (e : uid) (log : list (uid * mastery_score * Z)) : Z :=
  Z.of_nat (length (List.filter (λ x, String.eqb (x.1.1) e) log)).
