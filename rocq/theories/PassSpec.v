(** What the theorems about passing a whole by passing its parts are stated with. *)
From stdpp Require Import gmap strings list.
From Coq Require Import ZArith.
From Verif Require Import F32 Graph Library Filters Options Batch Search UnitScorer Practice Session.

(** A unit reaches the score [a] and the number of trials [b], or has no score or no trials. *)
Definition reaches (a b : f32) (score trials : outcome (option f32)) : Prop :=
  ∀ x t, score = Val (Some x) → trials = Val (Some t) → fge x a = true ∧ fge t b = true.

(** What a search sees when all it asks is answered by the scores of units, with nothing cached. *)
Definition asking (lib : library) (w : world) (options : scheduler_options) (fuel : nat) : senv :=
  SEnv lib (w_banned w)
    (λ u, default false (told (fst (superseded w (unit_score w fuel) fuel u no_caches))))
    (λ u, told (fst (unit_score w fuel u no_caches)))
    (λ e, told (fst (exercise_urgency w e no_caches)))
    (λ e, told (fst (exercise_velocity w e no_caches)))
    (λ u, default None (told (fst (avg_trials w fuel u no_caches))))
    (λ _, 0) options [] (λ _, None).
(** The score of the unit is 5. *)
Definition scored_five (env : senv) (u : uid) : bool := match s_score env u with Some (Some s) => feq s f_5 | _ => false end.
