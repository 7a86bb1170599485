(** What the theorem about questions is stated with. *)
From stdpp Require Import gmap strings list.
From Verif Require Import F32 Graph UnitScorer.

(** Questions to the unit scorer: the score of a unit, its average number of trials, whether it
    is superseded, and the score, urgency, velocity and number of trials of an exercise. *)
Inductive question :=
| AScore (fuel : nat) (u : uid)
| ATrials (fuel : nat) (u : uid)
| ASuperseded (fuel : nat) (u : uid)
| AExercise (e : uid).
Inductive answer := OfScore (r : outcome (option f32)) | OfTrials (r : outcome (option f32)) | OfSuperseded (r : outcome bool)
| OfExercise (r : outcome cached_score).
(** The answer, and the caches afterwards. *)
Definition reply (w : world) (q : question) (c : caches) : answer * caches :=
  match q with
  | AScore fuel u => let '(r, c) := unit_score w fuel u c in (OfScore r, c)
  | ATrials fuel u => let '(r, c) := avg_trials w fuel u c in (OfTrials r, c)
  | ASuperseded fuel u => let '(r, c) := superseded w (unit_score w fuel) fuel u c in (OfSuperseded r, c)
  | AExercise e => let '(r, c) := exercise_entry w e c in (OfExercise r, c)
  end.
Definition after_questions (w : world) (qs : list question) (c : caches) : caches := fold_left (λ c q, snd (reply w q c)) qs c.
(** The question is asked with at least [n] units of fuel. *)
Definition fuelled (n : nat) (q : question) : Prop :=
  match q with AScore fuel _ | ATrials fuel _ | ASuperseded fuel _ => n ≤ fuel | AExercise _ => True end.
