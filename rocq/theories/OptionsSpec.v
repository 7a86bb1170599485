(** What the properties of mastery scores and options speak about. *)
From stdpp Require Import base list.
From Coq Require Import Reals.
From Verif Require Import F32 F32Real Options.

(** The number a mastery score stands for. *)
Definition score_value (s : mastery_score) : R :=
  match s with One => 1 | Two => 2 | Three => 3 | Four => 4 | Five => 5 end%R.
(** The tolerance of conversions, 2^-23. *)
Definition tolerance : R := (/ 8388608)%R.

(** The five windows, from the lowest scores to the highest. *)
Definition windows (o : scheduler_options) : list window :=
  [new_window o; target_window o; current_window o; easy_window o; mastered_window o].
(** The windows a score lies in. *)
Definition windows_of (o : scheduler_options) (s : f32) : list window :=
  filter (λ w, in_window w s = true) (windows o).
(** A score between 0 and 5. *)
Definition score_in_range (s : f32) : Prop := fle fzero s = true ∧ fle s f_5 = true.

(** Each window starts exactly where the one before ends, no window ends before it starts,
    the first starts at or below 0, and only the last reaches 5. *)
Definition exact_windows (o : scheduler_options) : Prop :=
  fle (range_lo (new_window o)) fzero = true ∧
  feq (range_hi (new_window o)) (range_lo (target_window o)) = true ∧
  feq (range_hi (target_window o)) (range_lo (current_window o)) = true ∧
  feq (range_hi (current_window o)) (range_lo (easy_window o)) = true ∧
  feq (range_hi (easy_window o)) (range_lo (mastered_window o)) = true ∧
  Forall (λ w, fle (range_lo w) (range_hi w) = true) (windows o) ∧
  Forall (λ w, flt (range_hi w) f_5 = true) (take 4 (windows o)).
