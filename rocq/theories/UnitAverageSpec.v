(** What the theorems about the scores and trials of lessons and courses are stated with: the
    equations that the scores of all units satisfy together. *)
From stdpp Require Import gmap strings list.
From Verif Require Import F32 Graph GraphSpec UnitScorer.

(** The average of some numbers; there is none of no numbers. *)
Definition mean (l : list f32) : option f32 :=
  match l with [] => None | _ => Some (fdiv (fsum l) (f_of_nat (length l))) end.
(** [v] is the average of the numbers that [f] gives for the units in [P], in some order; units
    for which it gives none do not count. *)
Definition mean_over (P : uid → Prop) (f : uid → option f32) (v : option f32) : Prop :=
  ∃ l, NoDup l ∧ (∀ u, u ∈ l ↔ P u) ∧ v = mean (omap f l).

Section average.
  (** [score u] is what is shown as the score of [u]. *)
  Context (w : world) (score : uid → option f32).
  Let g := w_graph w.

  Definition banned (u : uid) : Prop := u ∈ w_banned w.
  (** An exercise of the unit [u], with nothing on the way to it on the blacklist. *)
  Definition counts (u e : uid) : Prop :=
    get_unit_type g e = Some Exercise ∧ ¬ banned e ∧
    (e = u ∨ ∃ l c, get_exercise_lesson g e = Some l ∧ get_lesson_course g l = Some c ∧ ¬ banned l ∧ ¬ banned c ∧ (u = l ∨ u = c)).
  (** All these exercises have a score above 0. *)
  Definition practised (u : uid) : Prop := ∀ e, counts u e → ∃ x, score e = Some x ∧ fgt x fzero = true.
  (** The unit reaches the score at which it supersedes others. One without a score does. *)
  Definition mastered (u : uid) : Prop := ∀ x, score u = Some x → fge x (w_superseding_score w) = true.

  (** A unit gives way to the units that supersede it if it was practised and all of them are
      mastered. *)
  Definition gives_way (u : uid) : Prop :=
    (∃ v, is_superseded_by g u v) ∧ practised u ∧ ∀ v, is_superseded_by g u v → mastered v.
  (** What a superseding unit stands for: itself, or what those stand for to which it gives way. *)
  Inductive stands_for : uid → uid → Prop :=
    | stands_self u : ¬ gives_way u → stands_for u u
    | stands_other u v x : gives_way u → is_superseded_by g u v → stands_for v x → stands_for u x.
  (** [u] is superseded: it was practised, and all that supersede it are mastered. *)
  Definition overtaken (u : uid) : Prop :=
    (∃ v x, is_superseded_by g u v ∧ stands_for v x) ∧ practised u ∧
    ∀ v x, is_superseded_by g u v → stands_for v x → mastered x.

  (** The equations of the scores. *)
  Record scores_add_up (exercise_score : uid → f32) : Prop := {
    s_none : ∀ u, get_unit_type g u = None → score u = None;
    s_exercise : ∀ e, get_unit_type g e = Some Exercise → score e = Some (exercise_score e);
    s_out : ∀ u, get_unit_type g u = Some Lesson ∨ get_unit_type g u = Some Course → banned u ∨ overtaken u → score u = None;
    s_lesson : ∀ l, get_unit_type g l = Some Lesson → ¬ banned l → ¬ overtaken l →
      mean_over (λ e, get_exercise_lesson g e = Some l ∧ ¬ banned e) score (score l);
    s_course : ∀ c, get_unit_type g c = Some Course → ¬ banned c → ¬ overtaken c →
      mean_over (λ l, get_lesson_course g l = Some c) score (score c) }.

  (** The equations of the average numbers of trials. *)
  Record trials_add_up (exercise_trials : uid → nat) (trials : uid → option f32) : Prop := {
    t_lesson : ∀ l, get_unit_type g l = Some Lesson →
      ∃ es, NoDup es ∧ (∀ e, e ∈ es ↔ get_exercise_lesson g e = Some l ∧ ¬ banned e) ∧
        trials l = match es with
                   | [] => None
                   | _ => Some (fdiv (f_of_nat (sum_list (exercise_trials <$> es))) (f_of_nat (length es)))
                   end;
    t_course : ∀ c, get_unit_type g c = Some Course →
      mean_over (λ l, get_lesson_course g l = Some c ∧ ¬ banned l ∧ ¬ overtaken l) trials (trials c) }.
End average.
