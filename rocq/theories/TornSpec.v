(** Vocabulary for the statements about a course whose writing is interrupted. Definitions only. *)
From stdpp Require Import list.
From Verif Require Import Library.

(** [x] has some of the exercises of the lesson [y], and some of the lessons of the course [y]. *)
Definition part_lesson (x y : lesson_manifest * list exercise_manifest) : Prop := x.1 = y.1 ∧ x.2 ⊆+ y.2.
Definition part_course (x y : open_course) : Prop :=
  oc_manifest x = oc_manifest y ∧ ∃ ls, ls ⊆+ oc_lessons y ∧ Forall2 part_lesson (oc_lessons x) ls.
