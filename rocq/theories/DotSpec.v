(** Vocabulary for the statements about the picture of the graph. *)
From Coq Require Import Ascii.
From stdpp Require Import gmap strings list.
From Verif Require Import F32 Graph GraphSpec Library Dot.

(** A course that has lessons, and a lesson of some course. *)
Definition lesson_in (g : graph) (c l : uid) : Prop := answers (get_course_lessons g c) l.
Definition has_lessons (g : graph) (c : uid) : Prop := ∃ l, lesson_in g c l.
Definition starts (g : graph) (c l : uid) : Prop := answers (get_starting_lessons g c) l.

(** The arrows that are meant: from a drawn course to the units that depend on it and to its
    starting lessons, and from a drawn lesson to the units that depend on it. With courses only,
    between courses. *)
Definition meant (g : graph) (courses_only : bool) (a b : uid) : Prop :=
  if courses_only then has_lessons g a ∧ depends_on g b a ∧ get_unit_type g b = Some Course
  else has_lessons g a ∧ (depends_on g b a ∨ starts g a b) ∨ (∃ c, lesson_in g c a) ∧ depends_on g b a.

(** The identifiers of a line, and those without quotes. *)
Definition ids_of (x : dot_line) : list uid :=
  match x with CourseNode c => [c] | LessonNode l => [l] | Arrow a b => [a; b] end.
Definition quote_free (u : uid) : Prop := ∀ p s : string, u ≠ p +:+ String quote s.
(** All identifiers the graph mentions. *)
Definition mentioned (g : graph) (u : uid) : Prop :=
  has_lessons g u ∨ (∃ c, lesson_in g c u) ∨ (∃ c, starts g c u) ∨ ∃ a, depends_on g u a.

(** The picture as it can be read off: the nodes and the arrows. *)
Definition nodes_of (l : list dot_line) : list uid :=
  omap (λ x, match x with CourseNode c => Some c | LessonNode l => Some l | Arrow _ _ => None end) l.
Definition arrows_of (l : list dot_line) : list (uid * uid) :=
  omap (λ x, match x with Arrow a b => Some (a, b) | _ => None end) l.
