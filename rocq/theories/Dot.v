(** The picture of the unit graph: src/graph.rs, generate_dot_graph. *)
From Coq Require Import Ascii.
From stdpp Require Import gmap strings list.
From Verif Require Import F32 Graph Library.
Local Open Scope string_scope.
Local Open Scope list_scope.

(** The lines written between the braces: a course (src/graph.rs:700-701), a lesson
    (src/graph.rs:756-757) and an arrow (src/graph.rs:739-741 and 767-769). *)
Inductive dot_line :=
  | CourseNode (c : uid)
  | LessonNode (l : uid)
  | Arrow (a b : uid).

(** The quotation mark that the format strings put around identifiers. *)
Definition quote : ascii := "034"%char.
(** The end of a line, as [writeln!] writes it. *)
Definition eol : string := String "010"%char "".
(** src/graph.rs:701: the identifier is written between the marks as it is. *)
Definition quoted (u : uid) (rest : string) : string := String quote (u +:+ String quote rest).

(** src/graph.rs:701, 740, 757 and 768. [rest] is what follows in the output. *)
Definition write_line (x : dot_line) (rest : string) : string :=
  match x with
  | CourseNode c => "    " +:+ quoted c (" [color=red, style=filled]" +:+ eol +:+ rest)
  | LessonNode l => "    " +:+ quoted l (" [color=blue, style=filled]" +:+ eol +:+ rest)
  | Arrow a b => "    " +:+ quoted a (" -> " +:+ quoted b (eol +:+ rest))
  end.

(** src/graph.rs:692-775. [list] is the order in which a hash set or the keys of a hash map are
    iterated; the text is made of [dot_lines] and [dot_text]. *)
Section Dot.
  Variable list_set : gset uid → list uid.

  (** src/graph.rs:703-741. *)
  Definition course_dependents (g : graph) (courses_only : bool) (c : uid) : list uid :=
    let ds := list_set (default ∅ (get_dependents g c)) in
    let kept := List.filter (λ d, if courses_only then bool_decide (get_unit_type g d = Some Course) else true) ds in
    sort_ids (if courses_only then kept else kept ++ list_set (default ∅ (get_starting_lessons g c))).
  (** src/graph.rs:756-769. *)
  Definition lesson_block (g : graph) (l : uid) : list dot_line :=
    LessonNode l :: (Arrow l <$> sort_ids (list_set (default ∅ (get_dependents g l)))).
  (** src/graph.rs:699-770: the body of the loop over the courses. *)
  Definition course_block (g : graph) (courses_only : bool) (c : uid) : list dot_line :=
    CourseNode c :: (Arrow c <$> course_dependents g courses_only c) ++
    (if courses_only then [] else sort_ids (list_set (default ∅ (get_course_lessons g c))) ≫= lesson_block g).
  (** src/graph.rs:695-699: the keys of the map from courses to lessons, sorted. *)
  Definition dot_lines (g : graph) (courses_only : bool) : list dot_line :=
    sort_ids (list_set (dom (course_lesson_map g))) ≫= course_block g courses_only.
End Dot.

(** src/graph.rs:694 and 772-774. *)
Definition dot_text (l : list dot_line) : string :=
  "digraph dependent_graph {" +:+ eol +:+ foldr write_line ("}" +:+ eol) l.
(** src/graph.rs:692-775, called by src/lib.rs:734-735. *)
Definition generate_dot_graph (list_set : gset uid → list uid) (g : graph) (courses_only : bool) : string :=
  dot_text (dot_lines list_set g courses_only).
