(** Properties of the picture of the graph: C70. The vocabulary (which arrows are meant, identifiers
    without quotes, ...) is in DotSpec.v. [ls] is the order in which hash sets are iterated. *)
From stdpp Require Import gmap strings list.
From Verif Require Import F32 Graph GraphSpec GraphMore Dot DotSpec DotProofs DotSample.
Local Open Scope string_scope.
Local Open Scope list_scope.

(** C70, partial: the picture has one node for every course with lessons, one for every lesson
    unless only courses are drawn, and exactly the arrows that are meant. What is missing are the
    courses without lessons, see below. *)
Theorem C70_content_partial : ∀ ls, (∀ s, ls s ≡ₚ elements s) → ∀ ops only, let g := grun ops in let x := dot_lines ls g only in
  generate_dot_graph ls g only = dot_text x ∧
  (∀ c, CourseNode c ∈ x ↔ has_lessons g c) ∧
  (∀ l, LessonNode l ∈ x ↔ only = false ∧ ∃ c, lesson_in g c l) ∧
  (∀ a b, Arrow a b ∈ x ↔ meant g only a b) ∧
  NoDup (nodes_of x).
Proof. exact dot_content. Qed.
Print Assumptions C70_content_partial.
(** No arrow is drawn twice, unless a starting lesson depends on its own course. *)
Theorem C70_arrows_once_partial : ∀ ls, (∀ s, ls s ≡ₚ elements s) → ∀ ops only,
  (only = true ∨ ∀ c l, starts (grun ops) c l → ¬ depends_on (grun ops) l c) → NoDup (arrows_of (dot_lines ls (grun ops) only)).
Proof. exact arrows_once. Qed.
Print Assumptions C70_arrows_once_partial.
(** The text does not depend on the order in which sets are iterated. *)
Theorem C70_deterministic : ∀ ls ls', (∀ s, ls s ≡ₚ elements s) → (∀ s, ls' s ≡ₚ elements s) → ∀ g only,
  generate_dot_graph ls g only = generate_dot_graph ls' g only.
Proof. exact dot_same. Qed.
Print Assumptions C70_deterministic.
(** The text says which nodes and arrows there are, if no identifier has a quote in it. *)
Theorem C70_readable_partial : ∀ ls ls', (∀ s, ls s ≡ₚ elements s) → (∀ s, ls' s ≡ₚ elements s) → ∀ ops ops' only,
  (∀ u, mentioned (grun ops) u → quote_free u) → (∀ u, mentioned (grun ops') u → quote_free u) →
  generate_dot_graph ls (grun ops) only = generate_dot_graph ls' (grun ops') only →
  (∀ c, has_lessons (grun ops) c ↔ has_lessons (grun ops') c) ∧
  (only = false → ∀ l, (∃ c, lesson_in (grun ops) c l) ↔ ∃ c, lesson_in (grun ops') c l) ∧
  ∀ a b, meant (grun ops) only a b ↔ meant (grun ops') only a b.
Proof. exact dot_readable. Qed.
Print Assumptions C70_readable_partial.
Example C70_sample : dot_lines elements (grun (sample_ops ++ [UpdateStartingLessons])) false =
  [CourseNode "A"; Arrow "A" "A::1"; Arrow "A" "B"; LessonNode "A::1"; Arrow "A::1" "A::2"; LessonNode "A::2";
   Arrow "A::2" "B::1"; CourseNode "B"; Arrow "B" "B::1"; LessonNode "B::1"] ∧
  dot_lines elements (grun (sample_ops ++ [UpdateStartingLessons])) true = [CourseNode "A"; Arrow "A" "B"; CourseNode "B"].
Proof. exact sample_picture. Qed.
Example C70_once_nonvacuous : let g := grun (sample_ops ++ [UpdateStartingLessons]) in ∀ c l, starts g c l → ¬ depends_on g l c.
Proof. exact sample_starts. Qed.
Example C70_readable_nonvacuous : ∀ u, mentioned (grun (sample_ops ++ [UpdateStartingLessons])) u → quote_free u.
Proof. exact sample_plain. Qed.

(** C70, false: a course without lessons is not drawn, and neither are the arrows from it, ... *)
Theorem C70_bare_course_refuted : ∃ ops c u, get_unit_type (grun ops) c = Some Course ∧ get_unit_type (grun ops) u = Some Course ∧ depends_on (grun ops) u c ∧
  ∀ ls, (∀ s, ls s ≡ₚ elements s) → ∀ only, CourseNode c ∉ dot_lines ls (grun ops) only ∧ Arrow c u ∉ dot_lines ls (grun ops) only.
Proof. exact bare_missing. Qed.
Print Assumptions C70_bare_course_refuted.
(** ... an arrow may be drawn twice, ... *)
Theorem C70_arrow_twice_refuted : ∃ ops, ∀ ls, (∀ s, ls s ≡ₚ elements s) → ¬ NoDup (arrows_of (dot_lines ls (grun ops) false)).
Proof. exact own_twice. Qed.
Print Assumptions C70_arrow_twice_refuted.
(** ... and two different graphs may have the same picture. *)
Theorem C70_quotes_refuted : ∃ ops ops' c, ∀ ls, (∀ s, ls s ≡ₚ elements s) →
  generate_dot_graph ls (grun ops) true = generate_dot_graph ls (grun ops') true ∧ has_lessons (grun ops) c ∧ ¬ has_lessons (grun ops') c.
Proof. exact odd_same. Qed.
Print Assumptions C70_quotes_refuted.
