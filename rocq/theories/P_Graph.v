(** Properties of the unit graph: C01, C02, C03, C04, C06, C07, C09. The vocabulary is in
    GraphSpec.v, the histories ([gop], [grun]) in Graph.v. *)
From stdpp Require Import gmap strings list relations.
From Verif Require Import F32 Graph GraphSpec GraphProofs CycleProofs GraphMore Compute.
Local Open Scope string_scope.

(** C01, first part: dependencies, supersedes relations, and containment. *)
Theorem C01_relations_inverse : ∀ ops : list gop, let g := grun ops in
  (∀ u d, depends_on g u d ↔ dependent_of g d u) ∧
  (∀ u s, supersedes g u s ↔ is_superseded_by g s u) ∧
  (∀ l c, get_lesson_course g l = Some c ↔ answers (get_course_lessons g c) l) ∧
  (∀ e l, get_exercise_lesson g e = Some l ↔ answers (get_lesson_exercises g l) e).
Proof. exact relations_inverse. Qed.
Print Assumptions C01_relations_inverse.

Example C01_example : let g := grun sample_ops in
  get_dependencies g "B" = Some {["A"; "C"]} ∧ get_dependents g "C" = Some {["B"]} ∧
  get_supersedes g "A::2" = Some {["A::1"]} ∧ get_lesson_course g "A::1" = Some "A" ∧
  get_lesson_exercises g "A::1" = Some {["A::1::x"]}.
Proof. by_compute. Qed.

(** C01, second part: encompassing. Full statement: for every history,
    [encompasses g u e w ↔ is_encompassed_by g e u w]. It holds when the graph was told to
    use the dependencies or when at least one edge has been recorded ... *)
Theorem C01_encompassing_inverse_partial : ∀ ops : list gop, let g := grun ops in
  encompasing_equals_dependency g = true ∨ encompassed_by g ≠ ∅ →
  ∀ u e w, encompasses g u e w ↔ is_encompassed_by g e u w.
Proof. exact encompassing_inverse. Qed.
Print Assumptions C01_encompassing_inverse_partial.

Example C01_encompassing_example :
  encompassed_by (grun sample_ops) ≠ ∅ ∧
  get_encompasses (grun sample_ops) "A::2" = Some [("A::1", f_0_5)] ∧
  encompasing_equals_dependency (grun (sample_ops ++ [SetEncompassingEqualsDependency])) = true.
Proof. split; [by vm_compute|]. by vm_compute. Qed.

(** ... and not otherwise. *)
Theorem C01_encompassing_inverse_refuted :
  ∃ ops u e w, let g := grun ops in is_encompassed_by g e u w ∧ ¬ encompasses g u e w.
Proof. exact encompassing_not_inverse. Qed.
Print Assumptions C01_encompassing_inverse_refuted.

(** C02. *)
Theorem C02_type_stable : ∀ ops1 ops2 u t,
  get_unit_type (grun ops1) u = Some t → get_unit_type (grun (ops1 ++ ops2)) u = Some t.
Proof. exact type_stable. Qed.
Print Assumptions C02_type_stable.

Theorem C02_readd_rejected : ∀ g u t c,
  get_unit_type g u = Some t →
  add_course g u = (g, false) ∧ add_lesson g u c = (g, false) ∧ add_exercise g u c = (g, false).
Proof. exact readd_rejected. Qed.
Print Assumptions C02_readd_rejected.

Example C02_example : get_unit_type (grun sample_ops) "A::1" = Some Lesson ∧
  get_unit_type (grun sample_ops) "A::1::x" = Some Exercise ∧ get_unit_type (grun sample_ops) "C" = None.
Proof. by_compute. Qed.

(** C03. *)
Theorem C03_cycle_check : ∀ (o : order), order_ok o → ∀ ops : list gop, let g := grun ops in
  check_cycles o g = true ↔
  acyclic (depends_on g) ∧ acyclic (supersedes g) ∧ acyclic (encompasses_some g).
Proof. exact (λ o Ho ops, check_cycles_iff o Ho (grun ops) (grun_inv ops)). Qed.
Print Assumptions C03_cycle_check.

Theorem C03_rejected_only_for_cycles : ∀ (o : order), order_ok o → ∀ ops : list gop,
  match check_cycles_result o (grun ops) with NoCycle _ | Cycle _ => True | _ => False end.
Proof. exact (λ o Ho ops, check_cycles_result_kind o Ho (grun ops) (grun_inv ops)). Qed.
Print Assumptions C03_rejected_only_for_cycles.

Example C03_example : order_ok sample_order ∧
  check_cycles sample_order (grun sample_ops) = true ∧
  check_cycles sample_order (grun (sample_ops ++ [AddDependencies "A" Course ["B"]])) = false ∧
  check_cycles sample_order (grun (sample_ops ++ [AddSuperseded "A::1" ["A::2"]])) = false ∧
  check_cycles sample_order (grun (sample_ops ++ [AddEncompassed "A" [] [("B", f_0_5)]])) = false.
Proof. split; [exact sample_order_ok|]. split_and!; vm_compute; reflexivity. Qed.

(** C04: the number of iterations allowed, [cycle_fuel], is two plus the number of edges;
    it is enough on every graph, reachable or not. *)
Theorem C04_cycle_check_terminates : ∀ (o : order) (g : graph),
  order_ok o → check_cycles_result o g ≠ OutOfFuel.
Proof. exact check_cycles_terminates. Qed.
Print Assumptions C04_cycle_check_terminates.

Example C04_example :
  check_cycles_result sample_order (grun (sample_ops ++ [AddDependencies "A" Course ["B"]])) =
    Cycle ["B"; "A"; "B"].
Proof. vm_compute. reflexivity. Qed.

(** C06. [fle] is the IEEE comparison, so it also excludes NaN. *)
Theorem C06_weights_in_unit_interval : ∀ (ops : list gop) u e w, let g := grun ops in
  encompasses g u e w ∨ is_encompassed_by g u e w → fle fzero w = true ∧ fle w f_1 = true.
Proof. exact weights_in_unit. Qed.
Print Assumptions C06_weights_in_unit_interval.

Example C06_example : encompasses (grun sample_ops) "A::2" "A::1" f_0_5 ∧
  (add_encompassed (grun sample_ops) "A" [] [("X", f_5)]).2 = false ∧
  (add_encompassed (grun sample_ops) "A" [] [("X", fdiv fzero fzero)]).2 = false.
Proof.
  split; [|split; by vm_compute]. unfold encompasses.
  assert (get_encompasses (grun sample_ops) "A::2" = Some [("A::1", f_0_5)]) as -> by by vm_compute.
  left.
Qed.

(** C07. Full statement: a failing operation leaves the graph unchanged. True for
    courses, dependencies and encompassed units; a failing [add_lesson] or [add_exercise]
    may at most register the type of the new unit. *)
Theorem C07_failed_operations_partial :
  (∀ g c g', add_course g c = (g', false) → g' = g) ∧
  (∀ g u t deps g', add_dependencies g u t deps = (g', false) → g' = g) ∧
  (∀ g u deps enc g', add_encompassed g u deps enc = (g', false) → g' = g) ∧
  (∀ g l c g', add_lesson g l c = (g', false) →
     g' = g ∨ (get_unit_type g l = None ∧ g' = set_type_map (λ m, <[l := Lesson]> m) g)) ∧
  (∀ g e l g', add_exercise g e l = (g', false) →
     g' = g ∨ (get_unit_type g e = None ∧ g' = set_type_map (λ m, <[e := Exercise]> m) g)).
Proof.
  exact (conj add_course_failed (conj add_dependencies_failed (conj add_encompassed_failed
    (conj add_lesson_failed add_exercise_failed)))).
Qed.
Print Assumptions C07_failed_operations_partial.

Theorem C07_failed_operations_refuted :
  ∃ ops l c, let g := grun ops in
    (add_lesson g l c).2 = false ∧ get_unit_type (add_lesson g l c).1 l ≠ get_unit_type g l.
Proof. exact failed_add_lesson_changes. Qed.
Print Assumptions C07_failed_operations_refuted.

Example C07_example : (add_course (grun sample_ops) "A").2 = false ∧
  (add_dependencies (grun sample_ops) "A" Course ["A"]).2 = false ∧
  (add_lesson (grun sample_ops) "A::1" "A").2 = false ∧ (add_exercise (grun sample_ops) "new" "A").2 = false.
Proof. by_compute. Qed.

(** C09, on any history; for libraries see P_Library.v. *)
Theorem C09_starting_lessons : ∀ (ops : list gop) c l, let g := grun (ops ++ [UpdateStartingLessons]) in
  is_Some (get_course_lessons g c) →
  (answers (get_starting_lessons g c) l ↔
   get_lesson_course g l = Some c ∧ ∀ d, depends_on g l d → get_lesson_course g d ≠ Some c).
Proof. exact starting_lessons_of_history. Qed.
Print Assumptions C09_starting_lessons.

(** The order in which the courses are visited does not matter. *)
Theorem C09_order_irrelevant : ∀ g ks, (∀ c, c ∈ ks ↔ c ∈ dom (course_lesson_map g)) →
  fold_left update_starting_lessons_of ks g = update_starting_lessons g.
Proof. exact update_starting_lessons_perm. Qed.
Print Assumptions C09_order_irrelevant.

Example C09_example : let g := grun (sample_ops ++ [UpdateStartingLessons]) in
  get_course_lessons g "A" = Some {["A::1"; "A::2"]} ∧ get_starting_lessons g "A" = Some {["A::1"]} ∧
  get_starting_lessons g "B" = Some {["B::1"]}.
Proof. by_compute. Qed.
