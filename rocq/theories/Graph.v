(** Model of the unit graph, src/graph.rs.

    [UstrMap<Arc<UstrSet>>] is [gmap uid (gset uid)]. Errors carry a message in
    the code; here an operation returns the new graph and whether it succeeded.
    The graph is returned in the error case as well, because several helpers
    mutate before they fail. *)
From stdpp Require Import gmap strings list.
From Verif Require Import F32.

(** [Ustr]: an interned string. *)
Notation uid := string (only parsing).

(** src/data.rs:148 [UnitType]. *)
Inductive unit_type := Exercise | Lesson | Course.
Global Instance unit_type_eq_dec : EqDecision unit_type.
Proof. solve_decision. Defined.

(** src/graph.rs:182-221 [InMemoryUnitGraph]. *)
Record graph := Graph {
  type_map : gmap uid unit_type;
  course_lesson_map : gmap uid (gset uid);
  starting_lessons_map : gmap uid (gset uid);
  lesson_course_map : gmap uid uid;
  lesson_exercise_map : gmap uid (gset uid);
  exercise_lesson_map : gmap uid uid;
  dependency_graph : gmap uid (gset uid);
  dependent_graph : gmap uid (gset uid);
  dependency_sinks : gset uid;
  encompasses_graph : gmap uid (list (uid * f32));
  encompassed_by : gmap uid (list (uid * f32));
  supersedes_graph : gmap uid (gset uid);
  superseded_by : gmap uid (gset uid)
}.

(** [InMemoryUnitGraph::default()], src/graph.rs:181. *)
Definition empty_graph : graph := Graph ∅ ∅ ∅ ∅ ∅ ∅ ∅ ∅ ∅ ∅ ∅ ∅ ∅.

(** Field updates. *)
Definition set_type_map (f : gmap uid unit_type → gmap uid unit_type) (g : graph) : graph :=
  Graph (f (type_map g)) (course_lesson_map g) (starting_lessons_map g) (lesson_course_map g)
    (lesson_exercise_map g) (exercise_lesson_map g) (dependency_graph g) (dependent_graph g)
    (dependency_sinks g) (encompasses_graph g) (encompassed_by g) (supersedes_graph g) (superseded_by g).
Definition set_course_lesson_map f (g : graph) : graph :=
  Graph (type_map g) (f (course_lesson_map g)) (starting_lessons_map g) (lesson_course_map g)
    (lesson_exercise_map g) (exercise_lesson_map g) (dependency_graph g) (dependent_graph g)
    (dependency_sinks g) (encompasses_graph g) (encompassed_by g) (supersedes_graph g) (superseded_by g).
Definition set_starting_lessons_map f (g : graph) : graph :=
  Graph (type_map g) (course_lesson_map g) (f (starting_lessons_map g)) (lesson_course_map g)
    (lesson_exercise_map g) (exercise_lesson_map g) (dependency_graph g) (dependent_graph g)
    (dependency_sinks g) (encompasses_graph g) (encompassed_by g) (supersedes_graph g) (superseded_by g).
Definition set_lesson_course_map f (g : graph) : graph :=
  Graph (type_map g) (course_lesson_map g) (starting_lessons_map g) (f (lesson_course_map g))
    (lesson_exercise_map g) (exercise_lesson_map g) (dependency_graph g) (dependent_graph g)
    (dependency_sinks g) (encompasses_graph g) (encompassed_by g) (supersedes_graph g) (superseded_by g).
Definition set_lesson_exercise_map f (g : graph) : graph :=
  Graph (type_map g) (course_lesson_map g) (starting_lessons_map g) (lesson_course_map g)
    (f (lesson_exercise_map g)) (exercise_lesson_map g) (dependency_graph g) (dependent_graph g)
    (dependency_sinks g) (encompasses_graph g) (encompassed_by g) (supersedes_graph g) (superseded_by g).
Definition set_exercise_lesson_map f (g : graph) : graph :=
  Graph (type_map g) (course_lesson_map g) (starting_lessons_map g) (lesson_course_map g)
    (lesson_exercise_map g) (f (exercise_lesson_map g)) (dependency_graph g) (dependent_graph g)
    (dependency_sinks g) (encompasses_graph g) (encompassed_by g) (supersedes_graph g) (superseded_by g).
Definition set_dependency_graph f (g : graph) : graph :=
  Graph (type_map g) (course_lesson_map g) (starting_lessons_map g) (lesson_course_map g)
    (lesson_exercise_map g) (exercise_lesson_map g) (f (dependency_graph g)) (dependent_graph g)
    (dependency_sinks g) (encompasses_graph g) (encompassed_by g) (supersedes_graph g) (superseded_by g).
Definition set_dependent_graph f (g : graph) : graph :=
  Graph (type_map g) (course_lesson_map g) (starting_lessons_map g) (lesson_course_map g)
    (lesson_exercise_map g) (exercise_lesson_map g) (dependency_graph g) (f (dependent_graph g))
    (dependency_sinks g) (encompasses_graph g) (encompassed_by g) (supersedes_graph g) (superseded_by g).
Definition set_dependency_sinks f (g : graph) : graph :=
  Graph (type_map g) (course_lesson_map g) (starting_lessons_map g) (lesson_course_map g)
    (lesson_exercise_map g) (exercise_lesson_map g) (dependency_graph g) (dependent_graph g)
    (f (dependency_sinks g)) (encompasses_graph g) (encompassed_by g) (supersedes_graph g) (superseded_by g).
Definition set_encompasses_graph f (g : graph) : graph :=
  Graph (type_map g) (course_lesson_map g) (starting_lessons_map g) (lesson_course_map g)
    (lesson_exercise_map g) (exercise_lesson_map g) (dependency_graph g) (dependent_graph g)
    (dependency_sinks g) (f (encompasses_graph g)) (encompassed_by g) (supersedes_graph g) (superseded_by g).
Definition set_encompassed_by f (g : graph) : graph :=
  Graph (type_map g) (course_lesson_map g) (starting_lessons_map g) (lesson_course_map g)
    (lesson_exercise_map g) (exercise_lesson_map g) (dependency_graph g) (dependent_graph g)
    (dependency_sinks g) (encompasses_graph g) (f (encompassed_by g)) (supersedes_graph g) (superseded_by g).
Definition set_supersedes_graph f (g : graph) : graph :=
  Graph (type_map g) (course_lesson_map g) (starting_lessons_map g) (lesson_course_map g)
    (lesson_exercise_map g) (exercise_lesson_map g) (dependency_graph g) (dependent_graph g)
    (dependency_sinks g) (encompasses_graph g) (encompassed_by g) (f (supersedes_graph g)) (superseded_by g).
Definition set_superseded_by f (g : graph) : graph :=
  Graph (type_map g) (course_lesson_map g) (starting_lessons_map g) (lesson_course_map g)
    (lesson_exercise_map g) (exercise_lesson_map g) (dependency_graph g) (dependent_graph g)
    (dependency_sinks g) (encompasses_graph g) (encompassed_by g) (supersedes_graph g) (f (superseded_by g)).

(** [entry(k).or_default()] followed by [insert] / [extend] on a set. *)
Definition map_insert_set (k x : uid) (m : gmap uid (gset uid)) : gmap uid (gset uid) :=
  <[k := default ∅ (m !! k) ∪ {[x]}]> m.
Definition map_extend_set (k : uid) (xs : list uid) (m : gmap uid (gset uid)) : gmap uid (gset uid) :=
  <[k := default ∅ (m !! k) ∪ list_to_set xs]> m.
(** [entry(k).or_default()] followed by [extend] on a vector. *)
Definition map_extend_vec {A} (k : uid) (xs : list A) (m : gmap uid (list A)) : gmap uid (list A) :=
  <[k := default [] (m !! k) ++ xs]> m.

(** ** Queries *)

(** src/graph.rs:582-592. *)
Definition get_unit_type (g : graph) (u : uid) : option unit_type := type_map g !! u.
Definition get_course_lessons (g : graph) (c : uid) : option (gset uid) := course_lesson_map g !! c.
Definition get_starting_lessons (g : graph) (c : uid) : option (gset uid) := starting_lessons_map g !! c.
(** src/graph.rs:635-657. *)
Definition get_lesson_course (g : graph) (l : uid) : option uid := lesson_course_map g !! l.
Definition get_lesson_exercises (g : graph) (l : uid) : option (gset uid) := lesson_exercise_map g !! l.
Definition get_exercise_lesson (g : graph) (e : uid) : option uid := exercise_lesson_map g !! e.
Definition get_dependencies (g : graph) (u : uid) : option (gset uid) := dependency_graph g !! u.
Definition get_dependents (g : graph) (u : uid) : option (gset uid) := dependent_graph g !! u.
Definition get_dependency_sinks (g : graph) : gset uid := dependency_sinks g.

(** src/graph.rs:659-667. The order in which a hash set is copied to a vector is
    not determined; [elements] stands for one such order and no theorem depends
    on it. *)
Definition get_encompasses (g : graph) (u : uid) : option (list (uid * f32)) :=
  if decide (encompasses_graph g = ∅) then
    (λ s, (λ d, (d, f_1)) <$> elements s) <$> get_dependencies g u
  else encompasses_graph g !! u.
(** src/graph.rs:669-677. *)
Definition get_encompassed_by (g : graph) (u : uid) : option (list (uid * f32)) :=
  if decide (encompassed_by g = ∅) then
    (λ s, (λ d, (d, f_1)) <$> elements s) <$> get_dependents g u
  else encompassed_by g !! u.
(** src/graph.rs:679-685. *)
Definition get_supersedes (g : graph) (u : uid) : option (gset uid) := supersedes_graph g !! u.
Definition get_superseded_by (g : graph) (u : uid) : option (gset uid) := superseded_by g !! u.
(** src/graph.rs:565-567. *)
Definition encompasing_equals_dependency (g : graph) : bool :=
  bool_decide (encompasses_graph g = ∅) && bool_decide (encompassed_by g = ∅).

(** ** Updates *)

(** src/graph.rs:231-242: the part of [update_dependency_sinks] that concerns the
    unit itself; [new_empty] is [dependencies.is_empty()]. *)
Definition update_sink_unit (g : graph) (u : uid) (new_empty : bool) : graph :=
  let current := default ∅ (dependency_graph g !! u) in
  let g1 :=
    if bool_decide (current = ∅) && new_empty
    then set_dependency_sinks (λ s, s ∪ {[u]}) g
    else set_dependency_sinks (λ s, s ∖ {[u]}) g in
  match get_lesson_course g1 u with
  | Some _ => set_dependency_sinks (λ s, s ∖ {[u]}) g1
  | None => g1
  end.

(** src/graph.rs:226-253. The recursive call passes an empty slice, so the
    recursion stops at the second level. *)
Definition update_dependency_sinks (g : graph) (u : uid) (deps : list uid) : graph :=
  fold_left (λ g d, update_sink_unit g d true) deps
    (update_sink_unit g u (match deps with [] => true | _ => false end)).

(** src/graph.rs:257-274. *)
Definition update_unit_type (g : graph) (u : uid) (t : unit_type) : graph * bool :=
  match type_map g !! u with
  | None => (set_type_map (λ m, <[u := t]> m) g, true)
  | Some t' => (g, bool_decide (t = t'))
  end.

(** src/graph.rs:277-287. *)
Definition add_course (g : graph) (c : uid) : graph * bool :=
  match type_map g !! c with
  | Some _ => (g, false)
  | None => update_unit_type g c Course
  end.

(** src/graph.rs:290-305. The lesson's type is recorded before the course's type is
    checked. *)
Definition add_lesson (g : graph) (l c : uid) : graph * bool :=
  match type_map g !! l with
  | Some _ => (g, false)
  | None =>
      let (g1, ok1) := update_unit_type g l Lesson in
      if ok1 then
        let (g2, ok2) := update_unit_type g1 c Course in
        if ok2 then
          (set_course_lesson_map (map_insert_set c l)
             (set_lesson_course_map (λ m, <[l := c]> m) g2), true)
        else (g2, false)
      else (g1, false)
  end.

(** src/graph.rs:308-323. *)
Definition add_exercise (g : graph) (e l : uid) : graph * bool :=
  match type_map g !! e with
  | Some _ => (g, false)
  | None =>
      let (g1, ok1) := update_unit_type g e Exercise in
      if ok1 then
        let (g2, ok2) := update_unit_type g1 l Lesson in
        if ok2 then
          (set_exercise_lesson_map (λ m, <[e := l]> m)
             (set_lesson_exercise_map (map_insert_set l e) g2), true)
        else (g2, false)
      else (g1, false)
  end.

(** src/graph.rs:327-347. *)
Definition verify_dependencies (g : graph) (u : uid) (t : unit_type) (deps : list uid) : bool :=
  bool_decide (t ≠ Exercise) &&
  forallb (λ d, bool_decide (d ≠ u)) deps &&
  bool_decide (is_Some (type_map g !! u)).

(** src/graph.rs:350-367. *)
Definition add_dependencies (g : graph) (u : uid) (t : unit_type) (deps : list uid) : graph * bool :=
  if verify_dependencies g u t deps then
    let g1 := update_dependency_sinks g u deps in
    let g2 := set_dependency_graph (map_extend_set u deps) g1 in
    (set_dependent_graph (λ m, fold_left (λ m d, map_insert_set d u m) deps m) g2, true)
  else (g, false).

(** src/graph.rs:385-393: the explicit list followed by the dependencies that are
    not in it, with weight 1.0. *)
Definition full_encompassed (deps : list uid) (enc : list (uid * f32)) : list (uid * f32) :=
  enc ++ ((λ d, (d, f_1)) <$>
    List.filter (λ d, negb (existsb (λ e, bool_decide (e.1 = d)) enc)) deps).

(** src/graph.rs:370-407. [(0.0..=1.0).contains(w)] is [0.0 <= w && w <= 1.0]. *)
Definition add_encompassed (g : graph) (u : uid) (deps : list uid) (enc : list (uid * f32)) : graph * bool :=
  if forallb (λ e, fle fzero e.2 && fle e.2 f_1) enc then
    let full := full_encompassed deps enc in
    let g1 := set_encompasses_graph (map_extend_vec u full) g in
    (set_encompassed_by (λ m, fold_left (λ m e, map_extend_vec e.1 [(u, e.2)] m) full m) g1, true)
  else (g, false).

(** src/graph.rs:559-563. *)
Definition set_encompasing_equals_dependency (g : graph) : graph :=
  set_encompassed_by (λ _, ∅) (set_encompasses_graph (λ _, ∅) g).

(** src/graph.rs:569-580. *)
Definition add_superseded (g : graph) (u : uid) (sup : list uid) : graph :=
  match sup with
  | [] => g
  | _ =>
      let g1 := set_supersedes_graph (map_extend_set u sup) g in
      set_superseded_by (λ m, fold_left (λ m s, map_insert_set s u m) sup m) g1
  end.

(** src/graph.rs:599-611: the starting lessons of one course. *)
Definition course_starting_lessons (g : graph) (c : uid) : gset uid :=
  let lessons := default ∅ (course_lesson_map g !! c) in
  filter (λ l, match get_dependencies g l with
               | None => true
               | Some ds => bool_decide (lessons ## ds)
               end = true) lessons.

(** src/graph.rs:617-625. *)
Definition has_starting_dependencies (g : graph) (starting : gset uid) : bool :=
  existsb (λ l, match get_dependencies g l with
                | None => false
                | Some ds => negb (bool_decide (ds = ∅)) &&
                             forallb (λ d, bool_decide (is_Some (get_unit_type g d))) (elements ds)
                end) (elements starting).

(** src/graph.rs:597-632: the body of the loop for one course. *)
Definition update_starting_lessons_of (g : graph) (c : uid) : graph :=
  let starting := course_starting_lessons g c in
  let g1 :=
    if bool_decide (c ∈ dependency_sinks g) && has_starting_dependencies g starting
    then set_dependency_sinks (λ s, s ∖ {[c]}) g
    else g in
  set_starting_lessons_map (λ m, <[c := starting]> m) g1.

(** src/graph.rs:594-633. The loop runs over the keys of the course map in hash
    order; every iteration only touches the entries of its own course, so the
    order does not matter (lemma [update_starting_lessons_perm]). *)
Definition update_starting_lessons (g : graph) : graph :=
  fold_left update_starting_lessons_of (elements (dom (course_lesson_map g))) g.

(** ** Cycle check *)

Inductive cycle_result :=
  | NoCycle (visited : gset uid)
  | Inconsistent (u v : uid)
  | Cycle (path : list uid)
  | OutOfFuel.

(** src/graph.rs:437-454: the loop over the neighbours of the current unit. [inr]
    is an early return. New paths are pushed on top of the stack, which is the
    head of the list. *)
Fixpoint push_neighbors (check_reverse : uid → uid → bool) (path : list uid) (cur : uid)
    (ns : list uid) (stack : list (list uid)) : list (list uid) + cycle_result :=
  match ns with
  | [] => inl stack
  | n :: ns =>
      if negb (check_reverse cur n) then inr (Inconsistent cur n)
      else if bool_decide (n ∈ path) then inr (Cycle (path ++ [n]))
      else push_neighbors check_reverse path cur ns ((path ++ [n]) :: stack)
  end.

(** src/graph.rs:426-456: [while let Some(path) = stack.pop()]. The current unit is
    the last of the path, or the empty identifier for an empty path. *)
Fixpoint check_from (neighbors : uid → option (list uid)) (check_reverse : uid → uid → bool)
    (fuel : nat) (stack : list (list uid)) (visited : gset uid) : cycle_result :=
  match fuel with
  | 0 => OutOfFuel
  | S fuel =>
      match stack with
      | [] => NoCycle visited
      | path :: stack =>
          let cur := default ""%string (last path) in
          if bool_decide (cur ∈ visited) then
            check_from neighbors check_reverse fuel stack visited
          else
            let visited := visited ∪ {[cur]} in
            match neighbors cur with
            | None => check_from neighbors check_reverse fuel stack visited
            | Some ns =>
                match push_neighbors check_reverse path cur ns stack with
                | inl stack => check_from neighbors check_reverse fuel stack visited
                | inr r => r
                end
            end
      end
  end.

(** src/graph.rs:411-459. *)
Fixpoint check_graph_cycles (neighbors : uid → option (list uid)) (check_reverse : uid → uid → bool)
    (fuel : nat) (keys : list uid) (visited : gset uid) : cycle_result :=
  match keys with
  | [] => NoCycle visited
  | k :: keys =>
      if bool_decide (k ∈ visited) then
        check_graph_cycles neighbors check_reverse fuel keys visited
      else
        match check_from neighbors check_reverse fuel [[k]] visited with
        | NoCycle visited => check_graph_cycles neighbors check_reverse fuel keys visited
        | r => r
        end
  end.

(** The orders in which the three maps and their sets are iterated. [ord_keys i] and
    [ord_set i u] are for the i-th graph (0 dependencies, 1 supersedes,
    2 encompassing). *)
Record order := Order {
  ord_keys : nat → gset uid → list uid;
  ord_set : nat → uid → gset uid → list uid
}.

(** Number of loop iterations that suffices for one graph: all pushed paths, the
    initial path, and the final test of the empty stack
    (lemma [check_graph_cycles_fuel]). *)
Definition cycle_fuel (neighbors : uid → option (list uid)) (keys : list uid) : nat :=
  2 + sum_list_with (λ k, length (default [] (neighbors k))) keys.

Definition check_one (neighbors : uid → option (list uid)) (check_reverse : uid → uid → bool)
    (keys : list uid) : cycle_result :=
  check_graph_cycles neighbors check_reverse (cycle_fuel neighbors keys) keys ∅.

Definition dep_neighbors (o : order) (g : graph) (u : uid) : option (list uid) :=
  ord_set o 0 u <$> get_dependencies g u.
Definition sup_neighbors (o : order) (g : graph) (u : uid) : option (list uid) :=
  ord_set o 1 u <$> get_supersedes g u.
Definition enc_neighbors (g : graph) (u : uid) : option (list uid) :=
  (λ v, v.*1) <$> get_encompasses g u.

Definition dep_reverse (g : graph) (u d : uid) : bool :=
  bool_decide (u ∈ default ∅ (get_dependents g d)).
Definition sup_reverse (g : graph) (u s : uid) : bool :=
  bool_decide (u ∈ default ∅ (get_superseded_by g s)).
Definition enc_reverse (g : graph) (u e : uid) : bool :=
  existsb (λ p, bool_decide (p.1 = u)) (default [] (get_encompassed_by g e)).

(** src/graph.rs:462-520. *)
Definition check_cycles_result (o : order) (g : graph) : cycle_result :=
  match check_one (dep_neighbors o g) (dep_reverse g) (ord_keys o 0 (dom (dependency_graph g))) with
  | NoCycle _ =>
      match check_one (sup_neighbors o g) (sup_reverse g) (ord_keys o 1 (dom (supersedes_graph g))) with
      | NoCycle _ =>
          check_one (enc_neighbors g) (enc_reverse g) (ord_keys o 2 (dom (encompasses_graph g)))
      | r => r
      end
  | r => r
  end.
Definition check_cycles (o : order) (g : graph) : bool :=
  match check_cycles_result o g with NoCycle _ => true | _ => false end.

(** ** Histories of operations *)

Inductive gop :=
  | AddCourse (c : uid)
  | AddLesson (l c : uid)
  | AddExercise (e l : uid)
  | AddDependencies (u : uid) (t : unit_type) (deps : list uid)
  | AddEncompassed (u : uid) (deps : list uid) (enc : list (uid * f32))
  | AddSuperseded (u : uid) (sup : list uid)
  | SetEncompassingEqualsDependency
  | UpdateStartingLessons.

Definition gstep (g : graph) (o : gop) : graph * bool :=
  match o with
  | AddCourse c => add_course g c
  | AddLesson l c => add_lesson g l c
  | AddExercise e l => add_exercise g e l
  | AddDependencies u t deps => add_dependencies g u t deps
  | AddEncompassed u deps enc => add_encompassed g u deps enc
  | AddSuperseded u sup => (add_superseded g u sup, true)
  | SetEncompassingEqualsDependency => (set_encompasing_equals_dependency g, true)
  | UpdateStartingLessons => (update_starting_lessons g, true)
  end.

(** The graph after a history; failed operations are part of it. *)
Definition grun (ops : list gop) : graph := fold_left (λ g o, (gstep g o).1) ops empty_graph.
