(** Properties of the way through a library: C96, and C49 and C50 for tidy libraries. What is offered
    depends on everything the search can see (SearchSpec.v): the library, the blacklist, the
    scores, the options. The specification is in ProgressSpec.v. *)
From stdpp Require Import gmap strings list relations.
From Verif Require Import F32 Graph GraphSpec Library LibrarySpec Filters Options OptionsSpec Batch BatchSpec Search SearchSpec ProgressSpec SearchSample
  ProgressProofs ProgressSample.
Local Open Scope string_scope.
Local Open Scope list_scope.

(** C96 at full strength would say that with every accepted library and every state of the student
    there is an exercise of a lesson that was not passed, or as many lessons as are allowed at a
    time are in progress, or everything is passed. It is false when a course is superseded: B
    depends on nothing but A, which is superseded by S, and S is mastered. B and B::1 are unlocked and
    not passed, but no exercise of them is offered, and nothing else that was not passed. *)
Theorem C96_superseded_refuted : ∃ env fuel cs, opened (s_lib env) ∧ (∀ i, orders_ok (plain i)) ∧ verify_options (s_options env) = true ∧
  passing_numbers env ∧ fgt (min_fraction (passing_score (s_options env))) fzero = true ∧
  answers_exercises env ∧ steady env ∧ well_ordered env ∧ s_banned env = ∅ ∧
  (∀ u, s_superseded env u = true ↔ u = "A") ∧ (∀ v, is_superseded_by (s_graph env) "A" v ↔ v = "S") ∧
  s_score env "S" = Some (Some f_5) ∧ (∀ e, s_score env e = None ∨ s_score env e = Some (Some f_1) ∨ s_score env e = Some (Some f_5)) ∧
  unit_candidates env plain fuel None = Found cs ∧
  lesson_of env "B::1" "B" ∧ unlocked env None "B" ∧ unlocked env None "B::1" ∧ not_passed env "B::1" ∧
  (∀ c, c ∈ cs → ¬ not_passed env (lesson_id c)) ∧ ¬ enough_in_progress env cs.
Proof. exact old_course_blocks. Qed.
Print Assumptions C96_superseded_refuted.
(** C96, partial: without superseded courses, if nothing waits for itself, hides behind a first lesson
    or depends on an exercise, and the scores of units agree with those of their parts. Then the
    candidates of a request without a filter have an exercise of a lesson that was not passed,
    unless as many lessons as are allowed at a time are in progress or all lessons are satisfied
    (passed, blacklisted, superseded or without anything to pass); and they are never empty if there
    is an exercise to offer at all. Missing: the agreement of the scores is assumed here. *)
Theorem C96_progress_partial : ∀ env os, opened (s_lib env) → (∀ i, orders_ok (os i)) → verify_options (s_options env) = true →
  passing_numbers env → fgt (min_fraction (passing_score (s_options env))) fzero = true →
  answers_exercises env → steady env → well_ordered env → (∀ c, is_course env c → s_superseded env c = false) →
  ∃ cs fuel, (∀ fuel', fuel ≤ fuel' → unit_candidates env os fuel' None = Found cs) ∧
    ((∃ c, c ∈ cs ∧ not_passed env (lesson_id c)) ∨ enough_in_progress env cs ∨ ∀ l, is_lesson env l → satisfied env l) ∧
    ((∃ e l, exercise_of env e l ∧ clean env e ∧ s_superseded env l = false) → cs ≠ []).
Proof. exact something_to_do. Qed.
Print Assumptions C96_progress_partial.
Example C96_nonvacuous : ∃ env, opened (s_lib env) ∧ (∀ i, orders_ok (plain i)) ∧ verify_options (s_options env) = true ∧
  passing_numbers env ∧ fgt (min_fraction (passing_score (s_options env))) fzero = true ∧
  answers_exercises env ∧ steady env ∧ well_ordered env ∧ (∀ c, is_course env c → s_superseded env c = false) ∧
  not_passed env "A::2" ∧ not_passed env "B::1" ∧ ¬ not_passed env "A::1" ∧
  found_ids (unit_candidates env plain 30 None) = Some ["A::1::x"; "A::1::y"; "A::2::x"].
Proof. exact progress_example. Qed.

(** C50, partial: if lessons depend only on lessons of their own course and courses only on courses
    (or on units that are missing), then an accepted library has no unit that waits for itself, and no
    course that hides behind its first lessons. *)
Theorem C50_tidy_partial : ∀ env, opened (s_lib env) → tidy env → (∀ u, ¬ tc (waits env) u u) ∧ (∀ c, ¬ hidden_course env c).
Proof. exact tidy_opened. Qed.
Print Assumptions C50_tidy_partial.
(** C49, partial: so in such libraries everything is reachable when everything is mastered. *)
Theorem C49_tidy_partial : ∀ env os, opened (s_lib env) → (∀ i, orders_ok (os i)) → mastered env → answers_exercises env → tidy env →
  ∃ cs fuel, (∀ fuel', fuel ≤ fuel' → unit_candidates env os fuel' None = Found cs) ∧
    ∀ e l c, exercise_of env e l → lesson_of env l c → clean env e → s_superseded env l = false → s_superseded env c = false →
      e ∈ exercise_id <$> cs.
Proof. exact tidy_complete. Qed.
Print Assumptions C49_tidy_partial.
Example C49_C50_tidy_nonvacuous : ∃ env, opened (s_lib env) ∧ (∀ i, orders_ok (plain i)) ∧ mastered env ∧ answers_exercises env ∧ tidy env ∧
  lesson_of env "B::2" "B" ∧ depends_on (s_graph env) "B" "A" ∧ depends_on (s_graph env) "B::2" "B::1" ∧
  found_ids (unit_candidates env plain 30 None) = Some ["A::1::x"; "A::1::y"; "A::2::x"; "B::1::x"; "B::2::x"].
Proof. exact tidy_example. Qed.
