(** Properties of the search for candidates and of whole batches: C27, C28, C30, C31, C38, C39, C49, C50, C51, C53, C55, C56.
    The vocabulary is in SearchSpec.v. *)
From stdpp Require Import gmap strings list relations.
From Coq Require Import ZArith.
From Verif Require Import F32 F32Real Graph GraphSpec Library LibrarySpec Filters Options OptionsSpec Batch BatchSpec BatchSample BatchMore
  KnockProofs FinishProofs Search SearchSpec ShareProofs WholeProofs SearchSample SearchMore.
Local Open Scope string_scope.

(** C27 in full is false: a blacklisted exercise on the review list is offered. *)
Theorem C27_review_refuted : ∃ env os fuel checks time m r e oc rate es em,
  opened (s_lib env) ∧ (∀ i, orders_ok (os i)) ∧ choices_ok r ∧ edges_of (s_graph env) e ∧ verify_options (s_options env) = true ∧
  get_exercise_batch env os fuel checks time m r e oc rate ∅ (Some (EUnit FReviewList)) = BatchOf es ∧
  em ∈ es ∧ em_id em ∈ s_banned env.
Proof. exact review_blacklisted. Qed.
Print Assumptions C27_review_refuted.
(** C27, partial: that is the only exception. *)
Theorem C27_clean_partial : ∀ env os fuel checks time m r e oc rate pile f uf,
  opened (s_lib env) → (∀ i, orders_ok (os i)) → choices_ok r → uses env checks time f uf →
  ∀ es em, get_exercise_batch env os fuel checks time m r e oc rate pile f = BatchOf es → em ∈ es →
  clean env (em_id em) ∨ (uf = Some FReviewList ∧ em_id em ∈ s_review env).
Proof. exact batch_clean. Qed.
Print Assumptions C27_clean_partial.
Example search_nonvacuous : ∃ env, opened (s_lib env) ∧ (∀ i, orders_ok (plain i)) ∧ choices_ok first_choices ∧
  edges_of (s_graph env) (graph_edges (s_graph env)) ∧ verify_options (s_options env) = true ∧ answers_exercises env ∧
  "" ∉ s_banned env ∧ review_known env ∧ (∀ x s, s_score env x = Some (Some s) → score_in_range s) ∧
  uses env true 0 (Some (ESession middle_session)) (Some (FCourses ["B"])) ∧
  (∀ x, x ∈ ({["A::2::x"]} : gset uid) → get_unit_type (s_graph env) x = Some Exercise) ∧
  batch_of_ids (a_batch env ∅ None) = Some ["A::2::x"; "A::1::x"] ∧
  batch_of_ids (a_batch env {["A::2::x"]} None) = Some ["A::2::x"; "A::1::x"] ∧
  batch_of_ids (a_batch env ∅ (Some (ESession middle_session))) = Some ["B::1::x"] ∧
  batch_of_ids (a_batch env ∅ (Some (EUnit (FLessons ["B::2"; "A::1"])))) = Some ["B::2::x"; "A::1::x"] ∧
  batch_of_ids (a_batch env ∅ (Some (EUnit FReviewList))) = Some ["A::2::x"; "B::1::x"] ∧
  batch_of_ids (a_batch env ∅ (Some (EUnit (FDependents ["B"])))) = Some ["B::1::x"] ∧
  batch_of_ids (a_batch env ∅ (Some (EUnit (FDependencies ["B::2"] 1)))) = Some ["A::2::x"; "B::1::x"].
Proof. exact middle_example. Qed.

(** C28 for whole batches is false with the default options: a lesson filter that names a lesson
    twice, and a review list with a course and one of its exercises, repeat exercises. *)
Theorem C28_lessons_refuted : ∃ env os fuel checks time m r e rate es l,
  opened (s_lib env) ∧ (∀ i, orders_ok (os i)) ∧ choices_ok r ∧ edges_of (s_graph env) e ∧ s_options env = default_options ∧
  (∀ x s, s_score env x = Some (Some s) → score_in_range s) ∧
  get_exercise_batch env os fuel checks time m r e (same_options default_options) rate ∅ (Some (EUnit (FLessons [l; l]))) = BatchOf es ∧
  ¬ NoDup (em_id <$> es).
Proof. exact repeated_lesson. Qed.
Print Assumptions C28_lessons_refuted.
Theorem C28_review_refuted : ∃ env os fuel checks time m r e rate es,
  opened (s_lib env) ∧ (∀ i, orders_ok (os i)) ∧ choices_ok r ∧ edges_of (s_graph env) e ∧ s_options env = default_options ∧
  (∀ x s, s_score env x = Some (Some s) → score_in_range s) ∧ NoDup (s_review env) ∧
  get_exercise_batch env os fuel checks time m r e (same_options default_options) rate ∅ (Some (EUnit FReviewList)) = BatchOf es ∧
  ¬ NoDup (em_id <$> es).
Proof. exact repeated_entry. Qed.
Print Assumptions C28_review_refuted.
(** C28 for whole batches, partial: no repetition without the review list, when a lesson filter
    names no lesson twice and no score lies in two windows. *)
Theorem C28_batch_partial : ∀ env os fuel checks time m r e oc rate pile f uf,
  opened (s_lib env) → (∀ i, orders_ok (os i)) → choices_ok r → uses env checks time f uf →
  ∀ es, edges_of (s_graph env) e → lists_once uf →
  (∀ x s, s_score env x = Some s → length (windows_of (oc_filter oc) (default fzero s)) ≤ 1) →
  get_exercise_batch env os fuel checks time m r e oc rate pile f = BatchOf es → NoDup (em_id <$> es).
Proof. exact batch_no_repeats. Qed.
Print Assumptions C28_batch_partial.
(** The same for the default windows and scores from 0 to 5. *)
Theorem C28_batch_defaults_partial : ∀ env os fuel checks time m r e oc rate pile f uf,
  opened (s_lib env) → (∀ i, orders_ok (os i)) → choices_ok r → uses env checks time f uf →
  ∀ es b, edges_of (s_graph env) e → lists_once uf →
  oc_filter oc = create_scheduler_options b → (∀ x s, s_score env x = Some (Some s) → score_in_range s) →
  get_exercise_batch env os fuel checks time m r e oc rate pile f = BatchOf es → NoDup (em_id <$> es).
Proof. exact batch_no_repeats_defaults. Qed.
Print Assumptions C28_batch_defaults_partial.

(** C30 in full is false: the blank identifier on the blacklist satisfies every dependency on a
    course. *)
Theorem C30_blank_refuted : ∃ env os fuel cs x,
  opened (s_lib env) ∧ (∀ i, orders_ok (os i)) ∧ verify_options (s_options env) = true ∧ s_banned env = {[""]} ∧
  unit_candidates env os fuel None = Found cs ∧ x ∈ cs ∧ ¬ reachable env None (starting_unit env) (lesson_id x).
Proof. exact blank_unlocks. Qed.
Print Assumptions C30_blank_refuted.
(** C30, partial: with any other blacklist, an unfiltered search and one with a metadata filter
    offer only lessons that are reachable and unlocked. *)
Theorem C30_search_partial : ∀ env os,
  opened (s_lib env) → (∀ i, orders_ok (os i)) →
  ∀ fuel f cs c, "" ∉ s_banned env → from_everything env os fuel f = Found cs → c ∈ cs →
  reachable env f (starting_unit env) (lesson_id c) ∧ unlocked env f (lesson_id c) ∧ lets_through env f (lesson_id c).
Proof. exact search_unlocked. Qed.
Print Assumptions C30_search_partial.
(** The same for batches: everything else comes from the relearn pile. *)
Theorem C30_batch_partial : ∀ env os fuel checks time m r e oc rate pile f uf,
  opened (s_lib env) → (∀ i, orders_ok (os i)) → choices_ok r → uses env checks time f uf →
  ∀ es em, "" ∉ s_banned env → uf = None ∨ (∃ kv, uf = Some (FMetadata kv)) →
  get_exercise_batch env os fuel checks time m r e oc rate pile f = BatchOf es → em ∈ es → em_id em ∈ pile ∨
  ∃ l, exercise_of env (em_id em) l ∧
    let kv := match uf with Some (FMetadata kv) => Some kv | _ => None end in
    reachable env kv (starting_unit env) l ∧ unlocked env kv l ∧ lets_through env kv l.
Proof. exact batch_unlocked. Qed.
Print Assumptions C30_batch_partial.

(** C31: every request for a batch returns, and so does every resolution of a dependency. *)
Theorem C31_returns : ∀ env os, opened (s_lib env) → (∀ i, orders_ok (os i)) →
  ∀ checks time m r e oc rate pile f, ∃ fuel b, b ≠ BatchNoFuel ∧ ∀ fuel', fuel ≤ fuel' →
  get_exercise_batch env os fuel' checks time m r e oc rate pile f = b.
Proof. exact batch_returns. Qed.
Print Assumptions C31_returns.
Theorem C31_resolution_returns : ∀ env (os : nat → orders), opened (s_lib env) → (∀ i, orders_ok (os i)) →
  ∀ i f u, resolve env (o_set (os i) 0) f (resolve_fuel env) ∅ u ≠ None.
Proof. exact resolution_returns. Qed.
Print Assumptions C31_resolution_returns.

(** C38 in full is false: with a minimum fraction of 0, nothing is offered of a lesson whose score
    is exactly the passing score. *)
Theorem C38_none_refuted : ∃ env os fuel l e,
  opened (s_lib env) ∧ (∀ i, orders_ok (os i)) ∧ verify_options (s_options env) = true ∧
  exercise_of env e l ∧ clean env e ∧ s_score env e = Some (Some (min_score (passing_score (s_options env)))) ∧
  unit_candidates env os fuel (Some (FLessons [l])) = Found [].
Proof. exact nothing_offered. Qed.
Print Assumptions C38_none_refuted.
(** C38: the candidates of a lesson are distinct exercises of it that are not blacklisted, and the
    score that is used is its average. *)
Theorem C38_members : ∀ env o i l d cs avg es, opened (s_lib env) → orders_ok o →
  lesson_candidates env o i (l, d) = Some (cs, avg) → open_exercises env l es → es ≠ [] →
  lesson_score env l avg ∧ NoDup (exercise_id <$> cs) ∧ ∀ e, e ∈ exercise_id <$> cs → e ∈ es.
Proof. exact offers_members. Qed.
Print Assumptions C38_members.
(** C38: all of them for a score of at least 4 or below the passing score. *)
Theorem C38_all : ∀ env o i l d cs avg es, opened (s_lib env) → orders_ok o →
  lesson_candidates env o i (l, d) = Some (cs, avg) → open_exercises env l es → es ≠ [] →
  fge avg f_4 = true ∨ flt avg (min_score (passing_score (s_options env))) = true → exercise_id <$> cs ≡ₚ es.
Proof. exact offers_all. Qed.
Print Assumptions C38_all.
(** C38, partial: at least one when the minimum fraction is above 0. *)
Theorem C38_some_partial : ∀ env o i l d cs avg es, opened (s_lib env) → orders_ok o →
  lesson_candidates env o i (l, d) = Some (cs, avg) → open_exercises env l es → es ≠ [] →
  passing_numbers env → fgt (min_fraction (passing_score (s_options env))) fzero = true → fis_nan avg = false → cs ≠ [].
Proof. exact offers_some. Qed.
Print Assumptions C38_some_partial.
(** C38: from the passing score on, a higher score never offers fewer of the same number of
    exercises. *)
Theorem C38_grows : ∀ env (pick pick' : list candidate → list candidate) (cs cs' : list candidate) (s s' : f32),
  passing_numbers env → (∀ l, pick l ≡ₚ l) → (∀ l, pick' l ≡ₚ l) →
  length cs = length cs' → (Z.of_nat (length cs) <= 16777216)%Z → fin s → fin s' →
  fle (min_score (passing_score (s_options env))) s = true → fle s s' = true →
  length (select_lesson_candidates env pick cs s) ≤ length (select_lesson_candidates env pick' cs' s').
Proof. exact share_grows. Qed.
Print Assumptions C38_grows.
Example C38_nonvacuous : ∃ env, opened (s_lib env) ∧ orders_ok plain_orders ∧ passing_numbers env ∧
  fgt (min_fraction (passing_score (s_options env))) fzero = true ∧
  (∃ es, open_exercises env "A::1" es ∧ es ≠ []) ∧
  share_of (lesson_candidates env plain_orders 0 ("A::1", 0)) = Some ["A::1::2"; "A::1::1"; "A::1::3"] ∧
  share_of (lesson_candidates env plain_orders 0 ("A::2", 0)) = Some ["A::2::4"; "A::2::2"].
Proof. exact share_example. Qed.

(** C39 in full is false: a lesson filter ignores the limit. *)
Theorem C39_lessons_refuted : ∃ env os fuel cs ls,
  opened (s_lib env) ∧ (∀ i, orders_ok (os i)) ∧ verify_options (s_options env) = true ∧ NoDup ls ∧
  unit_candidates env os fuel (Some (FLessons ls)) = Found cs ∧
  ¬ in_progress_at_most env (max_lessons_in_progress (s_options env)) cs.
Proof. exact limit_exceeded. Qed.
Print Assumptions C39_lessons_refuted.
(** C39, partial: the limit holds for all filters but those on lessons and the review list. *)
Theorem C39_limit_partial : ∀ env os, opened (s_lib env) → (∀ i, orders_ok (os i)) →
  ∀ fuel f cs, one_search f → unit_candidates env os fuel f = Found cs →
  in_progress_at_most env (max_lessons_in_progress (s_options env)) cs.
Proof. exact search_limited. Qed.
Print Assumptions C39_limit_partial.

(** C49 in full is false: a lesson without dependencies is never reached when another first lesson
    of its course depends on a lesson of another course. *)
Theorem C49_hidden_refuted : ∃ env os fuel cs e,
  opened (s_lib env) ∧ (∀ i, orders_ok (os i)) ∧ s_options env = default_options ∧ mastered env ∧ answers_exercises env ∧
  s_banned env = ∅ ∧ (∀ u, s_superseded env u = false) ∧ (∃ l, exercise_of env e l) ∧
  from_everything env os fuel None = Found cs ∧ e ∉ exercise_id <$> cs.
Proof. exact lesson_never_reached. Qed.
Print Assumptions C49_hidden_refuted.
(** C49, partial: without such courses, without units that wait for themselves and without courses
    that depend on exercises, the search finds every exercise that is not blacklisted or
    superseded. *)
Theorem C49_complete_partial : ∀ env os, opened (s_lib env) → (∀ i, orders_ok (os i)) → mastered env → answers_exercises env →
  (∀ u, ¬ tc (waits env) u u) → (∀ c, ¬ hidden_course env c) →
  (∀ c e, is_course env c → depends_on (s_graph env) c e → get_unit_type (s_graph env) e ≠ Some Exercise) →
  ∃ cs fuel, (∀ fuel', fuel ≤ fuel' → unit_candidates env os fuel' None = Found cs) ∧
    ∀ e l c, exercise_of env e l → lesson_of env l c → clean env e → s_superseded env l = false → s_superseded env c = false →
      e ∈ exercise_id <$> cs.
Proof. exact opened_complete. Qed.
Print Assumptions C49_complete_partial.
Example C49_nonvacuous : ∃ env, opened (s_lib env) ∧ (∀ i, orders_ok (plain i)) ∧ mastered env ∧ answers_exercises env ∧
  (∀ u, ¬ tc (waits env) u u) ∧ (∀ c, ¬ hidden_course env c) ∧
  (∀ c e, is_course env c → depends_on (s_graph env) c e → get_unit_type (s_graph env) e ≠ Some Exercise) ∧
  found_ids (from_everything env plain 30 None) = Some ["A::1::x"; "A::1::y"; "A::2::x"; "B::2::x"; "B::1::x"].
Proof. exact tour_example. Qed.

(** C50 is false: a lesson that depends on its own course is accepted, and nothing is ever
    offered. *)
Theorem C50_own_course_refuted : ∃ env os fuel cs l,
  opened (s_lib env) ∧ (∀ i, orders_ok (os i)) ∧ s_options env = default_options ∧ is_lesson env l ∧ waits env l l ∧
  from_everything env os fuel None = Found cs ∧ cs = [].
Proof. exact waits_for_itself. Qed.
Print Assumptions C50_own_course_refuted.

(** C51 is false: a low score for an unknown exercise makes the next batch fail. *)
Theorem C51_unknown_refuted : ∃ env os fuel checks time m r e oc rate x score es,
  opened (s_lib env) ∧ (∀ i, orders_ok (os i)) ∧ choices_ok r ∧ edges_of (s_graph env) e ∧ verify_options (s_options env) = true ∧
  answers_exercises env ∧ missing env x ∧
  get_exercise_batch env os fuel checks time m r e oc rate ∅ None = BatchOf es ∧ es ≠ [] ∧
  get_exercise_batch env os fuel checks time m r e oc rate (update_pile ∅ x score) None = BatchError.
Proof. exact unknown_breaks. Qed.
Print Assumptions C51_unknown_refuted.

(** C53 in full is false: the relearn pile ignores the filter. *)
Theorem C53_pile_refuted : ∃ env os fuel checks time m r e oc rate pile es em c,
  opened (s_lib env) ∧ (∀ i, orders_ok (os i)) ∧ choices_ok r ∧ edges_of (s_graph env) e ∧ verify_options (s_options env) = true ∧
  (∀ x, x ∈ pile → get_unit_type (s_graph env) x = Some Exercise) ∧
  get_exercise_batch env os fuel checks time m r e oc rate pile (Some (EUnit (FCourses [c]))) = BatchOf es ∧
  em ∈ es ∧ ∀ l, exercise_of env (em_id em) l → ¬ lesson_of env l c.
Proof. exact pile_ignores_filter. Qed.
Print Assumptions C53_pile_refuted.
(** C53, partial: everything else is what the filter asks for, for every kind of filter. *)
Theorem C53_asked_partial : ∀ env os fuel checks time m r e oc rate pile f uf,
  opened (s_lib env) → (∀ i, orders_ok (os i)) → choices_ok r → uses env checks time f uf →
  ∀ es em, "" ∉ s_banned env → get_exercise_batch env os fuel checks time m r e oc rate pile f = BatchOf es → em ∈ es →
  exercise_asked env uf (em_id em) ∨ em_id em ∈ pile.
Proof. exact batch_asked. Qed.
Print Assumptions C53_asked_partial.

(** C53: a filter on dependencies starts from exactly the units of the library at the depth, or
    above it where the dependencies end. *)
Theorem C53_depth : ∀ env n u v,
  v ∈ dependencies_at_depth env n u ↔ below env n u v ∧ is_Some (get_unit_type (s_graph env) v).
Proof. exact depth_units. Qed.
Print Assumptions C53_depth.

(** C55 in full is false: an unknown unit on the review list makes the whole request fail. *)
Theorem C55_review_refuted : ∃ env os fuel checks time m r e oc rate x,
  opened (s_lib env) ∧ (∀ i, orders_ok (os i)) ∧ choices_ok r ∧ edges_of (s_graph env) e ∧ verify_options (s_options env) = true ∧
  answers_exercises env ∧ s_review env = ["A::1"; x] ∧ is_lesson env "A::1" ∧ missing env x ∧
  get_exercise_batch env os fuel checks time m r e oc rate ∅ (Some (EUnit FReviewList)) = BatchError.
Proof. exact unknown_review. Qed.
Print Assumptions C55_review_refuted.
(** C55, partial: when the stores answer, and the review list and the relearn pile name units of
    the library, every request that returns gives a batch. *)
Theorem C55_no_failure_partial : ∀ env os fuel checks time m r e oc rate pile f uf,
  opened (s_lib env) → (∀ i, orders_ok (os i)) → choices_ok r → uses env checks time f uf →
  answers_exercises env → edges_ok e → (uf = Some FReviewList → review_known env) →
  (∀ x, x ∈ pile → get_unit_type (s_graph env) x = Some Exercise) →
  get_exercise_batch env os fuel checks time m r e oc rate pile f = BatchNoFuel ∨
  ∃ es, get_exercise_batch env os fuel checks time m r e oc rate pile f = BatchOf es.
Proof. exact batch_never_fails. Qed.
Print Assumptions C55_no_failure_partial.

(** C56 in full is false: a lesson of a locked course is offered when it depends on a lesson of
    another course. *)
Theorem C56_side_door_refuted : ∃ env os fuel cs x,
  opened (s_lib env) ∧ (∀ i, orders_ok (os i)) ∧ verify_options (s_options env) = true ∧ s_banned env = ∅ ∧
  unit_candidates env os fuel None = Found cs ∧ x ∈ cs ∧ ¬ unlocked env None (course_id x).
Proof. exact locked_course_offered. Qed.
Print Assumptions C56_side_door_refuted.
(** C56, partial: it holds when lessons depend only on lessons of their own course. *)
Theorem C56_own_course_partial : ∀ env os, opened (s_lib env) → (∀ i, orders_ok (os i)) →
  ∀ fuel f cs c, "" ∉ s_banned env →
  (∀ l d c, lesson_of env l c → depends_on (s_graph env) l d → lesson_of env d c) →
  from_everything env os fuel f = Found cs → c ∈ cs → unlocked env f (course_id c).
Proof. exact search_own_course. Qed.
Print Assumptions C56_own_course_partial.
Example C56_nonvacuous : ∃ env, opened (s_lib env) ∧ (∀ i, orders_ok (plain i)) ∧ "" ∉ s_banned env ∧
  (∀ l d c, lesson_of env l c → depends_on (s_graph env) l d → lesson_of env d c) ∧
  found_ids (from_everything env plain 30 None) = Some ["A::1::x"; "A::1::y"; "A::2::x"].
Proof. exact own_course_example. Qed.
