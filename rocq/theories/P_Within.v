(** What a request offers: C101 without a filter and C102 with one. The specification is in WithinSpec.v: what is
    within reach is built up from where a request begins, over lessons that pass and courses whose
    lessons are all within reach. *)
From stdpp Require Import gmap strings list.
From Verif Require Import F32 Graph GraphSpec UnitScorer Practice Library LibrarySpec Filters Options OptionsSpec Batch BatchSpec Search SearchSpec ProgressSpec WithinSpec
  RangeSpec AskSpec Session SessionSpec SearchSample SessionSample WithinProofs WithinSample WithinLife WithinLifeSample.
Local Open Scope string_scope.
Local Open Scope list_scope.

(** C101 at full strength would say that every lesson whose dependencies, and those of its course,
    are satisfied is offered, unless the search has found its fill. It is false: A::3 depends on A::2
    only, which is passed, but A::2 depends on A::1, which was forgotten. A::3 is unlocked and is
    not passed, but nothing of it is offered. *)
Theorem C101_unlocked_refuted : ∃ env fuel cs, opened (s_lib env) ∧ (∀ i, orders_ok (plain i)) ∧ verify_options (s_options env) = true ∧
  passing_numbers env ∧ fgt (min_fraction (passing_score (s_options env))) fzero = true ∧
  answers_exercises env ∧ steady env ∧ well_ordered env ∧ s_banned env = ∅ ∧ (∀ u, s_superseded env u = false) ∧
  unit_candidates env plain fuel None = Found cs ∧
  lesson_of env "A::3" "A" ∧ unlocked env None "A" ∧ unlocked env None "A::3" ∧ (∀ d, depends_on (s_graph env) "A::3" d ↔ d = "A::2") ∧
  passed env "A::2" ∧ not_passed env "A::3" ∧ exercise_of env "A::3::x" "A::3" ∧ clean env "A::3::x" ∧
  (∀ c, c ∈ cs → lesson_id c ≠ "A::3") ∧ ¬ max_candidates env ≤ length cs ∧ ¬ enough_in_progress env cs.
Proof. exact forgotten_first. Qed.
Print Assumptions C101_unlocked_refuted.
(** C101, partial: what is offered is what is within reach. Every candidate is of a lesson within
    reach that is not blacklisted or superseded. And unless ten times the size of a batch was found,
    every such lesson with an exercise outside the blacklist is offered, or it is not beyond
    the target window and as many such lessons as are allowed at a time are offered. The two notions
    of reach differ only in lessons whose average is rounded to pass in one order of its exercises
    and to fail in another. The hypotheses say that the options are numbers and at least some of
    each lesson is to be offered, that the stores answer, that no average is a NaN, and that neither
    units that are missing have scores nor the empty name is blacklisted. *)
Theorem C101_reach_partial : ∀ env os, opened (s_lib env) → (∀ i, orders_ok (os i)) →
  passing_numbers env → fgt (min_fraction (passing_score (s_options env))) fzero = true →
  answers_exercises env → (∀ l x, lesson_score env l x → fis_nan x = false) →
  (∀ u s, missing env u → s_score env u ≠ Some (Some s)) → "" ∉ s_banned env →
  ∃ cs fuel, (∀ fuel', fuel ≤ fuel' → unit_candidates env os fuel' None = Found cs) ∧
    (∀ c, c ∈ cs → in_reach env None (starts env None) (maybe_leads env None) (lesson_id c) ∧ ¬ passed_over env None (lesson_id c) ∧ in_place env c ∧ clean env (exercise_id c)) ∧
    (max_candidates env ≤ length cs ∨
     ∀ l e, in_reach env None (starts env None) (surely_leads env None) l → ¬ passed_over env None l → exercise_of env e l → clean env e →
       is_offered env cs l ∨ left_for_later env cs l).
Proof. exact offers_reach. Qed.
Print Assumptions C101_reach_partial.
Example C101_nonvacuous : ∃ env cs, opened (s_lib env) ∧ (∀ i, orders_ok (plain i)) ∧
  passing_numbers env ∧ fgt (min_fraction (passing_score (s_options env))) fzero = true ∧
  answers_exercises env ∧ (∀ l x, lesson_score env l x → fis_nan x = false) ∧
  (∀ u s, missing env u → s_score env u ≠ Some (Some s)) ∧ "" ∉ s_banned env ∧
  in_reach env None (starts env None) (surely_leads env None) "A::2" ∧ ¬ passed_over env None "A::2" ∧ exercise_of env "A::2::x" "A::2" ∧ clean env "A::2::x" ∧
  (∃ c, lesson_of env "B::1" c) ∧ unit_candidates env plain 30 None = Found cs ∧
  exercise_id <$> cs = ["A::1::x"; "A::1::y"; "A::2::x"] ∧ length cs < max_candidates env.
Proof. exact within_example. Qed.

(** C101 after any lifetime, partial for the same reason: of the hypotheses only those remain that
    speak of what the user chose. The clock is sane, the grades that were put into the stores
    directly are grades, the passing options are numbers that offer some of each lesson, and the
    empty name was not blacklisted. *)
Theorem C101_lifetime_partial : ∀ s, setting_ok s → let g := lib_graph (g_lib s) in
  ∀ preferred ops z evs, session_run s (new_session preferred) ops = Some (z, evs) → Forall (sane g) ops → Forall proper ops →
  ∀ now fuel q, sane_time now → 1 ≤ fuel → request_ok g q → let env := env_of s fuel now z (q_saved q) in
  passing_numbers env → fgt (min_fraction (passing_score (s_options env))) fzero = true → "" ∉ s_banned env →
  ∃ cs search, (∀ search', search ≤ search' → unit_candidates env (q_orders q) search' None = Found cs) ∧
    (∀ c, c ∈ cs → in_reach env None (starts env None) (maybe_leads env None) (lesson_id c) ∧ ¬ passed_over env None (lesson_id c) ∧ in_place env c ∧ clean env (exercise_id c)) ∧
    (max_candidates env ≤ length cs ∨
     ∀ l e, in_reach env None (starts env None) (surely_leads env None) l → ¬ passed_over env None l → exercise_of env e l → clean env e →
       is_offered env cs l ∨ left_for_later env cs l).
Proof. exact life_reach. Qed.
Print Assumptions C101_lifetime_partial.
Example C101_lifetime_nonvacuous : ∃ s z evs cs, let g := lib_graph (g_lib s) in let env := env_of s 9 210 z (λ _, None) in
  setting_ok s ∧ session_run s (new_session None) (a_life g) = Some (z, evs) ∧ Forall (sane g) (a_life g) ∧ Forall proper (a_life g) ∧
  request_ok g (ask g None) ∧ passing_numbers env ∧ fgt (min_fraction (passing_score (s_options env))) fzero = true ∧ "" ∉ s_banned env ∧
  in_reach env None (starts env None) (surely_leads env None) "A::1" ∧ ¬ passed_over env None "A::1" ∧ exercise_of env "A::1::x" "A::1" ∧ clean env "A::1::x" ∧
  unit_candidates env plain 40 None = Found cs ∧ exercise_id <$> cs = ["A::1::x"].
Proof. exact life_example. Qed.

(** C102 at full strength would say that a request for a course offers every lesson of it that is
    unlocked, unless the search has found its fill. It is false for the same reason as C101. *)
Theorem C102_unlocked_refuted : ∃ env fuel cs, opened (s_lib env) ∧ (∀ i, orders_ok (plain i)) ∧ verify_options (s_options env) = true ∧
  passing_numbers env ∧ fgt (min_fraction (passing_score (s_options env))) fzero = true ∧
  answers_exercises env ∧ s_banned env = ∅ ∧ (∀ u, s_superseded env u = false) ∧
  unit_candidates env plain fuel (Some (FCourses ["A"])) = Found cs ∧
  lesson_of env "A::3" "A" ∧ unlocked env None "A" ∧ unlocked env None "A::3" ∧ exercise_of env "A::3::x" "A::3" ∧
  (∀ c, c ∈ cs → lesson_id c ≠ "A::3") ∧ ¬ max_candidates env ≤ length cs ∧ ¬ enough_in_progress env cs.
Proof. exact forgotten_inside. Qed.
Print Assumptions C102_unlocked_refuted.
(** C102, partial: what every kind of filter finds, as [serves] describes it in WithinSpec.v. Units
    of the review list must be in the library (C55). *)
Theorem C102_filter_partial : ∀ env os, opened (s_lib env) → (∀ i, orders_ok (os i)) →
  passing_numbers env → fgt (min_fraction (passing_score (s_options env))) fzero = true →
  answers_exercises env → (∀ l x, lesson_score env l x → fis_nan x = false) →
  (∀ u s, missing env u → s_score env u ≠ Some (Some s)) → "" ∉ s_banned env →
  ∀ uf, (uf = Some FReviewList → review_known env) →
  ∃ cs fuel, (∀ fuel', fuel ≤ fuel' → unit_candidates env os fuel' uf = Found cs) ∧ serves env uf cs.
Proof. exact offers_filter. Qed.
Print Assumptions C102_filter_partial.
Example C102_nonvacuous : ∃ env cs, opened (s_lib env) ∧ (∀ i, orders_ok (plain i)) ∧
  passing_numbers env ∧ fgt (min_fraction (passing_score (s_options env))) fzero = true ∧
  answers_exercises env ∧ (∀ l x, lesson_score env l x → fis_nan x = false) ∧
  (∀ u s, missing env u → s_score env u ≠ Some (Some s)) ∧ "" ∉ s_banned env ∧
  in_courses env None ["A"] (surely_leads env None) "A::2" ∧ ¬ passed_over env None "A::2" ∧ exercise_of env "A::2::x" "A::2" ∧ clean env "A::2::x" ∧
  unit_candidates env plain 30 (Some (FCourses ["A"])) = Found cs ∧
  exercise_id <$> cs = ["A::1::x"; "A::1::y"; "A::2::x"] ∧ length cs < max_candidates env.
Proof. exact inside_example. Qed.
(** C102 after any lifetime; C101_lifetime_nonvacuous is a lifetime that meets its hypotheses. *)
Theorem C102_lifetime_partial : ∀ s, setting_ok s → let g := lib_graph (g_lib s) in
  ∀ preferred ops z evs, session_run s (new_session preferred) ops = Some (z, evs) → Forall (sane g) ops → Forall proper ops →
  ∀ now fuel q, sane_time now → 1 ≤ fuel → request_ok g q → let env := env_of s fuel now z (q_saved q) in
  passing_numbers env → fgt (min_fraction (passing_score (s_options env))) fzero = true → "" ∉ s_banned env →
  ∀ uf, (uf = Some FReviewList → review_in g (z_review z)) →
  ∃ cs search, (∀ search', search ≤ search' → unit_candidates env (q_orders q) search' uf = Found cs) ∧ serves env uf cs.
Proof. exact life_filter. Qed.
Print Assumptions C102_lifetime_partial.
