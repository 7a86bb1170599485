(** C103: what a student still has to learn can come up. What is within reach is defined in
    WithinSpec.v, what it means to come up in ComesUpSpec.v. *)
From stdpp Require Import gmap strings list.
From Coq Require Import ZArith.
From Verif Require Import F32 Graph GraphSpec UnitScorer Practice Library LibrarySpec Filters Options OptionsSpec Batch BatchSpec Search SearchSpec ProgressSpec WithinSpec
  RangeSpec AskSpec Session SessionSpec SearchSample SessionSample ComesUpSpec ComesUpProofs ComesUpSample.
Local Open Scope string_scope.
Local Open Scope list_scope.

(** C103: after any lifetime, every exercise with a score below 4.5 of a lesson that is within reach
    and fails can come up in the next batch without a filter, unless the search has found its fill
    or as many lessons as are allowed at a time are in progress. *)
Theorem C103_comes_up : ∀ s, setting_ok s → let g := lib_graph (g_lib s) in
  ∀ preferred ops z evs, session_run s (new_session preferred) ops = Some (z, evs) → Forall (sane g) ops → Forall proper ops →
  ∀ now fuel q, sane_time now → 1 ≤ fuel → request_ok g q → stands_for q None → let env := env_of s fuel now z (q_saved q) in
  passing_numbers env → fgt (min_fraction (passing_score (s_options env))) fzero = true → "" ∉ s_banned env →
  ∃ cs search, (∀ search', search ≤ search' → unit_candidates env (q_orders q) search' None = Found cs) ∧
    ∀ l e, in_reach env None (starts env None) (surely_leads env None) l → ¬ passed_over env None l → fails env l →
      exercise_of env e l → clean env e → (∀ y, s_score env e = Some (Some y) → fge y f_4_5 = false) →
      can_come_up s fuel now z q e ∨ max_candidates env ≤ length cs ∨ enough_in_progress env cs.
Proof. exact life_comes_up. Qed.
Print Assumptions C103_comes_up.
(** C103: with every filter, except the review list or one that names a lesson twice, everything
    that the search finds can come up, unless its score is 4.5 or more and it is covered ten times by
    the rest of what was found. *)
Theorem C103_found : ∀ s, setting_ok s → let g := lib_graph (g_lib s) in
  ∀ preferred ops z evs, session_run s (new_session preferred) ops = Some (z, evs) → Forall (sane g) ops → Forall proper ops →
  ∀ now fuel q uf, sane_time now → 1 ≤ fuel → request_ok g q → stands_for q uf → lists_once uf → let env := env_of s fuel now z (q_saved q) in
  passing_numbers env → fgt (min_fraction (passing_score (s_options env))) fzero = true → "" ∉ s_banned env →
  ∃ cs search, (∀ search', search ≤ search' → unit_candidates env (q_orders q) search' uf = Found cs) ∧ serves env uf cs ∧
    ∀ c, c ∈ cs → fge (exercise_score c) f_4_5 = false ∨ ¬ covered_times (q_edges q) cs c 10 → can_come_up s fuel now z q (exercise_id c).
Proof. exact life_draws. Qed.
Print Assumptions C103_found.
(** Two batches and two poor scores. The exercise is of a lesson that fails, and neither of the
    exceptions holds. *)
Example C103_nonvacuous : ∃ s z evs cs, let g := lib_graph (g_lib s) in let env := env_of s 9 210 z (λ _, None) in
  setting_ok s ∧ session_run s (new_session None) (poor_life g) = Some (z, evs) ∧ Forall (sane g) (poor_life g) ∧ Forall proper (poor_life g) ∧
  request_ok g (ask g None) ∧ stands_for (ask g None) None ∧
  passing_numbers env ∧ fgt (min_fraction (passing_score (s_options env))) fzero = true ∧ "" ∉ s_banned env ∧
  in_reach env None (starts env None) (surely_leads env None) "A::1" ∧ ¬ passed_over env None "A::1" ∧ fails env "A::1" ∧
  exercise_of env "A::1::x" "A::1" ∧ clean env "A::1::x" ∧ (∀ y, s_score env "A::1::x" = Some (Some y) → fge y f_4_5 = false) ∧
  unit_candidates env plain 40 None = Found cs ∧ exercise_id <$> cs = ["A::1::x"; "A::1::y"] ∧
  ¬ max_candidates env ≤ length cs ∧ ¬ enough_in_progress env cs.
Proof. exact poor_example. Qed.
