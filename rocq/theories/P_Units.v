(** Properties of the scores of units and of their caches: C35 and C54.
    The vocabulary is in UnitSpec.v, AskSpec.v and PracticeSpec.v. *)
From stdpp Require Import gmap strings list relations.
From Coq Require Import ZArith.
From Verif Require Import F32 Graph GraphSpec Library SearchSpec Stores StoresSpec Options Scorer ScorerSpec UnitSpec UnitEnds UnitSample
  PracticeSpec UnitPure PracticeMore PowerSample PracticeSample UnitsMore AskSpec AskProofs AskSample.

(** C54, partial: if no unit is among those from whose scores its own is computed, then every
    score returns, from any cache, with as much fuel as the library needs. *)
Theorem C54_returns_partial : ∀ lib, opened lib → acyclic (below (lib_graph lib)) → ∃ n, ∀ w,
  w_graph w = lib_graph lib → (∀ s, w_ord w s ≡ₚ elements s) → (∀ e, w_exercise w e ≠ NoFuel) →
  ∀ fuel u c, n ≤ fuel → fst (unit_score w fuel u c) ≠ NoFuel.
Proof. exact scores_return. Qed.
Print Assumptions C54_returns_partial.
(** That is so in every library that is opened in which no course supersedes a lesson. *)
Theorem C54_courses_partial : ∀ lib, opened lib →
  (∀ u v, supersedes (lib_graph lib) u v → get_unit_type (lib_graph lib) u = Some Course → get_unit_type (lib_graph lib) v ≠ Some Lesson) →
  acyclic (below (lib_graph lib)).
Proof. exact same_kind_acyclic. Qed.
Print Assumptions C54_courses_partial.
Example C54_nonvacuous : ∃ lib, opened lib ∧ acyclic (below (lib_graph lib)) ∧ below (lib_graph lib) "lesson" "better"%string ∧
  below (lib_graph lib) "course" "lesson"%string.
Proof. exact two_lessons_acyclic. Qed.
(** C54, false: there is a library, accepted at opening, and a history of two scores, after which
    the score of a lesson never returns. This holds for every correctly rounded power. *)
Theorem C54_endless_refuted : ∀ powf, power_ok powf → rounded_power powf → ∃ lib cs p now u,
  opened lib ∧ calls (setting_of powf lib) 1 new_practice ((λ c, (now, c)) <$> cs) = Some p ∧
  ∀ fuel, fst (unit_score (world_of (setting_of powf lib) now p) fuel u (p_caches p)) = NoFuel.
Proof. exact some_endless. Qed.
Print Assumptions C54_endless_refuted.
Example C54_power_nonvacuous : power_ok real_power ∧ rounded_power real_power.
Proof. exact (conj real_power_ok real_power_rounded). Qed.

(** C35: asking for scores, in any number and order, changes no later answer. *)
Theorem C35_asking : ∀ lib, opened lib → acyclic (below (lib_graph lib)) → ∃ n, ∀ w,
  w_graph w = lib_graph lib → (∀ s, w_ord w s ≡ₚ elements s) → (∀ e, w_exercise w e ≠ NoFuel) →
  ∀ asked fuel u, Forall (λ x, n ≤ x.1) asked → n ≤ fuel →
  fst (unit_score w fuel u (after_asking w asked no_caches)) = fst (unit_score w fuel u no_caches).
Proof. exact caches_transparent. Qed.
Print Assumptions C35_asking.
(** C35: so it is from any caches, also when they hold answers that would no longer be given: no
    question, asked in any number and order, changes the answer to any question. *)
Theorem C35_questions : ∀ lib, opened lib → acyclic (below (lib_graph lib)) → ∃ n, ∀ w,
  w_graph w = lib_graph lib → (∀ s, w_ord w s ≡ₚ elements s) → (∀ e, w_exercise w e ≠ NoFuel) →
  ∀ c asked q, Forall (fuelled n) asked → fuelled n q → fst (reply w q (after_questions w asked c)) = fst (reply w q c).
Proof. exact questions_transparent. Qed.
Print Assumptions C35_questions.
(** Such caches give answers of their own. *)
Example C35_questions_nonvacuous : ∃ lib w, opened lib ∧ acyclic (below (lib_graph lib)) ∧
  w_graph w = lib_graph lib ∧ (∀ s, w_ord w s ≡ₚ elements s) ∧ (∀ e, w_exercise w e ≠ NoFuel) ∧
  ∀ fuel, fst (reply w (AScore (S fuel) "better") stale) = OfScore (Val (Some f_5)) ∧
          fst (reply w (AScore (S fuel) "better") no_caches) = OfScore (Val (Some fzero)).
Proof. exact stale_sample. Qed.

(** C35, partial: after every history of scores, changes of the blacklist and questions, made at
    one time, without scores that fail to be written and without removals by prefix, the answers
    about exercises and about units that nothing supersedes are those of empty caches. *)
Theorem C35_history_partial : ∀ s, opened (g_lib s) → (∀ x, g_ord s x ≡ₚ elements x) → sorts_newest_first (g_reward_order s) →
  ∀ fuel now cs p, Forall (λ x, x.1 = now ∧ keeps_caches x.2) cs → calls s fuel new_practice cs = Some p →
  let w := world_of s now p in
  (∀ n u, not_superseded (lib_graph (g_lib s)) u →
     fst (unit_score w n u (p_caches p)) = fst (unit_score w n u no_caches) ∧
     fst (avg_trials w n u (p_caches p)) = fst (avg_trials w n u no_caches)) ∧
  (∀ e, get_unit_type (lib_graph (g_lib s)) e = Some Exercise →
     fst (exercise_entry w e (p_caches p)) = fst (exercise_entry w e no_caches)).
Proof. exact history_scores. Qed.
Print Assumptions C35_history_partial.
(** Some history is covered and fills the caches. *)
Example C35_nonvacuous : ∀ powf now, ∃ lib cs p s,
  opened (g_lib (setting_of powf lib)) ∧ (∀ x, g_ord (setting_of powf lib) x ≡ₚ elements x) ∧
  sorts_newest_first (g_reward_order (setting_of powf lib)) ∧
  Forall (λ x, x.1 = now ∧ keeps_caches x.2) cs ∧ calls (setting_of powf lib) 1 new_practice cs = Some p ∧ length cs = 3 ∧
  not_superseded (lib_graph lib) "better" ∧ c_lesson (p_caches p) !! "better"%string = Some (Some s).
Proof. exact history_sample. Qed.

(** C35, false in each of the cases that are left out. On another day the cached score of an
    exercise is still that of the day on which it was asked; *)
Theorem C35_later_refuted : ∀ powf, power_ok powf → rounded_power powf → ∃ lib, opened lib ∧
  ∃ fuel cs p now e, calls (setting_of powf lib) fuel new_practice cs = Some p ∧
    Forall (λ x, (x.1 <= now)%Z ∧ keeps_caches x.2) cs ∧ get_unit_type (lib_graph lib) e = Some Exercise ∧
    fst (exercise_entry (world_of (setting_of powf lib) now p) e (p_caches p)) ≠
    fst (exercise_entry (world_of (setting_of powf lib) now p) e no_caches).
Proof. exact some_later_stale. Qed.
Print Assumptions C35_later_refuted.
(** a lesson keeps its score when the lesson that supersedes it is blacklisted; *)
Theorem C35_superseding_refuted : ∀ powf, power_ok powf → rounded_power powf → ∃ lib, opened lib ∧
  ∃ fuel now cs p u, calls (setting_of powf lib) fuel new_practice ((λ c, (now, c)) <$> cs) = Some p ∧ Forall keeps_caches cs ∧
    fst (unit_score (world_of (setting_of powf lib) now p) fuel u (p_caches p)) ≠
    fst (unit_score (world_of (setting_of powf lib) now p) fuel u no_caches).
Proof. exact some_superseding_stale. Qed.
Print Assumptions C35_superseding_refuted.
(** a lesson has no score after its exercises were taken off the blacklist by a prefix of their
    identifiers; *)
Theorem C35_unban_prefix_refuted : ∀ powf, ∃ lib, opened lib ∧
  ∃ fuel cs p u, calls (setting_of powf lib) fuel new_practice ((λ c, (0%Z, c)) <$> cs) = Some p ∧ not_superseded (lib_graph lib) u ∧
    fst (unit_score (world_of (setting_of powf lib) 0 p) fuel u (p_caches p)) ≠
    fst (unit_score (world_of (setting_of powf lib) 0 p) fuel u no_caches).
Proof. exact some_unbanned_stale. Qed.
Print Assumptions C35_unban_prefix_refuted.
(** and an exercise keeps its score after its trials were removed. *)
Theorem C35_remove_refuted : ∀ powf, ∃ lib, opened lib ∧
  ∃ fuel cs p e, calls (setting_of powf lib) fuel new_practice ((λ c, (0%Z, c)) <$> cs) = Some p ∧
    get_unit_type (lib_graph lib) e = Some Exercise ∧
    fst (exercise_entry (world_of (setting_of powf lib) 0 p) e (p_caches p)) ≠
    fst (exercise_entry (world_of (setting_of powf lib) 0 p) e no_caches).
Proof. exact some_removed_stale. Qed.
Print Assumptions C35_remove_refuted.
