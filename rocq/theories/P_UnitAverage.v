(** Properties of the scores and trials of lessons and courses: C71 and C72.
    The vocabulary is in UnitAverageSpec.v. *)
From stdpp Require Import gmap strings list relations.
From Coq Require Import ZArith.
From Verif Require Import F32 Graph GraphSpec Library SearchSpec Stores StoresSpec ScorerSpec UnitScorer UnitSpec Practice PracticeSpec PowerSample PracticeSample
  UnitAverageSpec UnitAverageProofs UnitAverageSample.

(** C71, partial: the score of a lesson is the average of its exercises outside the blacklist, that
    of a course the average of its lessons; what is blacklisted or superseded has none; the number
    of trials likewise. This holds whatever was asked before, in libraries where no unit is below
    itself. *)
Theorem C71_averages_partial : ∀ lib, opened lib → acyclic (below (lib_graph lib)) → ∃ n, ∀ w x,
  w_graph w = lib_graph lib → (∀ s, w_ord w s ≡ₚ elements s) → (∀ e, w_exercise w e = Val (x e)) →
  ∃ score trials, scores_add_up w score (λ e, ca_score (x e)) ∧ trials_add_up w score (λ e, ca_trials (x e)) trials ∧
  ∀ asked fuel u, Forall (λ y, n ≤ y.1) asked → n ≤ fuel → get_unit_type (lib_graph lib) u ≠ None →
    fst (unit_score w fuel u (after_asking w asked no_caches)) = Val (score u) ∧
    (get_unit_type (lib_graph lib) u ≠ Some Exercise → fst (avg_trials w fuel u (after_asking w asked no_caches)) = Val (trials u)).
Proof. exact averages. Qed.
Print Assumptions C71_averages_partial.
Example C71_nonvacuous : ∃ lib, opened lib ∧ acyclic (below (lib_graph lib)) ∧
  (∀ b, w_graph (five_world (lib_graph lib) b) = lib_graph lib ∧ (∀ s, w_ord (five_world (lib_graph lib) b) s ≡ₚ elements s) ∧
    ∀ e, w_exercise (five_world (lib_graph lib) b) e = Val (score_of_five e)) ∧
  five_answers lib = true.
Proof. exact five_sample. Qed.

(** C71, partial: so are the scores shown after a history of calls on one day that all keep the
    caches right (see C35), for units that nothing supersedes. *)
Theorem C71_history_partial : ∀ s, opened (g_lib s) → acyclic (below (lib_graph (g_lib s))) → (∀ x, g_ord s x ≡ₚ elements x) → sorts_newest_first (g_reward_order s) →
  ∃ n, ∀ fuel now cs p x, Forall (λ y, y.1 = now ∧ keeps_caches y.2) cs → calls s fuel new_practice cs = Some p →
  (∀ e, compute_exercise s now p e = Val (x e)) →
  ∃ score trials, scores_add_up (world_of s now p) score (λ e, ca_score (x e)) ∧
    trials_add_up (world_of s now p) score (λ e, ca_trials (x e)) trials ∧
    ∀ k u, n ≤ k → get_unit_type (lib_graph (g_lib s)) u ≠ None → not_superseded (lib_graph (g_lib s)) u →
      fst (unit_score (world_of s now p) k u (p_caches p)) = Val (score u) ∧
      (get_unit_type (lib_graph (g_lib s)) u ≠ Some Exercise → fst (avg_trials (world_of s now p) k u (p_caches p)) = Val (trials u)).
Proof. exact history_averages. Qed.
Print Assumptions C71_history_partial.

(** C72, partial: a lesson with exercises, outside the blacklist, has no score only if its
    exercises were practised and each unit that supersedes it, and is not superseded in turn,
    reaches the superseding score or has no score. *)
Theorem C72_mastered_partial : ∀ lib, opened lib → acyclic (below (lib_graph lib)) → ∃ n, ∀ w x,
  w_graph w = lib_graph lib → (∀ s, w_ord w s ≡ₚ elements s) → (∀ e, w_exercise w e = Val (x e)) →
  ∃ score, (∀ fuel u, n ≤ fuel → get_unit_type (lib_graph lib) u ≠ None → fst (unit_score w fuel u no_caches) = Val (score u)) ∧
  ∀ l, get_unit_type (lib_graph lib) l = Some Lesson → ¬ banned w l → (∃ e, get_exercise_lesson (lib_graph lib) e = Some l ∧ ¬ banned w e) →
    score l = None → practised w score l ∧ (∃ v, is_superseded_by (lib_graph lib) l v) ∧
      ∀ v, is_superseded_by (lib_graph lib) l v → get_superseded_by (lib_graph lib) v = None → mastered w score v.
Proof. exact only_when_mastered. Qed.
Print Assumptions C72_mastered_partial.
(** C72, false: a unit that was never practised and is on the blacklist supersedes another one
    that was practised, which then has no score. *)
Theorem C72_blacklisted_refuted : ∀ powf, power_ok powf → rounded_power powf → ∃ lib cs p now u v, opened lib ∧
  calls (setting_of powf lib) 2 new_practice ((λ c, (now, c)) <$> cs) = Some p ∧
  u ∉ p_banned p ∧ get_unit_type (lib_graph lib) u = Some Lesson ∧
  (∀ y, is_superseded_by (lib_graph lib) u y ↔ y = v) ∧ v ∈ p_banned p ∧
  (∃ e, get_exercise_lesson (lib_graph lib) e = Some u ∧ length (stored (p_trials p) e) = 2) ∧
  (∀ e, get_exercise_lesson (lib_graph lib) e = Some v → stored (p_trials p) e = []) ∧
  fst (unit_score (world_of (setting_of powf lib) now p) 2 u (p_caches p)) = Val None.
Proof. exact blacklisted_supersedes. Qed.
Print Assumptions C72_blacklisted_refuted.
Example C72_nonvacuous : power_ok real_power ∧ rounded_power real_power.
Proof. exact (conj real_power_ok real_power_rounded). Qed.
