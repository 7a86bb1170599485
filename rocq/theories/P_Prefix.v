(** C35: removals by prefix from the blacklist. *)
From stdpp Require Import gmap strings list.
From Coq Require Import ZArith.
From Verif Require Import F32 Graph GraphSpec Library SearchSpec Stores StoresSpec Options Scorer UnitScorer UnitSpec UnitPure
  PracticeSpec PracticeSample PrefixSpec PrefixProofs.
Local Open Scope string_scope.
Local Open Scope list_scope.

(** C35, partial: the answers are also those of empty caches after removals by prefix from the
    blacklist, if the identifiers of the lessons and courses of whatever is taken off start with
    the prefix too. *)
Theorem C35_prefix_partial : ∀ s, opened (g_lib s) → (∀ x, g_ord s x ≡ₚ elements x) → sorts_newest_first (g_reward_order s) →
  ∀ fuel now cs p, Forall (λ x, x.1 = now) cs → tidy_calls s fuel new_practice cs → calls s fuel new_practice cs = Some p →
  let w := world_of s now p in
  (∀ n u, not_superseded (lib_graph (g_lib s)) u →
     fst (unit_score w n u (p_caches p)) = fst (unit_score w n u no_caches) ∧
     fst (avg_trials w n u (p_caches p)) = fst (avg_trials w n u no_caches)) ∧
  (∀ e, get_unit_type (lib_graph (g_lib s)) e = Some Exercise →
     fst (exercise_entry w e (p_caches p)) = fst (exercise_entry w e no_caches)).
Proof. exact tidy_scores. Qed.
Print Assumptions C35_prefix_partial.
Example C35_prefix_nonvacuous : ∀ powf now, ∃ lib cs ds p p' v,
  opened (g_lib (setting_of powf lib)) ∧ (∀ x, g_ord (setting_of powf lib) x ≡ₚ elements x) ∧
  sorts_newest_first (g_reward_order (setting_of powf lib)) ∧ Forall (λ x, x.1 = now) (cs ++ ds) ∧
  ds = [(now, CBan false "other"); (now, CUnbanPrefix "")] ∧
  calls (setting_of powf lib) 1 new_practice cs = Some p ∧ c_lesson (p_caches p) !! "better"%string = Some (Some v) ∧
  tidy_calls (setting_of powf lib) 1 new_practice (cs ++ ds) ∧ calls (setting_of powf lib) 1 new_practice (cs ++ ds) = Some p'.
Proof. exact tidy_sample. Qed.
