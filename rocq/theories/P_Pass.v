(** Properties of passing a lesson or a course: C97. The scores and trials of units are those of
    UnitScorer.v; what the search sees of them is in PassSpec.v. *)
From stdpp Require Import gmap strings list relations.
From Coq Require Import ZArith.
From Verif Require Import F32 Graph GraphSpec Library Filters Options Batch BatchSpec UnitScorer UnitSpec Practice PracticeSpec RangeSpec
  UnitAverageSample PassSpec PassProofs PassSample Search SearchSpec ProgressSpec SearchSample.
Local Open Scope string_scope.
Local Open Scope list_scope.

(** C97 at full strength would say that a course is passed when all of its lessons are. It is
    false for the default options. Each of three lessons has five exercises with nine trials in
    all, so 1.8 trials on average, which is just enough; but the average of the three averages is
    rounded down and is not enough for the course. B, which waits for A, stays locked, and all that
    is offered is of lessons that are passed already. *)
Theorem C97_rounding_refuted : ∃ lib w x fuel cs, opened lib ∧ w_graph w = lib_graph lib ∧ w_banned w = ∅ ∧ (∀ s, w_ord w s ≡ₚ elements s) ∧
  (∀ e, w_exercise w e = Val (x e) ∧ entry_ok (x e) ∧ ca_trials (x e) ≤ 2) ∧
  (∀ u v, ¬ supersedes (lib_graph lib) u v) ∧ modest (lib_graph lib) ∧
  let env := asking lib w default_options fuel in
  tidy env ∧ (∀ l, lesson_of env l "A" ↔ l ∈ ["A::1"; "A::2"; "A::3"]) ∧
  (∀ l, lesson_of env l "A" → scored_five env l = true ∧ passed env l) ∧ scored_five env "A" = true ∧ ¬ passed env "A" ∧
  (∀ d, depends_on (s_graph env) "B" d ↔ d = "A") ∧ lesson_of env "B::1" "B" ∧ (∀ d, ¬ depends_on (s_graph env) "B::1" d) ∧
  unit_candidates env plain 30 None = Found cs ∧ cs ≠ [] ∧ ∀ c, c ∈ cs → lesson_of env (lesson_id c) "A".
Proof. exact thin_course. Qed.
Print Assumptions C97_rounding_refuted.

(** C97, partial: with whole numbers as thresholds, a course reaches them if all of its lessons do,
    and a lesson if all of its exercises outside the blacklist do, whatever was asked before. With
    the default options this means that a course is passed when its lessons have a score of 3 and
    two trials on average. *)
Theorem C97_whole_partial : ∀ lib, opened lib → acyclic (UnitSpec.below (lib_graph lib)) → modest (lib_graph lib) → ∃ n, ∀ w x a b,
  w_graph w = lib_graph lib → (∀ s, w_ord w s ≡ₚ elements s) →
  (∀ e, w_exercise w e = Val (x e) ∧ in_range (ca_score (x e)) ∧ (Z.of_nat (ca_trials (x e)) <= 2 ^ 64)%Z) →
  (0 <= a <= 5)%Z → (0 <= b <= 5)%Z → ∀ asked fuel, Forall (λ y, n ≤ y.1) asked → n ≤ fuel →
  let score u := fst (unit_score w fuel u (after_asking w asked no_caches)) in
  let trials u := fst (avg_trials w fuel u (after_asking w asked no_caches)) in
  (∀ c, get_unit_type (lib_graph lib) c = Some Course →
     (∀ l, get_lesson_course (lib_graph lib) l = Some c → reaches (f_of_Z a) (f_of_Z b) (score l) (trials l)) →
     reaches (f_of_Z a) (f_of_Z b) (score c) (trials c)) ∧
  (∀ l, get_unit_type (lib_graph lib) l = Some Lesson →
     (∀ e, get_exercise_lesson (lib_graph lib) e = Some l → e ∉ w_banned w →
        fge (ca_score (x e)) (f_of_Z a) = true ∧ (b <= Z.of_nat (ca_trials (x e)))%Z) →
     reaches (f_of_Z a) (f_of_Z b) (score l) (trials l)).
Proof. exact whole_passes. Qed.
Print Assumptions C97_whole_partial.
Example C97_nonvacuous : ∃ lib w x, opened lib ∧ acyclic (UnitSpec.below (lib_graph lib)) ∧ modest (lib_graph lib) ∧
  w_graph w = lib_graph lib ∧ (∀ s, w_ord w s ≡ₚ elements s) ∧
  (∀ e, w_exercise w e = Val (x e) ∧ in_range (ca_score (x e)) ∧ (Z.of_nat (ca_trials (x e)) <= 2 ^ 64)%Z) ∧
  get_unit_type (lib_graph lib) "A" = Some Course ∧
  ∀ u, u ∈ ["A::1"; "A::2"; "A::3"; "A"] →
    answer_is (fst (unit_score w 5 u no_caches)) (Some f_5) = true ∧ answer_is (fst (avg_trials w 5 u no_caches)) (Some f_2) = true.
Proof. exact full_course. Qed.
