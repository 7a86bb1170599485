(** The witnesses of P_Units.v. *)
From stdpp Require Import gmap strings list relations.
From Coq Require Import ZArith.
From Verif Require Import F32 Graph GraphSpec Library SearchSpec Stores StoresSpec StoresSample Options Scorer ScorerSpec UnitScorer UnitSpec UnitEnds UnitSample
  PracticeSpec PracticeSample.

Lemma two_lessons_acyclic : ∃ lib, opened lib ∧ acyclic (below (lib_graph lib)) ∧ below (lib_graph lib) "lesson" "better"%string ∧
  below (lib_graph lib) "course" "lesson"%string.
Proof.
  destruct two_lessons_opened as (lib & Ho & Hg). exists lib. split; [done|].
  destruct Hg as (_ & (S1 & _) & (C1 & _) & _ & _ & Hf). split; [|split].
  - apply same_kind_acyclic; [done|].
    intros u v Hs Hu. exfalso. unfold supersedes, answers, get_supersedes in Hs. destruct (supersedes_graph (lib_graph lib) !! u) as [x|] eqn:E; [|done].
    apply Hf in E. rewrite E in Hu. done.
  - left. unfold is_superseded_by, answers. rewrite S1. by apply elem_of_singleton.
  - right. exists {["lesson"%string; "better"%string]}. split; [done|]. apply elem_of_union_l. by apply elem_of_singleton.
Qed.
Lemma some_endless : ∀ powf, power_ok powf → rounded_power powf → ∃ lib cs p now u,
  opened lib ∧ calls (setting_of powf lib) 1 new_practice ((λ c, (now, c)) <$> cs) = Some p ∧
  ∀ fuel, fst (unit_score (world_of (setting_of powf lib) now p) fuel u (p_caches p)) = NoFuel.
Proof.
  intros powf Hp Hr. destruct own_lesson_opened as (lib & Ho & Hg & Ha).
  destruct (own_lesson_endless powf lib Hp Hr Hg Ha) as (cs & p & H1 & _ & H2). by eexists lib, cs, p, _, _.
Qed.
Lemma history_sample : ∀ powf now, ∃ lib cs p s,
  opened (g_lib (setting_of powf lib)) ∧ (∀ x, g_ord (setting_of powf lib) x ≡ₚ elements x) ∧
  sorts_newest_first (g_reward_order (setting_of powf lib)) ∧
  Forall (λ x, x.1 = now ∧ keeps_caches x.2) cs ∧ calls (setting_of powf lib) 1 new_practice cs = Some p ∧ length cs = 3 ∧
  not_superseded (lib_graph lib) "better" ∧ c_lesson (p_caches p) !! "better"%string = Some (Some s).
Proof.
  intros powf now. destruct two_lessons_opened as (lib & Ho & Hg). destruct (lesson_cached powf lib Hg now) as (cs & p & s & H).
  exists lib, cs, p, s. split; [done|]. split; [done|]. split; [apply by_time_ok|done].
Qed.
Lemma some_later_stale : ∀ powf, power_ok powf → rounded_power powf → ∃ lib, opened lib ∧
  ∃ fuel cs p now e, calls (setting_of powf lib) fuel new_practice cs = Some p ∧
    Forall (λ x, (x.1 <= now)%Z ∧ keeps_caches x.2) cs ∧ get_unit_type (lib_graph lib) e = Some Exercise ∧
    fst (exercise_entry (world_of (setting_of powf lib) now p) e (p_caches p)) ≠
    fst (exercise_entry (world_of (setting_of powf lib) now p) e no_caches).
Proof. intros powf Hp Hr. destruct two_lessons_opened as (lib & Ho & Hg). exists lib. split; [done|]. by apply later_stale. Qed.
Lemma some_superseding_stale : ∀ powf, power_ok powf → rounded_power powf → ∃ lib, opened lib ∧
  ∃ fuel now cs p u, calls (setting_of powf lib) fuel new_practice ((λ c, (now, c)) <$> cs) = Some p ∧ Forall keeps_caches cs ∧
    fst (unit_score (world_of (setting_of powf lib) now p) fuel u (p_caches p)) ≠
    fst (unit_score (world_of (setting_of powf lib) now p) fuel u no_caches).
Proof. intros powf Hp Hr. destruct two_lessons_opened as (lib & Ho & Hg). exists lib. split; [done|]. by apply superseding_stale. Qed.
Lemma some_unbanned_stale : ∀ powf, ∃ lib, opened lib ∧
  ∃ fuel cs p u, calls (setting_of powf lib) fuel new_practice ((λ c, (0%Z, c)) <$> cs) = Some p ∧ not_superseded (lib_graph lib) u ∧
    fst (unit_score (world_of (setting_of powf lib) 0 p) fuel u (p_caches p)) ≠
    fst (unit_score (world_of (setting_of powf lib) 0 p) fuel u no_caches).
Proof. intros powf. destruct two_lessons_opened as (lib & Ho & Hg). exists lib. split; [done|]. by apply unbanned_stale. Qed.
Lemma some_removed_stale : ∀ powf, ∃ lib, opened lib ∧
  ∃ fuel cs p e, calls (setting_of powf lib) fuel new_practice ((λ c, (0%Z, c)) <$> cs) = Some p ∧
    get_unit_type (lib_graph lib) e = Some Exercise ∧
    fst (exercise_entry (world_of (setting_of powf lib) 0 p) e (p_caches p)) ≠
    fst (exercise_entry (world_of (setting_of powf lib) 0 p) e no_caches).
Proof. intros powf. destruct two_lessons_opened as (lib & Ho & Hg). exists lib. split; [done|]. by apply removed_stale. Qed.
