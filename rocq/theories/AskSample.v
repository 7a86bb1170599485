(** Caches that are not what would be computed. *)
From stdpp Require Import gmap strings list relations.
From Coq Require Import ZArith.
From Verif Require Import F32 Compute Graph GraphSpec Library SearchSpec UnitScorer UnitSpec UnitEnds UnitPure AskSpec PracticeSample UnitsMore.
Local Open Scope string_scope.
Local Open Scope list_scope.

Definition unseen : cached_score := Cached fzero fzero None 0.
Definition plain_world (g : graph) : world := World g ∅ (λ _, Val unseen) f_3_75 elements.
Definition stale : caches := set_lesson <["better" := Some f_5]> no_caches.
Lemma stale_sample : ∃ lib w, opened lib ∧ acyclic (below (lib_graph lib)) ∧
  w_graph w = lib_graph lib ∧ (∀ s, w_ord w s ≡ₚ elements s) ∧ (∀ e, w_exercise w e ≠ NoFuel) ∧
  ∀ fuel, fst (reply w (AScore (S fuel) "better") stale) = OfScore (Val (Some f_5)) ∧
          fst (reply w (AScore (S fuel) "better") no_caches) = OfScore (Val (Some fzero)).
Proof.
  destruct two_lessons_opened as (lib & Hl & ((_ & _ & Tb & _) & (_ & _ & Sb) & (_ & _ & Eb & _) & _ & _ & Hf)).
  exists lib, (plain_world (lib_graph lib)). split; [done|]. split; [|split; [done|split; [done|split; [done|]]]].
  { apply same_kind_acyclic; [done|].
    intros u v Hs Hu. exfalso. unfold supersedes, answers, get_supersedes in Hs. destruct (supersedes_graph (lib_graph lib) !! u) as [x|] eqn:E; [|done].
    apply Hf in E. rewrite E in Hu. done. }
  intros fuel. cbn [reply unit_score plain_world w_graph]. rewrite Tb. unfold lesson_score. split.
  - cbn [stale set_lesson c_lesson]. rewrite lookup_insert. done.
  - cbn [no_caches c_lesson]. rewrite lookup_empty. change (w_bans (plain_world (lib_graph lib)) "better") with (bool_decide ("better" ∈ (∅ : gset uid))).
    rewrite bool_decide_eq_false_2 by apply not_elem_of_empty. unfold superseded, then_do at 1. cbn [plain_world w_graph w_ord]. rewrite Sb. cbn [done_with].
    rewrite Eb. rewrite elements_singleton. cbn [List.filter].
    change (w_bans _ "other") with (bool_decide ("other" ∈ (∅ : gset uid))).
    rewrite bool_decide_eq_false_2 by apply not_elem_of_empty. cbn [negb each]. unfold then_do, exercise_score, then_do, exercise_entry.
    vm_compute. reflexivity.
Qed.
