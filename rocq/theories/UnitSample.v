(** A library on which the score of a unit never returns, and other examples for P_Units.v. *)
From stdpp Require Import gmap strings list relations.
From Coq Require Import ZArith Lia.
From Verif Require Import F32 Graph GraphSpec Library LibrarySpec LibraryQueries LibrarySample LibFacts SearchSpec SearchSample UnitScorer UnitSpec.
Local Open Scope string_scope.
Local Open Scope list_scope.
Local Open Scope bool_scope.

(** A course that supersedes its only lesson. *)
Definition own_lesson : list open_course :=
  [OpenCourse (CourseManifest "C" [] [] ["C::L"] None)
     [(LessonManifest "C::L" "C" [] [] [] None, [sample_exercise "exercise" "C::L" "C"])]].
Lemma own_lesson_consistent : Forall consistent own_lesson.
Proof.
  constructor; [|constructor]. intros lm exs H. cbn in H. apply elem_of_list_singleton in H. injection H as -> ->.
  split; [done|]. intros em Hem. apply elem_of_list_singleton in Hem. by subst.
Qed.
Definition own_lesson_graph (g : graph) : Prop :=
  get_unit_type g "C" = Some Course ∧ get_unit_type g "C::L" = Some Lesson ∧ get_unit_type g "exercise" = Some Exercise ∧
  get_superseded_by g "C::L" = Some {["C"]} ∧ get_superseded_by g "C" = None ∧
  get_course_lessons g "C" = Some {["C::L"]} ∧ get_lesson_exercises g "C::L" = Some {["exercise"]} ∧ get_lesson_course g "C::L" = Some "C".
Global Instance own_lesson_graph_dec g : Decision (own_lesson_graph g) := _.
(** The exercise "exercise", in a lesson and a course that encompass nothing. *)
Definition alone (lib : library) (l c : uid) : Prop :=
  get_unit_type (lib_graph lib) "exercise" = Some Exercise ∧ get_exercise_lesson (lib_graph lib) "exercise" = Some l ∧
  get_lesson_course (lib_graph lib) l = Some c ∧
  em_procedural <$> exercise_map lib !! "exercise" = Some true ∧
  default [] (get_encompasses (lib_graph lib) l) = [] ∧ default [] (get_encompasses (lib_graph lib) c) = [].
Global Instance alone_dec lib l c : Decision (alone lib l c) := _.
Lemma own_lesson_opened : ∃ lib, opened lib ∧ own_lesson_graph (lib_graph lib) ∧ alone lib "C::L" "C".
Proof.
  destruct (library_checked (λ lib, bool_decide (own_lesson_graph (lib_graph lib) ∧ alone lib "C::L" "C")) own_lesson own_lesson_consistent) as (lib & Ho & H).
  { vm_compute. reflexivity. }
  exists lib. split; [done|]. by apply bool_decide_eq_true in H.
Qed.

Section endless.
  Context (w : world) (Hord : ∀ s, w_ord w s ≡ₚ elements s) (Hg : own_lesson_graph (w_graph w)) (Hb : w_banned w = ∅)
    (x : cached_score) (Hx : w_exercise w "exercise" = Val x) (Hp : fgt (ca_score x) fzero = true).

  Lemma ord_one (u : uid) : w_ord w {[u]} = [u].
  Proof using Hord. apply Permutation_singleton_r. rewrite Hord. by rewrite elements_singleton. Qed.
  Lemma no_bans (u : uid) : w_bans w u = false.
  Proof using Hb. unfold w_bans. rewrite Hb. apply bool_decide_eq_false, not_elem_of_empty. Qed.

  Definition fresh (c : caches) : Prop :=
    c_lesson c !! "C::L" = None ∧ c_course c !! "C" = None ∧
    (∀ y, c_exercise c !! "exercise" = Some y → fgt (ca_score y) fzero = true).

  Lemma have_scores_fresh c : fresh c → ∃ c', all_have_scores w "C::L" c = (Val true, c') ∧ fresh c'.
  Proof using Hord Hg Hb Hx Hp.
    intros (H1 & H2 & H3). destruct Hg as (T1 & T2 & T3 & G1 & G2 & G3 & G4 & G5).
    unfold all_have_scores, valid_in_unit. rewrite T2. unfold valid_in_lesson. rewrite !no_bans. unfold w_exercises. rewrite G4.
    cbn [default id]. rewrite ord_one. cbn [List.filter]. rewrite no_bans. cbn [negb].
    cbn [each]. unfold then_do, or_default, exercise_score, exercise_entry, then_do.
    destruct (c_exercise c !! "exercise") as [y|] eqn:E; [|rewrite Hx]; cbn [done_with].
    - cbn [forallb positive]. rewrite (H3 y) by done. eexists. split; [reflexivity|]. split_and!; [done|done|]. intros y0 E0. apply H3. congruence.
    - cbn [forallb positive]. rewrite Hp. eexists. split; [reflexivity|]. split_and!; [done|done|].
      intros y. cbn. rewrite lookup_insert. by intros [= <-].
  Qed.
  Lemma lesson_endless fuel : ∀ c, fresh c → fst (unit_score w fuel "C::L" c) = NoFuel.
  Proof using Hord Hg Hb Hx Hp.
    destruct Hg as (T1 & T2 & T3 & G1 & G2 & G3 & G4 & G5).
    induction fuel as [|fuel IH]; intros c Hc; [done|].
    cbn [unit_score]. rewrite T2. unfold lesson_score. assert (Hc' := Hc). destruct Hc' as (H1 & H2 & H3). rewrite H1, no_bans.
    unfold superseded. rewrite G1. destruct fuel as [|fuel]; [done|].
    assert (E : replace_superseding w (unit_score w (S fuel)) (S fuel) {["C"]} c = (Val {["C"]}, c)).
    { cbn [replace_superseding]. rewrite ord_one. unfold then_do. cbn [each]. rewrite G2. unfold then_do, done_with. cbn.
      by rewrite union_empty_r_L. }
    unfold then_do at 1 2. rewrite E. clear E.
    unfold is_superseded. rewrite bool_decide_eq_false_2 by set_solver. unfold then_do at 1.
    destruct (have_scores_fresh c Hc) as (c' & Es & Hf). rewrite Es. clear Es.
    rewrite ord_one. unfold then_do at 1. cbn [each]. unfold then_do at 1, or_default at 1. clear Hc H1 H2 H3 c.
    assert (E : fst (unit_score w (S fuel) "C" c') = NoFuel).
    { assert (IHf := IH c' Hf). cbn [unit_score]. rewrite T1. unfold course_score. destruct Hf as (_ & H2 & _). rewrite H2, no_bans.
      unfold superseded. rewrite G2, G3, ord_one. unfold then_do at 1. cbn [done_with]. cbn [each].
      unfold then_do at 1, then_do at 1, or_default. cbn [unit_score] in IHf. rewrite T2 in IHf.
      destruct (lesson_score w (unit_score w fuel) fuel "C::L" c') as [[| | |] c2]; done. }
    destruct (unit_score w (S fuel) "C" c') as [[| | |] c2]; done.
  Qed.
End endless.
