(** The scores of lessons and courses are the averages they should be. *)
From stdpp Require Import gmap strings list relations.
From Coq Require Import ZArith Lia.
From Verif Require Import F32 Graph GraphSpec Library LibFacts SearchSpec UnitScorer UnitSpec UnitProofs UnitEnds Practice PracticeSpec PracticeProofs PracticeMore
  UnitPure UnitAverageSpec.
Local Open Scope bool_scope.

(** ** No panic *)
Definition calm {A} (r : outcome A) : Prop := r ≠ Panic.
Lemma calm_bind {A B} (m : outcome A) (k : A → outcome B) : calm m → (∀ a, calm (k a)) → calm (obind m k).
Proof. intros Hm Hk. destruct m; cbn; [apply Hk|done..]. Qed.
Lemma calm_default {A} (d : A) (m : outcome A) : calm m → calm (odefault d m).
Proof. by destruct m. Qed.
Lemma calm_each {A B} (f : A → outcome B) l : (∀ x, calm (f x)) → calm (oeach f l).
Proof. intros H. induction l as [|x l IH]; [done|]. cbn. apply calm_bind; [done|]. intros y. by apply calm_bind. Qed.

Definition sure {A} (r : outcome A) : Prop := r ≠ Fail.
Lemma sure_bind {A B} (m : outcome A) (k : A → outcome B) : sure m → (∀ a, sure (k a)) → sure (obind m k).
Proof. intros Hm Hk. destruct m; cbn; [apply Hk|done..]. Qed.
Lemma sure_default {A} (d : A) (m : outcome A) : sure (odefault d m).
Proof. by destruct m. Qed.
Lemma sure_each {A B} (f : A → outcome B) l : (∀ x, sure (f x)) → sure (oeach f l).
Proof. intros H. induction l as [|x l IH]; [done|]. cbn. apply sure_bind; [done|]. intros y. by apply sure_bind. Qed.

(** ** Running on a list *)
Lemma oeach_vals {A B} (f : A → outcome B) (h : A → B) l : (∀ x, x ∈ l → f x = Val (h x)) → oeach f l = Val (h <$> l).
Proof.
  induction l as [|x l IH]; intros H; [done|]. cbn. rewrite (H x) by left. cbn. rewrite IH; [done|]. intros y Hy. apply H. by right.
Qed.
(** Each is a value unless one has no fuel. *)
Lemma oeach_choice {A B} (f : A → outcome B) (R : A → B → Prop) l : (∀ x, x ∈ l → f x = NoFuel ∨ ∃ y, f x = Val y ∧ R x y) →
  oeach f l = NoFuel ∨ ∃ ys, oeach f l = Val ys ∧ Forall2 R l ys.
Proof.
  induction l as [|x l IH]; intros H; [right; exists []; by split|]. cbn.
  destruct (H x) as [-> | (y & -> & Hy)]; [left|by left|]. cbn.
  destruct IH as [-> | (ys & -> & Hys)]; [intros z Hz; apply H; by right|by left|]. right. exists (y :: ys). split; [done|]. by constructor.
Qed.
Lemma omap_id_some {A} (l : list A) : omap id (Some <$> l) = l.
Proof. induction l as [|x l IH]; [done|]. cbn. by rewrite IH. Qed.

Section averages.
  Context (lib : library) (Hlib : opened lib) (w : world) (Hg : w_graph w = lib_graph lib)
    (Hord : ∀ s, w_ord w s ≡ₚ elements s) (x : uid → cached_score) (Hx : ∀ e, w_exercise w e = Val (x e)).
  Let g := w_graph w.

  Lemma score_val e : pure_score w e = Val (ca_score (x e)).
  Proof using Hx. unfold pure_score. by rewrite Hx. Qed.
  Lemma have_scores_val u : pure_have_scores w u = Val (forallb (λ e, fgt (ca_score (x e)) fzero) (valid_in_unit w u)).
  Proof using Hx.
    unfold pure_have_scores. destruct (valid_in_unit w u) as [|e l] eqn:E; [done|]. rewrite <- E. clear E.
    rewrite (oeach_vals _ (λ e, Some (ca_score (x e)))). 2:{ intros y _. by rewrite score_val. }
    cbn. f_equal. generalize (valid_in_unit w u). intros k. induction k as [|y k IH]; [done|]. cbn. by rewrite IH.
  Qed.

  Lemma calm_is_superseded us u by_ : (∀ v, calm (us v)) → calm (pure_is_superseded w us u by_).
  Proof using Hx.
    intros Hus. unfold pure_is_superseded. destruct (bool_decide _); [done|]. rewrite have_scores_val. cbn.
    destruct (forallb _ _); [|done]. apply calm_bind; [|done]. apply calm_each. intros v. by apply calm_default.
  Qed.
  Lemma calm_replace us fuel by_ : (∀ v, calm (us v)) → calm (pure_replace w us fuel by_).
  Proof using Hx.
    intros Hus. revert by_. induction fuel as [|fuel IH]; intros by_; [done|]. cbn. apply calm_bind; [|done]. apply calm_each. intros s.
    destruct (get_superseded_by _ s); [|done]. apply calm_bind; [by apply calm_is_superseded|]. by intros [|].
  Qed.
  Lemma calm_superseded us fuel u : (∀ v, calm (us v)) → calm (pure_superseded w us fuel u).
  Proof using Hx.
    intros Hus. unfold pure_superseded. destruct (get_superseded_by _ u); [|done]. apply calm_bind; [by apply calm_replace|].
    intros by_. by apply calm_is_superseded.
  Qed.
  Lemma calm_lesson us fuel l : (∀ v, calm (us v)) → calm (pure_lesson w us fuel l).
  Proof using Hx.
    intros Hus. unfold pure_lesson. destruct (w_bans w l); [done|]. apply calm_bind; [by apply calm_superseded|]. intros [|]; [done|].
    destruct (get_lesson_exercises _ l); [|done]. destruct (List.filter _ _) as [|e k] eqn:E; [done|]. rewrite <- E.
    rewrite (oeach_vals _ (λ e, ca_score (x e))) by (intros; apply score_val). done.
  Qed.
  Lemma calm_unit fuel u : calm (pure_unit w fuel u).
  Proof using Hx.
    revert u. induction fuel as [|fuel IH]; intros u; [done|]. cbn. destruct (get_unit_type _ u) as [[| |]|]; [| | |done].
    - rewrite score_val. done.
    - by apply calm_lesson.
    - unfold pure_course. destruct (w_bans w u); [done|]. apply calm_bind; [by apply calm_superseded|]. intros [|]; [done|].
      destruct (get_course_lessons _ u); [|done]. apply calm_bind; [|intros scores; by destruct (omap id scores)].
      apply calm_each. intros l. apply calm_default. by apply calm_lesson.
  Qed.

  Lemma sure_is_superseded us u by_ : sure (pure_is_superseded w us u by_).
  Proof using Hx.
    unfold pure_is_superseded. destruct (bool_decide _); [done|]. rewrite have_scores_val. cbn.
    destruct (forallb _ _); [|done]. apply sure_bind; [|done]. apply sure_each. intros v. apply sure_default.
  Qed.
  Lemma sure_superseded us fuel u : sure (pure_superseded w us fuel u).
  Proof using Hx.
    unfold pure_superseded. destruct (get_superseded_by _ u) as [by_|]; [|done]. apply sure_bind; [|intros; apply sure_is_superseded].
    revert by_. induction fuel as [|fuel IH]; intros by_; [done|]. cbn. apply sure_bind; [|done]. apply sure_each. intros s.
    destruct (get_superseded_by _ s); [|done]. apply sure_bind; [apply sure_is_superseded|]. by intros [|].
  Qed.
  Lemma sure_unit fuel u : get_unit_type g u ≠ None → sure (pure_unit w fuel u).
  Proof using Hx.
    intros Hu. destruct fuel as [|fuel]; [done|]. cbn. change (w_graph w) with g. destruct (get_unit_type g u) as [[| |]|]; [| | |done].
    - rewrite score_val. done.
    - unfold pure_lesson. destruct (w_bans w u); [done|]. apply sure_bind; [apply sure_superseded|]. intros [|]; [done|].
      destruct (get_lesson_exercises _ u); [|done]. destruct (List.filter _ _) as [|e k] eqn:E; [done|]. rewrite <- E.
      rewrite (oeach_vals _ (λ e, ca_score (x e))) by (intros; apply score_val). done.
    - unfold pure_course. destruct (w_bans w u); [done|]. apply sure_bind; [apply sure_superseded|]. intros [|]; [done|].
      destruct (get_course_lessons _ u); [|done]. apply sure_bind; [|intros scores; by destruct (omap id scores)].
      apply sure_each. intros l. apply sure_default.
  Qed.

  Lemma bans_spec u : w_bans w u = true ↔ banned w u.
  Proof using. unfold w_bans. apply bool_decide_eq_true. Qed.
  Lemma bans_not u : w_bans w u = false ↔ ¬ banned w u.
  Proof using. unfold w_bans. apply bool_decide_eq_false. Qed.
  Lemma in_lesson_list l es : get_lesson_exercises g l = Some es → ∀ e, e ∈ List.filter (λ e, negb (w_bans w e)) (w_ord w es) ↔
    get_exercise_lesson g e = Some l ∧ ¬ banned w e.
  Proof using Hlib Hg Hord.
    intros He e. rewrite elem_of_list_In, filter_In, <- elem_of_list_In. rewrite Hord, elem_of_elements, negb_true_iff, bans_not.
    unfold g in *. rewrite Hg in *. rewrite <- (exercises_of_spec lib Hlib l e). rewrite He.
    split; [intros [? ?]; split; [by exists es|done]|]. intros [(es' & [= <-] & ?) ?]. done.
  Qed.
  Lemma in_lesson_none l : get_lesson_exercises g l = None → ∀ e, get_exercise_lesson g e ≠ Some l.
  Proof using Hlib Hg.
    unfold g. rewrite Hg. intros H e He. apply (exercises_of_spec lib Hlib) in He as (es & He & _). congruence.
  Qed.
  Lemma valid_lesson_spec l : get_unit_type g l = Some Lesson → ∀ e, e ∈ valid_in_lesson w l ↔
    ¬ banned w e ∧ get_exercise_lesson g e = Some l ∧ ¬ banned w l ∧ ∃ c, get_lesson_course g l = Some c ∧ ¬ banned w c.
  Proof using Hlib Hg Hord.
    intros Hl e. unfold valid_in_lesson. unfold g in *.
    assert (Hc : ∃ c, get_lesson_course (w_graph w) l = Some c) by (rewrite Hg in *; by apply (k_lesson _ (opened_ok _ Hlib))).
    destruct Hc as [c Hc]. rewrite Hc. cbn [default id from_option].
    destruct (w_bans w l) eqn:El; [apply bans_spec in El|apply bans_not in El].
    { split; [by intros ?%elem_of_nil|]. by intros (_ & _ & ? & _). }
    destruct (w_bans w c) eqn:Ec; [apply bans_spec in Ec|apply bans_not in Ec].
    { split; [by intros ?%elem_of_nil|]. intros (_ & _ & _ & c' & Hc' & ?). congruence. }
    unfold w_exercises. destruct (get_lesson_exercises (w_graph w) l) as [es|] eqn:Ee; cbn [default from_option id].
    - rewrite (in_lesson_list l es Ee). unfold g. split; [intros [? ?]; by eauto 10|]. by intros (? & ? & _).
    - assert (E0 : List.filter (λ e, negb (w_bans w e)) (w_ord w ∅) = []).
      { replace (w_ord w ∅) with (@nil uid); [done|]. symmetry. apply Permutation_nil_r. by rewrite Hord, elements_empty. }
      rewrite E0. split; [by intros ?%elem_of_nil|]. intros (_ & He & _). by apply (in_lesson_none l Ee) in He.
  Qed.
  Lemma valid_spec u e : e ∈ valid_in_unit w u ↔ counts w u e.
  Proof using Hlib Hg Hord.
    unfold valid_in_unit, counts. fold g.
    assert (HL : ∀ e l, get_exercise_lesson g e = Some l → get_unit_type g e = Some Exercise ∧ get_unit_type g l = Some Lesson).
    { unfold g. rewrite Hg. intros e' l. apply (exercise_lesson_types lib Hlib). }
    assert (HC : ∀ l c, get_lesson_course g l = Some c → get_unit_type g l = Some Lesson ∧ get_unit_type g c = Some Course).
    { unfold g. rewrite Hg. intros l c. apply (lesson_course_types lib Hlib). }
    destruct (get_unit_type g u) as [[| |]|] eqn:Eu.
    - destruct (w_bans w u) eqn:Eb; [apply bans_spec in Eb|apply bans_not in Eb].
      + split; [by intros ?%elem_of_nil|]. intros (_ & He & [-> | (l & c & H1 & H2 & _ & _ & [-> | ->])]); [done| |].
        * apply HL in H1 as [_ ?]. congruence.
        * apply HC in H2 as [_ ?]. congruence.
      + rewrite elem_of_list_singleton. split; [intros ->; by auto|].
        intros (_ & He & [-> | (l & c & H1 & H2 & _ & _ & [-> | ->])]); [done| |].
        * apply HL in H1 as [_ ?]. congruence.
        * apply HC in H2 as [_ ?]. congruence.
    - rewrite valid_lesson_spec by done. split.
      + intros (H1 & H2 & H3 & c & H4 & H5). pose proof (HL _ _ H2) as [? _]. split; [done|]. split; [done|]. right. exists u, c. auto 10.
      + intros (He0 & H1 & [-> | (l & c & H2 & H3 & H4 & H5 & [-> | ->])]); [congruence|by eauto 10|]. apply HC in H3 as [_ ?]. congruence.
    - destruct (w_bans w u) eqn:Eb; [apply bans_spec in Eb|apply bans_not in Eb].
      + split; [by intros ?%elem_of_nil|]. intros (He0 & He & [-> | (l & c & H1 & H2 & _ & Hc & [-> | ->])]); [congruence| |done].
        apply HL in H1 as [_ ?]. congruence.
      + assert (Hls : ∀ l, l ∈ w_ord w (default ∅ (get_course_lessons g u)) ↔ get_lesson_course g l = Some u).
        { intros l. rewrite Hord, elem_of_elements. unfold g. rewrite Hg. rewrite <- (lessons_of_spec lib Hlib u l).
          destruct (get_course_lessons (lib_graph lib) u) as [ls|]; cbn [default from_option id].
          - split; [by eauto|]. by intros (ls' & [= <-] & ?).
          - split; [by intros ?%elem_of_empty|]. by intros (? & ? & _). }
        rewrite elem_of_list_join. split.
        * intros (k & He & Hk). apply elem_of_list_fmap in Hk as (l & -> & Hl). apply Hls in Hl. pose proof (HC _ _ Hl) as [Tl _].
          apply (valid_lesson_spec l Tl) in He as (H1 & H2 & H3 & c & H4 & H5). pose proof (HL _ _ H2) as [? _].
          split; [done|]. split; [done|]. right. exists l, c. assert (c = u) by congruence. auto 10.
        * intros (He0 & H1 & [-> | (l & c & H2 & H3 & H4 & H5 & [-> | ->])]); [congruence| |].
          -- apply HL in H2 as [_ ?]. congruence.
          -- exists (valid_in_lesson w l). split.
             ++ apply valid_lesson_spec; [by destruct (HC _ _ H3)|]. eauto 10.
             ++ apply elem_of_list_fmap. exists l. split; [done|]. by apply Hls.
    - split; [by intros ?%elem_of_nil|]. intros (He & _ & [-> | (l & c & H1 & H2 & _ & _ & [-> | ->])]); [congruence| |].
      + apply HL in H1 as [_ ?]. congruence.
      + apply HC in H2 as [_ ?]. congruence.
  Qed.

  Section unit.
    Context (us : uid → outcome (option f32)) (score : uid → option f32) (Hus : ∀ v, odefault None (us v) = Val (score v))
      (Hse : ∀ e, get_unit_type g e = Some Exercise → score e = Some (ca_score (x e))).

    Lemma practised_spec u : forallb (λ e, fgt (ca_score (x e)) fzero) (valid_in_unit w u) = true ↔ practised w score u.
    Proof using Hlib Hg Hord Hse.
      rewrite forallb_forall. unfold practised. split.
      - intros H e He. exists (ca_score (x e)). split; [apply Hse, He|]. apply H, elem_of_list_In. by apply valid_spec.
      - intros H e He. apply elem_of_list_In, valid_spec in He. destruct (H e He) as (y & Hy & Hp). rewrite Hse in Hy by apply He. by injection Hy as <-.
    Qed.
    Lemma mastered_spec v : reaches w (score v) = true ↔ mastered w score v.
    Proof using. unfold mastered, reaches. destruct (score v) as [y|]; [|done]. split; [by intros ? ? [= <-]|auto]. Qed.
    Lemma is_superseded_spec u (by_ : gset uid) : ∃ b, pure_is_superseded w us u by_ = Val b ∧
      (b = true ↔ by_ ≠ ∅ ∧ practised w score u ∧ ∀ v, v ∈ by_ → mastered w score v).
    Proof using Hlib Hg Hord Hx Hus Hse.
      unfold pure_is_superseded. destruct (bool_decide (by_ = ∅)) eqn:E.
      { apply bool_decide_eq_true in E. exists false. split; [done|]. split; [done|]. by intros [? _]. }
      apply bool_decide_eq_false in E. rewrite have_scores_val. cbn. destruct (forallb _ _) eqn:F.
      - apply practised_spec in F. rewrite (oeach_vals _ score) by (intros v _; apply Hus). cbn. eexists. split; [done|].
        rewrite forallb_forall. split.
        + intros H. split; [done|]. split; [done|]. intros v Hv. apply mastered_spec, H, elem_of_list_In, elem_of_list_fmap.
          exists v. split; [done|]. by rewrite Hord, elem_of_elements.
        + intros (_ & _ & H) y Hy. apply elem_of_list_In, elem_of_list_fmap in Hy as (v & -> & Hv). apply mastered_spec, H.
          by rewrite Hord, elem_of_elements in Hv.
      - exists false. split; [done|]. split; [done|]. intros (_ & H & _). apply practised_spec in H. congruence.
    Qed.
    Lemma gives_way_spec u more : get_superseded_by g u = Some more →
      gives_way w score u ↔ more ≠ ∅ ∧ practised w score u ∧ ∀ v, v ∈ more → mastered w score v.
    Proof using.
      intros E. unfold gives_way, is_superseded_by, answers. fold g. rewrite E. split.
      - intros ((v & Hv) & H1 & H2). split; [|done]. intros ->. by apply elem_of_empty in Hv.
      - intros (H0 & H1 & H2). split; [|done]. apply set_choose_L in H0 as [v Hv]. eauto.
    Qed.
    Lemma gives_way_none u : get_superseded_by g u = None → ¬ gives_way w score u.
    Proof using. intros E ((v & Hv) & _). unfold is_superseded_by, answers in Hv. fold g in Hv. by rewrite E in Hv. Qed.

    Lemma replace_spec fuel : ∀ by_, pure_replace w us fuel by_ = NoFuel ∨
      ∃ S, pure_replace w us fuel by_ = Val S ∧ ∀ v, v ∈ S ↔ ∃ s, s ∈ by_ ∧ stands_for w score s v.
    Proof using Hlib Hg Hord Hx Hus Hse.
      induction fuel as [|fuel IH]; intros by_; [by left|]. cbn [pure_replace].
      match goal with |- obind (oeach ?f ?l) _ = _ ∨ _ =>
        destruct (oeach_choice f (λ s (S : gset uid), ∀ v, v ∈ S ↔ stands_for w score s v) l) as [-> | (sets & -> & Hs)] end.
      - intros s _. change (w_graph w) with g. destruct (get_superseded_by g s) as [more|] eqn:E.
        + destruct (is_superseded_spec s more) as (b & -> & Hb). rewrite <- (gives_way_spec s more E) in Hb. cbn. destruct b.
          * destruct (IH more) as [-> | (S & -> & HS)]; [by left|]. right. exists S. split; [done|]. intros v. rewrite HS.
            assert (Hw : gives_way w score s) by (by apply Hb). split.
            -- intros (s' & Hs' & Hv). apply stands_other with s'; [done| |done]. unfold is_superseded_by, answers. fold g. by rewrite E.
            -- intros H. destruct H as [s Hn|s s' v _ Hs' Hv]; [done|]. exists s'. split; [|done].
               unfold is_superseded_by, answers in Hs'. fold g in Hs'. by rewrite E in Hs'.
          * right. exists {[s]}. split; [done|]. intros v. rewrite elem_of_singleton.
            assert (Hn : ¬ gives_way w score s) by (intros H; by apply Hb in H). split; [intros ->; by constructor|].
            intros H. destruct H as [s _|s s' v Hw _ _]; [done|]. done.
        + right. exists {[s]}. split; [done|]. intros v. rewrite elem_of_singleton. pose proof (gives_way_none s E) as Hn.
          split; [intros ->; by constructor|]. intros H. destruct H as [s _|s s' v Hw _ _]; [done|]. done.
      - by left.
      - right. cbn. eexists. split; [done|]. intros v. rewrite elem_of_union_list. split.
        + intros (S & HS & Hv). apply elem_of_list_lookup in HS as (i & Hi). destruct (Forall2_lookup_r _ _ _ _ _ Hs Hi) as (s & Hi' & H).
          exists s. split; [|by apply H]. rewrite <- elem_of_elements, <- Hord. apply elem_of_list_lookup. eauto.
        + intros (s & Hs' & Hv). rewrite <- elem_of_elements, <- Hord in Hs'. apply elem_of_list_lookup in Hs' as (i & Hi).
          destruct (Forall2_lookup_l _ _ _ _ _ Hs Hi) as (S & Hi' & H). exists S. split; [|by apply H]. apply elem_of_list_lookup. eauto.
    Qed.
    Lemma superseded_spec fuel u : pure_superseded w us fuel u = NoFuel ∨
      ∃ b, pure_superseded w us fuel u = Val b ∧ (b = true ↔ overtaken w score u).
    Proof using Hlib Hg Hord Hx Hus Hse.
      unfold pure_superseded. change (w_graph w) with g. destruct (get_superseded_by g u) as [by_|] eqn:E.
      - destruct (replace_spec fuel by_) as [-> | (S & -> & HS)]; [by left|]. right. cbn.
        destruct (is_superseded_spec u S) as (b & -> & Hb). exists b. split; [done|]. rewrite Hb. unfold overtaken, is_superseded_by, answers.
        fold g. rewrite E. split.
        + intros (H0 & H1 & H2). split; [|split; [done|]].
          * apply set_choose_L in H0 as [v Hv]. apply HS in Hv as (s & ? & ?). eauto.
          * intros v y Hv Hy. apply H2, HS. eauto.
        + intros ((v & y & Hv & Hy) & H1 & H2). split; [|split; [done|]].
          * intros ->. apply (not_elem_of_empty (C := gset uid) y), HS. eauto.
          * intros z Hz. apply HS in Hz as (s & ? & ?). by apply (H2 s z).
      - right. exists false. split; [done|]. split; [done|]. intros ((v & y & Hv & _) & _). unfold is_superseded_by, answers in Hv.
        fold g in Hv. by rewrite E in Hv.
    Qed.
  End unit.

  Context (n : nat) (Hn : ∀ u, low g n u).
  Definition shown (u : uid) : option f32 := match pure_unit w (S n) u with Val v => v | _ => None end.
  Lemma unit_fine f u : n < f → pure_unit w f u ≠ NoFuel.
  Proof using Hord Hx Hn.
    intros Hf E. assert (F : fine (pure_unit w f u)); [|by rewrite E in F]. apply (fine_unit w Hord) with n; [|apply Hn|done].
    intros e. by rewrite Hx.
  Qed.
  Lemma unit_same f u : n < f → pure_unit w f u = pure_unit w (S n) u.
  Proof using Hord Hx Hn.
    intros Hf. apply (same_answer (λ f, pure_unit w f u)); [|apply unit_fine; lia..]. intros a b Hab. by apply le_unit.
  Qed.
  Lemma unit_shown f u : n < f → odefault None (pure_unit w f u) = Val (shown u).
  Proof using Hord Hx Hn.
    intros Hf. rewrite (unit_same f u Hf). unfold shown. pose proof (unit_fine (S n) u ltac:(lia)) as H1. pose proof (calm_unit (S n) u) as H2.
    by destruct (pure_unit w (S n) u).
  Qed.
  Lemma shown_exercise e : get_unit_type g e = Some Exercise → shown e = Some (ca_score (x e)).
  Proof using Hx. intros He. unfold shown. cbn [pure_unit]. change (w_graph w) with g. by rewrite He, score_val. Qed.
  Lemma shown_none u : get_unit_type g u = None → shown u = None.
  Proof using. intros He. unfold shown. cbn [pure_unit]. change (w_graph w) with g. by rewrite He. Qed.
  Lemma lesson_known l e : get_exercise_lesson g e = Some l → get_unit_type g e = Some Exercise.
  Proof using Hlib Hg. unfold g. rewrite Hg. intros H. by apply (exercise_lesson_types lib Hlib e l) in H as [? _]. Qed.
  Lemma course_known c l : get_lesson_course g l = Some c → get_unit_type g l = Some Lesson.
  Proof using Hlib Hg. unfold g. rewrite Hg. intros H. by apply (lesson_course_types lib Hlib l c) in H as [? _]. Qed.
  Lemma ord_nodup s : NoDup (w_ord w s).
  Proof using Hord. rewrite Hord. apply NoDup_elements. Qed.

  Lemma mean_average l : l ≠ [] → mean l = Some (average l).
  Proof using. by destruct l. Qed.
  Lemma omap_exercises (l : list uid) : (∀ e, e ∈ l → get_unit_type g e = Some Exercise) → omap shown l = (λ e, ca_score (x e)) <$> l.
  Proof using Hx.
    induction l as [|e l IH]; intros H; [done|]. cbn. rewrite (shown_exercise e) by (apply H; left). f_equal. apply IH.
    intros e' He'. apply H. by right.
  Qed.
  Lemma omap_id_map {A} (f : A → option f32) (l : list A) : omap id (f <$> l) = omap f l.
  Proof using. induction l as [|a l IH]; [done|]. cbn. rewrite IH. done. Qed.

  (** The score of a lesson from that of its exercises. *)
  Lemma lesson_average f l : n < f → pure_lesson w (pure_unit w f) f l ≠ NoFuel →
    ∃ v, pure_lesson w (pure_unit w f) f l = Val v ∧
      (banned w l ∨ overtaken w shown l → v = None) ∧
      (¬ banned w l → ¬ overtaken w shown l → mean_over (λ e, get_exercise_lesson g e = Some l ∧ ¬ banned w e) shown v).
  Proof using Hlib Hg Hord Hx Hn.
    intros Hf. unfold pure_lesson. destruct (w_bans w l) eqn:Eb; [apply bans_spec in Eb|apply bans_not in Eb].
    { intros _. exists None. split; [done|]. split; [done|]. intros ?. done. }
    destruct (superseded_spec (pure_unit w f) shown (λ v, unit_shown f v Hf) shown_exercise f l) as [-> | (b & -> & Hb)]; [done|].
    cbn [obind]. destruct b.
    { intros _. exists None. split; [done|]. split; [done|]. intros _ H. by destruct H; apply Hb. }
    assert (Ho : ¬ overtaken w shown l) by (intros H; by apply Hb in H). intros _.
    destruct (get_lesson_exercises (w_graph w) l) as [es|] eqn:E; fold g in E.
    - pose proof (in_lesson_list l es E) as Hin.
      assert (Hnd : NoDup (List.filter (λ e, negb (w_bans w e)) (w_ord w es))) by (apply NoDup_ListNoDup, List.NoDup_filter, NoDup_ListNoDup, ord_nodup).
      revert Hin Hnd. generalize (List.filter (λ e, negb (w_bans w e)) (w_ord w es)) as valid. intros valid Hin Hnd.
      assert (Ev : omap shown valid = (λ e, ca_score (x e)) <$> valid).
      { apply omap_exercises. intros e He. apply Hin in He as [He _]. by apply lesson_known in He. }
      exists (mean (omap shown valid)). split.
      + rewrite Ev. destruct valid as [|e valid]; [done|].
        rewrite (oeach_vals _ (λ e, ca_score (x e))) by (intros; apply score_val). done.
      + split; [by intros [?|?]|]. intros _ _. exists valid. done.
    - exists None. split; [done|]. split; [by intros [?|?]|]. intros _ _. exists []. split; [constructor|]. split; [|done].
      intros e. split; [by intros ?%elem_of_nil|]. intros [He _]. by apply (in_lesson_none l E) in He.
  Qed.
  Lemma lesson_shown l f : get_unit_type g l = Some Lesson → n < f → pure_lesson w (pure_unit w f) f l = pure_unit w (S n) l.
  Proof using Hord Hx Hn.
    intros Hl Hf. rewrite <- (unit_same (S f) l) by lia. cbn [pure_unit]. change (w_graph w) with g. by rewrite Hl.
  Qed.
  Lemma shown_lesson l : get_unit_type g l = Some Lesson →
      (banned w l ∨ overtaken w shown l → shown l = None) ∧
      (¬ banned w l → ¬ overtaken w shown l → mean_over (λ e, get_exercise_lesson g e = Some l ∧ ¬ banned w e) shown (shown l)).
  Proof using Hlib Hg Hord Hx Hn.
    intros Hl. destruct (lesson_average (S n) l) as (v & E & H); [lia| |].
    - rewrite (lesson_shown l (S n) Hl) by lia. apply unit_fine. lia.
    - rewrite (lesson_shown l (S n) Hl) in E by lia. assert (Es : shown l = v) by (unfold shown; by rewrite E). rewrite Es. exact H.
  Qed.
  Lemma course_list c : ∃ ls, w_ord w (default ∅ (get_course_lessons g c)) = ls ∧ NoDup ls ∧ ∀ l, l ∈ ls ↔ get_lesson_course g l = Some c.
  Proof using Hlib Hg Hord.
    eexists. split; [done|]. split; [apply ord_nodup|]. intros l. rewrite Hord, elem_of_elements. unfold g. rewrite Hg.
    rewrite <- (lessons_of_spec lib Hlib c l). destruct (get_course_lessons (lib_graph lib) c) as [ls|]; cbn [default from_option id].
    - split; [by eauto|]. by intros (ls' & [= <-] & ?).
    - split; [by intros ?%elem_of_empty|]. by intros (? & ? & _).
  Qed.
  Lemma unit_course f c : get_unit_type g c = Some Course → pure_unit w (S f) c = pure_course w (pure_unit w f) f c.
  Proof using. intros Hc. cbn [pure_unit]. change (w_graph w) with g. by rewrite Hc. Qed.
  Lemma shown_course c : get_unit_type g c = Some Course →
      (banned w c ∨ overtaken w shown c → shown c = None) ∧
      (¬ banned w c → ¬ overtaken w shown c → mean_over (λ l, get_lesson_course g l = Some c) shown (shown c)).
  Proof using Hlib Hg Hord Hx Hn.
    intros Hc. assert (E : pure_unit w (S (S n)) c = pure_unit w (S n) c) by (apply unit_same; lia).
    assert (F : pure_unit w (S (S n)) c ≠ NoFuel) by (apply unit_fine; lia).
    assert (Es : shown c = match pure_unit w (S (S n)) c with Val v => v | _ => None end) by (unfold shown; by rewrite E).
    rewrite Es. clear E Es. revert F. rewrite (unit_course (S n) c Hc).
    unfold pure_course.
    destruct (w_bans w c) eqn:Eb; [apply bans_spec in Eb|apply bans_not in Eb]; [done|].
    destruct (superseded_spec (pure_unit w (S n)) shown (λ v, unit_shown (S n) v ltac:(lia)) shown_exercise (S n) c) as [-> | (b & -> & Hb)]; [done|].
    cbn [obind]. destruct b.
    { intros _. split; [done|]. intros _ H. by destruct H; apply Hb. }
    assert (Ho : ¬ overtaken w shown c) by (intros H; by apply Hb in H). intros _. split; [by intros [?|?]|]. intros _ _.
    destruct (course_list c) as (ls & Els & Hnd & Hin). change (w_graph w) with g.
    destruct (get_course_lessons g c) as [s|] eqn:E; cbn [default from_option id] in Els.
    - rewrite Els. rewrite (oeach_vals _ shown).
      + cbn [obind]. rewrite omap_id_map. exists ls. split; [done|]. split; [done|]. by destruct (omap shown ls).
      + intros l Hl. apply Hin, course_known in Hl. rewrite (lesson_shown l (S n) Hl) by lia. apply unit_shown. lia.
    - exists []. split; [constructor|]. split; [|done]. intros l. split; [by intros ?%elem_of_nil|]. intros Hl. apply Hin in Hl.
      rewrite <- Els in Hl. by rewrite Hord, elements_empty in Hl.
  Qed.
  Lemma shown_add_up : scores_add_up w shown (λ e, ca_score (x e)).
  Proof using Hlib Hg Hord Hx Hn.
    split.
    - apply shown_none.
    - apply shown_exercise.
    - intros u [Hu|Hu]; [by apply shown_lesson|by apply shown_course].
    - intros l Hl. by apply shown_lesson.
    - intros c Hc. by apply shown_course.
  Qed.

  (** ** Trials *)
  Lemma num_val e : pure_num w e = Val (ca_trials (x e)).
  Proof using Hx. unfold pure_num. by rewrite Hx. Qed.
  Lemma lesson_trials_val l : ∃ es v, NoDup es ∧ (∀ e, e ∈ es ↔ get_exercise_lesson g e = Some l ∧ ¬ banned w e) ∧ pure_lesson_trials w l = Val v ∧
    v = match es with
        | [] => None
        | _ => Some (fdiv (f_of_nat (sum_list ((λ e, ca_trials (x e)) <$> es))) (f_of_nat (length es)))
        end.
  Proof using Hlib Hg Hord Hx.
    unfold pure_lesson_trials. destruct (get_lesson_exercises (w_graph w) l) as [es|] eqn:E; fold g in E.
    - pose proof (in_lesson_list l es E) as Hin.
      assert (Hnd : NoDup (List.filter (λ e, negb (w_bans w e)) (w_ord w es))) by (apply NoDup_ListNoDup, List.NoDup_filter, NoDup_ListNoDup, ord_nodup).
      revert Hin Hnd. generalize (List.filter (λ e, negb (w_bans w e)) (w_ord w es)) as valid. intros valid Hin Hnd.
      exists valid. eexists. split; [done|]. split; [done|].
      rewrite (oeach_vals _ (λ e, Some (ca_trials (x e)))) by (intros e _; by rewrite num_val). cbn [obind]. split; [done|].
      assert (Em : omap id ((λ e, Some (ca_trials (x e))) <$> valid) = (λ e, ca_trials (x e)) <$> valid).
      { clear. induction valid as [|e l IH]; [done|]. cbn. by rewrite IH. }
      rewrite Em. destruct valid as [|e valid]; [done|]. cbn [fmap list_fmap]. do 3 f_equal. cbn [length]. by rewrite fmap_length.
    - exists [], None. split; [constructor|]. split; [|done]. intros e. split; [by intros ?%elem_of_nil|]. intros [He _]. by apply (in_lesson_none l E) in He.
  Qed.
  Definition shown_trials (u : uid) : option f32 :=
    match get_unit_type g u with
    | Some Lesson => match pure_lesson_trials w u with Val v => v | _ => None end
    | Some Course => match pure_course_trials w (S n) u with Val v => v | _ => None end
    | _ => None
    end.
  Lemma superseded_val l : ∃ b, pure_superseded w (pure_unit w (S n)) (S n) l = Val b ∧ (b = true ↔ overtaken w shown l).
  Proof using Hlib Hg Hord Hx Hn.
    destruct (superseded_spec (pure_unit w (S n)) shown (λ v, unit_shown (S n) v ltac:(lia)) shown_exercise (S n) l) as [E|H]; [|done].
    assert (F : fine (pure_superseded w (pure_unit w (S n)) (S n) l)); [|by rewrite E in F].
    apply (fine_superseded w Hord ltac:(intros e; by rewrite Hx) (pure_unit w (S n)) n).
    - intros u _. pose proof (unit_fine (S n) u ltac:(lia)). unfold fine, okv. by destruct (pure_unit w (S n) u).
    - lia.
    - intros v _. apply Hn.
  Qed.
  Lemma course_trials_val c : get_unit_type g c = Some Course →
    ∃ v, pure_course_trials w (S n) c = Val v ∧ mean_over (λ l, get_lesson_course g l = Some c ∧ ¬ banned w l ∧ ¬ overtaken w shown l) shown_trials v.
  Proof using Hlib Hg Hord Hx Hn.
    intros Hc. unfold pure_course_trials. destruct (course_list c) as (ls & Els & Hnd & Hin). change (w_graph w) with g. rewrite Els.
    destruct (oeach_choice (λ l, obind (pure_superseded w (pure_unit w (S n)) (S n) l) (λ b, Val (l, negb (w_bans w l) && negb b)))
      (λ l y, y.1 = l ∧ (y.2 = true ↔ ¬ banned w l ∧ ¬ overtaken w shown l)) ls) as [E | (ys & -> & Hys)].
    - intros l _. right. destruct (superseded_val l) as (b & -> & Hb). cbn. eexists. split; [done|]. split; [done|]. cbn.
      rewrite andb_true_iff, !negb_true_iff, bans_not. rewrite <- Hb. destruct b; naive_solver.
    - exfalso. revert E. clear Els Hnd Hin. induction ls as [|l ls IH]; [done|]. cbn [oeach]. destruct (superseded_val l) as (b & -> & _). cbn [obind].
      intros E. apply IH. by destruct (oeach _ ls).
    - cbn [obind]. set (kept := fst <$> List.filter snd ys).
      assert (Hk : NoDup kept ∧ ∀ l, l ∈ kept ↔ l ∈ ls ∧ ¬ banned w l ∧ ¬ overtaken w shown l).
      { unfold kept. clear Els kept Hin. induction Hys as [|l y ls ys [H1 H2] Hys IH]; [split; [constructor|]; intros l; split; [by intros ?%elem_of_nil|by intros [?%elem_of_nil _]]|].
        apply NoDup_cons in Hnd as [Hni Hnd]. destruct (IH Hnd) as [I1 I2]. cbn. destruct (y.2) eqn:Ey.
        - cbn. rewrite H1. split; [constructor; [|done]|].
          + intros H. by apply I2 in H as [? _].
          + intros l'. rewrite !elem_of_cons, I2. naive_solver.
        - split; [done|]. intros l'. rewrite elem_of_cons, I2. naive_solver. }
      destruct Hk as [K1 K2]. rewrite (oeach_vals _ shown_trials).
      + cbn [obind]. rewrite omap_id_map. eexists. split; [done|]. exists kept. split; [done|]. split; [intros l; rewrite K2, Hin; done|].
        by destruct (omap shown_trials kept).
      + intros l Hl. apply K2 in Hl as [Hl _]. apply Hin, course_known in Hl. unfold shown_trials. rewrite Hl.
        destruct (lesson_trials_val l) as (es & v & _ & _ & -> & _). done.
  Qed.
  Lemma trials_shown_add_up : trials_add_up w shown (λ e, ca_trials (x e)) shown_trials.
  Proof using Hlib Hg Hord Hx Hn.
    split.
    - intros l Hl. fold g in Hl. unfold shown_trials. rewrite Hl. destruct (lesson_trials_val l) as (es & v & H1 & H2 & -> & H3). eauto.
    - intros c Hc. fold g in Hc. unfold shown_trials at 2. rewrite Hc. destruct (course_trials_val c Hc) as (v & -> & H). done.
  Qed.
  Lemma avg_trials_val f u : n < f → get_unit_type g u = Some Lesson ∨ get_unit_type g u = Some Course →
    match get_unit_type g u with Some Lesson => pure_lesson_trials w u | _ => pure_course_trials w f u end = Val (shown_trials u).
  Proof using Hlib Hg Hord Hx Hn.
    intros Hf [Hu|Hu]; unfold shown_trials; rewrite Hu.
    - destruct (lesson_trials_val u) as (es & v & _ & _ & -> & _). done.
    - destruct (course_trials_val u Hu) as (v & E & _). destruct (le_course_trials w (S n) f u ltac:(lia)) as [E'|E']; [congruence|].
      rewrite <- E', E. done.
  Qed.
End averages.

(** ** What is shown *)
Lemma answers_shown lib n : opened lib → (∀ u, low (lib_graph lib) n u) → ∀ w x,
  w_graph w = lib_graph lib → (∀ s, w_ord w s ≡ₚ elements s) → (∀ e, w_exercise w e = Val (x e)) →
  ∀ asked fuel u, Forall (λ y, S n ≤ y.1) asked → S n ≤ fuel → get_unit_type (lib_graph lib) u ≠ None →
    fst (unit_score w fuel u (after_asking w asked no_caches)) = Val (shown w n u) ∧
    (get_unit_type (lib_graph lib) u ≠ Some Exercise → fst (avg_trials w fuel u (after_asking w asked no_caches)) = Val (shown_trials w n u)).
Proof.
  intros Hl Hn w x Hg Ho He. assert (Hn' : ∀ u, low (w_graph w) n u) by (by rewrite Hg).
  intros asked fuel u Hall Hf Hu.
  assert (Hex : ∀ l es e, get_lesson_exercises (w_graph w) l = Some es → e ∈ es → known w e).
  { intros l es e Hes Hin. unfold known. rewrite Hg in *. by apply (listed_known lib Hl l es e). }
  assert (Hp : ∀ f v, n < f → pure_unit w f v ≠ NoFuel) by (intros f v Hlt; by apply (unit_fine w Ho x He n Hn')).
  assert (Hc : ∀ asked c, Forall (λ y, S n ≤ y.1) asked → coherent w c → coherent w (after_asking w asked c)).
  { clear asked Hall. induction asked as [|[f v] asked IH]; intros c Hall Hc; [done|]. apply Forall_cons in Hall as [Hy Hall].
    cbn [fst] in Hy. apply (IH (snd (unit_score w f v c))); [done|].
    destruct (agrees_unit w Ho Hex f v c Hc (Hp f v ltac:(lia))) as (c' & -> & Hc'). done. }
  pose proof (Hc asked no_caches Hall (coherent_none w)) as Hcoh. split.
  - destruct (agrees_unit w Ho Hex fuel u _ Hcoh (Hp fuel u ltac:(lia))) as (c1 & -> & _). cbn [fst].
    pose proof (unit_shown w Ho x He n Hn' fuel u ltac:(lia)) as E.
    pose proof (sure_unit w x He fuel u ltac:(by rewrite Hg)) as Hs.
    destruct (pure_unit w fuel u) as [v| | |]; [by injection E as ->|done..].
  - intros Hne. assert (Hu' : get_unit_type (w_graph w) u = Some Lesson ∨ get_unit_type (w_graph w) u = Some Course).
    { rewrite Hg. destruct (get_unit_type (lib_graph lib) u) as [[| |]|]; auto; done. }
    pose proof (avg_trials_val lib Hl w Hg Ho x He n Hn' fuel u ltac:(lia) Hu') as E. unfold avg_trials.
    destruct Hu' as [Hu'|Hu']; rewrite Hu' in *.
    + destruct (agrees_lesson_trials w Ho Hex u _ Hcoh) as (c1 & -> & _); [by rewrite E|]. done.
    + destruct (agrees_course_trials w Ho Hex fuel u _ Hcoh) as (c1 & -> & _); [by rewrite E|]. done.
Qed.

Lemma averages lib : opened lib → acyclic (below (lib_graph lib)) → ∃ n, ∀ w x,
  w_graph w = lib_graph lib → (∀ s, w_ord w s ≡ₚ elements s) → (∀ e, w_exercise w e = Val (x e)) →
  ∃ score trials, scores_add_up w score (λ e, ca_score (x e)) ∧ trials_add_up w score (λ e, ca_trials (x e)) trials ∧
  ∀ asked fuel u, Forall (λ y, n ≤ y.1) asked → n ≤ fuel → get_unit_type (lib_graph lib) u ≠ None →
    fst (unit_score w fuel u (after_asking w asked no_caches)) = Val (score u) ∧
    (get_unit_type (lib_graph lib) u ≠ Some Exercise → fst (avg_trials w fuel u (after_asking w asked no_caches)) = Val (trials u)).
Proof.
  intros Hl Ha. destruct (low_library lib Hl Ha) as [n Hn]. exists (S n). intros w x Hg Ho He.
  assert (Hn' : ∀ u, low (w_graph w) n u) by (by rewrite Hg).
  exists (shown w n), (shown_trials w n). split; [by apply (shown_add_up lib Hl)|]. split; [by apply (trials_shown_add_up lib Hl)|].
  by apply (answers_shown lib n Hl Hn w x).
Qed.
