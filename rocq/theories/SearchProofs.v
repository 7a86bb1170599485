(** Invariants of the search. *)
From stdpp Require Import gmap strings list relations.
From Verif Require Import F32 Graph GraphSpec GraphProofs Library LibraryQueries
  Filters Options Batch BatchSpec KnockProofs SelectProofs Search SearchSpec LibFacts ResolveProofs CandidateProofs.
Local Open Scope list_scope.

  Lemma extend_spec env st cs l score : extend_candidates env st cs l score = st ∨
    ∃ p, extend_candidates env st cs l score = SState (st_stack st) (st_visited st) (st_pending st) (st_found st ++ cs) p ∧
      st_progress st ⊆ p ∧ (size (st_progress st) ≤ max_lessons_in_progress (s_options env) → size p ≤ max_lessons_in_progress (s_options env)) ∧
      (l ∈ p ∨ ∃ s, score = Some s ∧ fle s (range_hi (target_window (s_options env))) = false).
  Proof.
    unfold extend_candidates. destruct cs as [|c cs]; [by left|].
    set (P := match score with Some s => _ | None => _ end).
    destruct (P && negb (bool_decide (l ∈ st_progress st))) eqn:E.
    - apply andb_true_iff in E as [EP E]. apply negb_true_iff, bool_decide_eq_false in E.
      destruct (Nat.leb_spec (max_lessons_in_progress (s_options env)) (size (st_progress st))); [by left|].
      right. eexists. split; [done|]. split; [set_solver|]. split; [|left; set_solver].
      intros _. rewrite size_union by set_solver. rewrite size_singleton. lia.
    - right. eexists. split; [done|]. split; [done|]. split; [done|].
      apply andb_false_iff in E as [E|E].
      + right. unfold P in E. destruct score; [eauto|done].
      + left. apply negb_false_iff, bool_decide_eq_true in E. done.
  Qed.

Section inv.
  Context (env : senv) (K : LibOK (s_lib env)) (o : orders) (Ho : orders_ok o).
  Context (f : option kv_filter) (courses : bool) (allowed : list uid).
  (** What holds of every unit of the stack. *)
  Context (R : uid → Prop).
  Context (HR1 : courses = true → ∀ i c l, R c → first_lesson env c l → all_satisfied env (o_set o i) f l = true → R l).
  Context (HR2 : ∀ i u v, R u → is_course env u ∨ is_lesson env u → depends_on (s_graph env) v u → all_satisfied env (o_set o i) f v = true → R v).
  Context (HR3 : courses = true → ∀ c l, lesson_of env l c → (∀ l, lesson_of env l c → R l) → R c).

  Definition offered (c : candidate) : Prop :=
    in_place env c ∧ scored_by env c ∧ clean env (exercise_id c) ∧ R (lesson_id c) ∧ lets_through env f (lesson_id c) ∧
    s_superseded env (lesson_id c) = false ∧ s_superseded env (course_id c) = false ∧
    (courses = false → course_id c ∈ allowed).

  Record SInv (st : sstate) : Prop := {
    v_stack : ∀ it, it ∈ st_stack st → R it.1;
    v_visited : ∀ l, l ∈ st_visited st → is_lesson env l → R l;
    v_pending : courses = true → ∀ c, pending_of env (st_pending st) c = size (course_lessons env c ∖ st_visited st);
    v_found : ∀ c, c ∈ st_found st → offered c ∧ lesson_id c ∈ st_visited st;
    v_nodup : NoDup (exercise_id <$> st_found st);
    v_progress : size (st_progress st) ≤ max_lessons_in_progress (s_options env);
    v_limit : ∀ c, c ∈ st_found st → lesson_id c ∈ st_progress st ∨ beyond_target env (lesson_id c) }.

  Lemma push_R i (it : sitem) us (stack : list sitem) : (∀ u, u ∈ us → R u) → (∀ x, x ∈ stack → R x.1) →
    ∀ x, x ∈ push_units o i it us stack → R x.1.
  Proof using Ho.
    intros Hu Hs x. unfold push_units. rewrite elem_of_app. intros [Hx|Hx]; [|by apply Hs].
    apply elem_of_list_fmap in Hx as (u & -> & Hx). apply Hu. by rewrite (o_units_ok o Ho) in Hx.
  Qed.
  Lemma starting_R i c : courses = true → R c → ∀ l, l ∈ valid_starting_lessons env (o_set o i) f c → R l.
  Proof using K HR1.
    intros Hcs Hc l. unfold valid_starting_lessons. rewrite List_filter_filter, elem_of_list_filter, elem_of_elements, starting_elem by done.
    intros [H1 H2]. by eapply HR1.
  Qed.
  Lemma dependents_R i u : R u → is_course env u ∨ is_lesson env u → ∀ v, v ∈ valid_dependents env (o_set o i) f u → R v.
  Proof using K HR2.
    intros Hc Hty l. unfold valid_dependents. rewrite List_filter_filter, elem_of_list_filter, elem_of_elements, dependent_elem by done.
    intros [H1 H2]. by eapply HR2.
  Qed.

  Lemma course_not_lesson c c' : is_course env c' → c' ∉ course_lessons env c.
  Proof using K.
    intros H. rewrite course_lesson_elem by done. intros Hl. apply (lesson_of_types env K) in Hl as [Hl _].
    unfold is_course, is_lesson in *. congruence.
  Qed.

  Lemma pending_insert p c n c' : pending_of env (<[c := n]> p) c' = if decide (c = c') then n else pending_of env p c'.
  Proof using.
    unfold pending_of. case_decide as Hd; [subst; by rewrite lookup_insert|by rewrite lookup_insert_ne].
  Qed.

  Lemma course_step_inv i it st st' : SInv st → courses = true → is_course env it.1 → R it.1 →
    course_step env o f i it st = Next st' → SInv st'.
  Proof using K Ho HR1 HR2.
    intros [I1 I2 I3 I4 I5 I6 I7] Hcs Hc Hr. unfold course_step. cbv zeta.
    assert (HP : ∀ c, pending_of env (<[it.1 := pending_of env (st_pending st) it.1]> (st_pending st)) c = pending_of env (st_pending st) c).
    { intros c. rewrite pending_insert. case_decide; [by subst|done]. }
    assert (HS : ∀ x, x ∈ push_units o (2 * i) it (valid_starting_lessons env (o_set o i) f it.1) (st_stack st) → R x.1).
    { apply push_R; [by apply starting_R|done]. }
    destruct (skip_course _ _ _ _); intros [= <-]; constructor; simpl; try done.
    - apply push_R; [apply dependents_R; auto|done].
    - intros l Hl Hll. apply elem_of_union in Hl as [Hl|Hl]; [|by apply I2].
      apply elem_of_singleton in Hl as ->. unfold is_course, is_lesson in *. congruence.
    - intros _ c. rewrite HP, I3 by done. f_equal. pose proof (course_not_lesson c _ Hc) as Hn. clear -Hn. set_solver.
    - intros c Hcc. destruct (I4 c Hcc) as [? ?]. split; [done|]. clear -H0. set_solver.
    - intros _ c. by rewrite HP, I3.
  Qed.

  Lemma skip_lesson_false l : is_lesson env l → skip_lesson env f l = false →
    l ∉ s_banned env ∧ lets_through env f l ∧ s_superseded env l = false ∧ s_superseded env (lesson_course env l) = false.
  Proof using K.
    intros Hl. unfold skip_lesson. rewrite !orb_false_iff, negb_false_iff. intros [[[H1 H2] H3] H4].
    apply banned_false in H1. rewrite passes_defined in H2 by auto. by rewrite passes_iff in H2.
  Qed.

  (** Extending with the candidates of a lesson that was just marked as visited. *)
  Lemma extend_inv st cs l score : SInv st → R l → l ∈ st_visited st → (∀ c, c ∈ st_found st → lesson_id c ≠ l) →
    NoDup (exercise_id <$> cs) → (∀ c, c ∈ cs → offered c ∧ lesson_id c = l) →
    (∀ s, score = Some s → cs ≠ [] → lesson_score env l s) → (score = None → cs = []) →
    SInv (extend_candidates env st cs l score).
  Proof using.
    intros I Hr Hv Hnew Hnd Hcs Hs Hnone.
    destruct (extend_spec env st cs l score) as [->|(p & -> & Hp & Hsz & Hl)]; [done|].
    destruct I as [I1 I2 I3 I4 I5 I6 I7]. constructor; simpl; try done.
    - intros c. rewrite elem_of_app. intros [Hc|Hc]; [by apply I4|]. destruct (Hcs c Hc) as [? ->]. done.
    - rewrite fmap_app. apply NoDup_app. split_and!; try done. intros e He He'.
      apply elem_of_list_fmap in He as (c & -> & Hc), He' as (c' & Heq & Hc').
      destruct (I4 c Hc) as [((Hi & _) & _) _]. destruct (Hcs c' Hc') as [((Hi' & _) & _) Hl'].
      rewrite Heq in Hi. unfold exercise_of in Hi, Hi'. rewrite Hi in Hi'. injection Hi' as Hi'. apply (Hnew c Hc). congruence.
    - by apply Hsz.
    - intros c. rewrite elem_of_app. intros [Hc|Hc].
      + destruct (I7 c Hc) as [H|H]; [left; by apply Hp|by right].
      + destruct (Hcs c Hc) as [_ ->]. destruct Hl as [Hl|(s & -> & Hle)]; [by left|]. right. exists s. split; [|done].
        apply Hs; [done|]. intros ->. by apply elem_of_nil in Hc.
  Qed.

  Lemma set_dead_end_ids (cs : list candidate) : exercise_id <$> (set_dead_end <$> cs) = exercise_id <$> cs.
  Proof using. rewrite <-list_fmap_compose. done. Qed.

  Lemma lesson_visit_inv i it st r : SInv st → is_lesson env it.1 → R it.1 → it.1 ∈ st_visited st →
    (∀ c, c ∈ st_found st → lesson_id c ≠ it.1) → (courses = false → lesson_course env it.1 ∈ allowed) →
    lesson_visit env o f i it st = r → match r with Next st' | Stop st' => SInv st' | Fail => True end.
  Proof using K Ho HR2.
    intros I Hl Hr Hv Hnew Ha. unfold lesson_visit. cbv zeta.
    assert (Hpush : ∀ st, SInv st → SInv (SState (push_units o (2 * i) it (valid_dependents env (o_set o i) f it.1) (st_stack st))
      (st_visited st) (st_pending st) (st_found st) (st_progress st))).
    { intros s [I1 I2 I3 I4 I5 I6 I7]. constructor; simpl; try done. apply push_R; [apply dependents_R; auto|done]. }
    destruct (skip_lesson env f it.1) eqn:Esk; [intros <-; by apply Hpush|].
    destruct (skip_lesson_false _ Hl Esk) as (S1 & S2 & S3 & S4).
    destruct (lesson_candidates env o i it) as [[cs avg]|] eqn:Elc; [|by intros <-].
    destruct (lesson_candidates_spec env K o i it cs avg Ho Elc) as (C1 & C2 & C3).
    assert (Hoff : ∀ c, c ∈ cs → offered c ∧ lesson_id c = it.1).
    { intros c Hc. destruct (C2 c Hc) as (P1 & P2 & P3 & P4 & P5). split; [|done].
      pose proof (lesson_course_of env _ _ (proj2 P1)) as Hcc. rewrite P3 in Hcc.
      unfold offered. rewrite P3, <-Hcc. done. }
    set (score := match cs with [] => None | _ => Some avg end).
    assert (Hs1 : ∀ s, score = Some s → cs ≠ [] → lesson_score env it.1 s).
    { intros s Hs Hne. unfold score in Hs. destruct cs; [done|]. injection Hs as <-. by apply C3. }
    assert (Hs2 : score = None → cs = []) by (unfold score; by destruct cs).
    destruct (passes_threshold env score (s_trials env it.1)).
    { intros <-. apply Hpush. by apply extend_inv. }
    assert (I' : SInv (extend_candidates env st (set_dead_end <$> cs) it.1 score)).
    { apply extend_inv; try done.
      - by rewrite set_dead_end_ids.
      - intros c Hc. apply elem_of_list_fmap in Hc as (c' & -> & Hc'). by apply Hoff in Hc'.
      - intros s Hs Hne. apply Hs1; [done|]. by destruct cs.
      - intros Hn. by rewrite Hs2. }
    destruct (Nat.leb _ _); intros <-; [done|]. destruct I' as [I1 I2 I3 I4 I5 I6 I7].
    constructor; simpl; try done. intros x Hx. apply I1. by rewrite (o_stack_ok o Ho) in Hx.
  Qed.

  Lemma lesson_step_inv i it st r : SInv st → is_lesson env it.1 → R it.1 → it.1 ∉ st_visited st →
    lesson_step env o f courses allowed i it st = r → match r with Next st' | Stop st' => SInv st' | Fail => True end.
  Proof using K Ho HR1 HR2 HR3.
    intros I Hl Hr Hv. unfold lesson_step. cbv zeta. simpl. destruct I as [I1 I2 I3 I4 I5 I6 I7].
    assert (V2 : ∀ l, l ∈ {[it.1]} ∪ st_visited st → is_lesson env l → R l).
    { intros l Hll Hl'. apply elem_of_union in Hll as [Hll|Hll]; [|by apply I2]. apply elem_of_singleton in Hll as ->. done. }
    assert (V4 : ∀ c, c ∈ st_found st → offered c ∧ lesson_id c ∈ {[it.1]} ∪ st_visited st).
    { intros c Hc. destruct (I4 c Hc) as [? ?]. split; [done|]. clear -H0. set_solver. }
    assert (Hnew : ∀ c, c ∈ st_found st → lesson_id c ≠ it.1).
    { intros c Hc Heq. apply Hv. rewrite <-Heq. by apply I4. }
    destruct courses eqn:Ecs.
    - pose proof (lesson_has_course env K _ Hl) as Hlc. unfold lesson_of in Hlc. rewrite Hlc.
      set (c := lesson_course env it.1) in *. specialize (I3 eq_refl).
      set (n := Nat.pred (pending_of env (st_pending st) c)).
      assert (Hn : n = size (course_lessons env c ∖ ({[it.1]} ∪ st_visited st))).
      { unfold n. rewrite I3.
        assert (course_lessons env c ∖ st_visited st = {[it.1]} ∪ course_lessons env c ∖ ({[it.1]} ∪ st_visited st)) as ->.
        { apply (course_lesson_elem env K) in Hlc. apply set_eq. intros x. destruct (decide (x = it.1)) as [->|Hne].
          - clear -Hlc Hv. set_solver.
          - clear -Hne. set_solver. }
        rewrite size_union by set_solver. rewrite size_singleton. lia. }
      apply lesson_visit_inv; simpl; [|done|done|set_solver|done|congruence].
      constructor; simpl; try done.
      + intros x Hx. destruct (Nat.eqb_spec n 0) as [Hn0|Hn0]; [|by apply I1].
        apply elem_of_cons in Hx as [->|Hx]; [|by apply I1]. simpl. eapply (HR3 eq_refl c it.1); [done|].
        intros l Hll. apply V2; [|by apply (lesson_of_types env K l c)].
        rewrite Hn in Hn0. apply size_empty_inv in Hn0. apply (course_lesson_elem env K) in Hll.
        destruct (decide (l ∈ {[it.1]} ∪ st_visited st)); [done|]. exfalso. clear -Hn0 Hll n0. set_solver.
      + intros _ c'. rewrite pending_insert. case_decide as Hd; [by subst|]. rewrite I3. f_equal.
        assert (Hno : it.1 ∉ course_lessons env c').
        { rewrite (course_lesson_elem env K). unfold lesson_of. rewrite Hlc. congruence. }
        clear -Hno. set_solver.
    - destruct (existsb _ allowed) eqn:Ea.
      + apply lesson_visit_inv; simpl; [|done|done|set_solver|done|].
        * constructor; simpl; try done. congruence.
        * intros _. apply existsb_exists in Ea as (c & Hc & He%String.eqb_eq). rewrite He. by apply elem_of_list_In.
      + intros <-. constructor; simpl; try done. congruence.
  Qed.

  Lemma search_step_inv i it st r : SInv st → R it.1 → search_step env o f courses allowed i it st = r →
    match r with Next st' | Stop st' => SInv st' | Fail => True end.
  Proof using K Ho HR1 HR2 HR3.
    intros I Hr. unfold search_step. destruct (bool_decide_reflect (it.1 ∈ st_visited st)) as [Hv|Hv]; [by intros <-|].
    destruct (get_unit_type (s_graph env) it.1) as [[]|] eqn:Et; try by intros <-.
    - intros H. by eapply lesson_step_inv.
    - intros H. destruct r as [st'| |]; [|by destruct courses; [unfold course_step in H; destruct (skip_course _ _ _ _)|]|done].
      destruct (Bool.bool_dec courses true) as [Ecs|Ecs%not_true_is_false].
      + rewrite Ecs in H. exact (course_step_inv i it st st' I Ecs Et Hr H).
      + rewrite Ecs in H. by injection H as <-.
  Qed.

  Lemma search_loop_inv fuel : ∀ i st cs, SInv st → search_loop env o f courses allowed fuel i st = Found cs →
    ∃ st', SInv st' ∧ cs = st_found st'.
  Proof using K Ho HR1 HR2 HR3.
    induction fuel as [|fuel IH]; intros i st cs I; cbn [search_loop]; [done|].
    destruct (st_stack st) as [|it stack] eqn:Es; [intros [= <-]; eauto|].
    assert (I' : SInv (SState stack (st_visited st) (st_pending st) (st_found st) (st_progress st))).
    { destruct I as [I1 I2 I3 I4 I5 I6 I7]. rewrite Es in I1. constructor; simpl; try done. intros x Hx. apply I1. by right. }
    assert (Hr : R it.1). { apply I. rewrite Es. left. }
    pose proof (search_step_inv i it _ _ I' Hr eq_refl) as Hst.
    destruct (search_step _ _ _ _ _ _ _ _) as [st'|st'|]; [by apply IH|intros [= <-]; eauto|done].
  Qed.

  (** What a search returns. *)
  Lemma search_found fuel stack V cs : (∀ it, it ∈ stack → R it.1) → (∀ l, l ∈ V → is_lesson env l → R l) →
    (courses = true → V = ∅) → search env o f courses allowed fuel stack V = Found cs →
    (∀ c, c ∈ cs → offered c) ∧ NoDup (exercise_id <$> cs) ∧
    ∃ P : gset uid, size P ≤ max_lessons_in_progress (s_options env) ∧
      ∀ c, c ∈ cs → lesson_id c ∈ P ∨ beyond_target env (lesson_id c).
  Proof using K Ho HR1 HR2 HR3.
    intros Hst HV HVe H. apply search_loop_inv in H as (st & I & ->).
    - split; [intros c Hc; by apply I|]. split; [apply I|]. exists (st_progress st). split; [apply I|apply I].
    - constructor; simpl; try done.
      + intros Hcs c. rewrite (HVe Hcs). unfold pending_of. rewrite lookup_empty. simpl. f_equal. set_solver.
      + by intros c ?%elem_of_nil.
      + constructor.
      + apply Nat.le_0_l.
      + by intros c ?%elem_of_nil.
  Qed.
End inv.
