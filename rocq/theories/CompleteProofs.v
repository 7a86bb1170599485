(** A search of the whole graph misses nothing when everything was mastered. *)
From stdpp Require Import gmap strings list relations.
From Verif Require Import F32 Graph GraphSpec GraphProofs Library LibraryQueries
  Filters Options Batch BatchSpec KnockProofs Search SearchSpec LibFacts ResolveProofs CandidateProofs ShareProofs
  SearchProofs StartProofs TermProofs.
Local Open Scope list_scope.

(** Waiting ends when no unit waits for itself. *)
Lemma waits_sn env : LibOK (s_lib env) → (∀ u, ¬ tc (waits env) u u) → ∀ u, sn (waits env) u.
Proof.
  intros K Hw u. apply tc_finite_sn; [intros x; apply Hw|].
  set (T := dom (type_map (s_graph env))).
  exists (elements (T ∪ ⋃ (all_dependencies env <$> elements T))). intros v Hv.
  assert (∃ x, waits env x v) as (x & Hx).
  { clear -Hv. induction Hv as [a b H|a b c H Hbc IH]; [eauto|done]. }
  apply elem_of_elements, elem_of_union.
  assert (Hdep : ∀ a b, depends_on (s_graph env) a b → b ∈ ⋃ (all_dependencies env <$> elements T)).
  { intros a b H. apply elem_of_union_list. exists (all_dependencies env a). split; [|by apply dependency_elem].
    apply elem_of_list_fmap_1, elem_of_elements, elem_of_dom.
    destruct (k_dep_type _ K a b H) as [Ht|Ht]; unfold s_graph; unfold get_unit_type in Ht; rewrite Ht; eauto. }
  assert (Htyp : ∀ a t, get_unit_type (s_graph env) a = Some t → a ∈ T).
  { intros a t H. apply elem_of_dom. by exists t. }
  destruct Hx as [a b H|a c l _ H|l c H]; [right; by eapply Hdep|left|left].
  - eapply Htyp. by apply (lesson_of_types env K l c).
  - eapply Htyp. by apply (lesson_of_types env K l c).
Qed.

Section complete.
  Context (env : senv) (K : LibOK (s_lib env)) (o : orders) (Ho : orders_ok o) (M : mastered env) (A : answers_exercises env).

  Lemma mastered_all i u : all_satisfied env (o_set o i) None u = true.
  Proof using K Ho M.
    apply all_satisfied_iff; [done|apply (o_set_ok o Ho)|]. intros d t _ _. apply effective_iff. do 3 right. apply M.
  Qed.
  Lemma starting_all i c l : first_lesson env c l → l ∈ valid_starting_lessons env (o_set o i) None c.
  Proof using K Ho M.
    intros H. unfold valid_starting_lessons. rewrite List_filter_filter, elem_of_list_filter, elem_of_elements, starting_elem by done.
    split; [apply mastered_all|done].
  Qed.
  Lemma dependents_all i u v : depends_on (s_graph env) v u → v ∈ valid_dependents env (o_set o i) None u.
  Proof using K Ho M.
    intros H. unfold valid_dependents. rewrite List_filter_filter, elem_of_list_filter, elem_of_elements, dependent_elem by done.
    split; [apply mastered_all|done].
  Qed.
  Lemma push_old i (it : sitem) us (stack : list sitem) u : u ∈ stack.*1 → u ∈ (push_units o i it us stack).*1.
  Proof using. unfold push_units. rewrite fmap_app, elem_of_app. auto. Qed.
  Lemma push_new i (it : sitem) (us : list uid) (stack : list sitem) u : u ∈ us → u ∈ (push_units o i it us stack).*1.
  Proof using Ho.
    intros H. unfold push_units. rewrite fmap_app, elem_of_app, <-list_fmap_compose. left. simpl.
    apply elem_of_list_fmap. exists u. split; [done|]. by rewrite (o_units_ok o Ho).
  Qed.

  (** Courses whose first lessons were visited or wait on the stack, and units that need not be
      found any more. *)
  Definition started (S : list uid) (V : gset uid) (c : uid) : Prop :=
    (∀ l, first_lesson env c l → l ∈ V ∨ l ∈ S) ∧ ((∀ l, ¬ lesson_of env l c) → c ∈ V ∨ c ∈ S).
  Definition handled (S : list uid) (V : gset uid) (u : uid) : Prop :=
    u ∈ V ∨ u ∈ S ∨ (is_course env u ∧ started S V u).

  Record CInv (st : sstate) : Prop := {
    w_lesson : ∀ l v, l ∈ st_visited st → is_lesson env l → depends_on (s_graph env) v l → handled (st_stack st).*1 (st_visited st) v;
    w_course : ∀ c v, c ∈ st_visited st → is_course env c → depends_on (s_graph env) v c → handled (st_stack st).*1 (st_visited st) v;
    w_started : ∀ c, c ∈ st_visited st → is_course env c → started (st_stack st).*1 (st_visited st) c;
    w_done : ∀ c l, lesson_of env l c → (∀ l, lesson_of env l c → l ∈ st_visited st) → c ∈ st_visited st ∨ c ∈ (st_stack st).*1;
    w_init : ∀ u, is_start env u → is_course env u ∨ is_lesson env u → handled (st_stack st).*1 (st_visited st) u;
    w_pending : ∀ c, pending_of env (st_pending st) c = size (course_lessons env c ∖ st_visited st);
    w_found : ∀ l e, l ∈ st_visited st → is_lesson env l → exercise_of env e l → clean env e →
      s_superseded env l = false → s_superseded env (lesson_course env l) = false → e ∈ exercise_id <$> st_found st }.

  Lemma started_mono (S S' : list uid) (V V' : gset uid) c : (∀ u, u ∈ V → u ∈ V') → (∀ u, u ∈ S → u ∈ V' ∨ u ∈ S') →
    started S V c → started S' V' c.
  Proof using. intros H1 H2 [H3 H4]. split; [intros l Hl; destruct (H3 l Hl)|intros Hl; destruct (H4 Hl)]; auto. Qed.
  (** What changes in a step: the item [u] leaves the stack, other items stay, the visited set
      grows. [u] itself is visited, or a course that is started. *)
  Lemma handled_mono (S S' : list uid) (V V' : gset uid) v : (∀ u, u ∈ V → u ∈ V') → (∀ u, u ∈ S → u ∈ V' ∨ u ∈ S') →
    handled S V v → handled S' V' v.
  Proof using.
    intros H1 H2 [H|[H|[H H']]]; [left; auto|destruct (H2 v H); [by left|by right; left]|].
    right. right. split; [done|]. by eapply started_mono.
  Qed.

  (** Popping a course that is not marked as visited. *)
  Lemma started_pop (S S' : list uid) (V : gset uid) u c : is_course env u → started S' V u → (∀ x, x ∈ S → x ∈ S') →
    started (u :: S) V c → started S' V c.
  Proof using K.
    intros Hu Hs HS [H3 H4]. split.
    - intros l Hl. destruct (H3 l Hl) as [?|Hin]; [by left|]. apply elem_of_cons in Hin as [->|Hin]; [|right; auto].
      destruct Hl as [Hl _]. apply (lesson_of_types env K) in Hl as [Hl _]. unfold is_course, is_lesson in *. congruence.
    - intros Hl. destruct (H4 Hl) as [?|Hin]; [by left|]. apply elem_of_cons in Hin as [->|Hin]; [|right; auto]. by apply (proj2 Hs).
  Qed.
  Lemma handled_pop (S S' : list uid) (V : gset uid) u v : is_course env u → started S' V u → (∀ x, x ∈ S → x ∈ S') →
    handled (u :: S) V v → handled S' V v.
  Proof using K.
    intros Hu Hs HS [H|[H|[H H']]]; [by left| |].
    - apply elem_of_cons in H as [->|H]; [|right; left; auto]. right. right. done.
    - right. right. split; [done|]. by apply (started_pop S S' V u v).
  Qed.

  Lemma not_banned_average l : l ∉ s_banned env → is_lesson env l → s_superseded env l = false → s_superseded env (lesson_course env l) = false →
    skip_lesson env None l = false.
  Proof using.
    intros H1 H2 H3 H4. unfold skip_lesson. rewrite H3, H4. unfold banned. rewrite bool_decide_eq_false_2 by done. done.
  Qed.

  Lemma lesson_candidates_defined i l d : is_lesson env l → ∃ cs avg, lesson_candidates env o i (l, d) = Some (cs, avg) ∧
    (∀ e, exercise_of env e l → clean env e → e ∈ exercise_id <$> cs) ∧
    (cs ≠ [] → lesson_score env l avg).
  Proof using K Ho M A.
    intros Hl. assert (∃ r, lesson_candidates env o i (l, d) = Some r) as [[cs avg] Hr].
    { unfold lesson_candidates. cbn [fst snd]. destruct (valid_exercises env (o_set o i) l) as [|e es] eqn:E; [eauto|].
      assert (is_Some (mapM (lesson_candidate env l (lesson_course env l) d) (e :: es))) as [r ->]; [|cbn [mbind option_bind]; eauto].
      apply mapM_is_Some. rewrite <-E. apply Forall_forall. intros x Hx.
      apply (valid_open env K _ l (o_set_ok o Ho i)) in Hx as [Hx _]. destruct (A x l Hx) as ([s Hs] & [u Hu] & [v Hv]).
      change (is_Some (lesson_candidate env l (lesson_course env l) d x)). unfold lesson_candidate. rewrite Hs. cbn [mbind option_bind]. rewrite Hu. cbn [mbind option_bind]. rewrite Hv. eauto. }
    exists cs, avg. split; [done|].
    pose proof (lesson_candidates_spec env K o i (l, d) cs avg Ho Hr) as (_ & _ & Hsc). split; [|exact Hsc].
    intros e He Hcl. pose proof (valid_open env K _ l (o_set_ok o Ho i)) as Hop.
    destruct (lesson_candidates_full env _ _ _ _ _ Hr) as (full & Hf & _ & Hn).
    destruct (full_fields env K _ _ _ (o_set_ok o Ho i) Hf) as (F1 & _ & F3). simpl in F1, F3.
    assert (Hfull : full ≠ []).
    { intros ->. assert (e ∈ valid_exercises env (o_set o i) l) as Hin by by apply Hop. rewrite <-F1 in Hin. by apply elem_of_nil in Hin. }
    destruct (Hn Hfull) as [Havg _]. destruct (m_score _ M l avg) as (H4 & _).
    { rewrite Havg. by apply F3. }
    assert (exercise_id <$> cs ≡ₚ valid_exercises env (o_set o i) l) as ->.
    { eapply lesson_candidates_all; [done|done|exact Hr|exact Hop|by left]. }
    by apply Hop.
  Qed.

  Lemma lesson_visit_mastered i it st : is_lesson env it.1 →
    ∃ found, lesson_visit env o None i it st = Next (SState (push_units o (2 * i) it (valid_dependents env (o_set o i) None it.1) (st_stack st))
        (st_visited st) (st_pending st) (st_found st ++ found) (st_progress st)) ∧
      ∀ e, exercise_of env e it.1 → clean env e → s_superseded env it.1 = false → s_superseded env (lesson_course env it.1) = false →
        e ∈ exercise_id <$> found.
  Proof using K Ho M A.
    intros Hl. destruct it as [l d]. simpl in *. unfold lesson_visit. cbv zeta. simpl.
    destruct (skip_lesson env None l) eqn:Esk.
    { exists []. rewrite app_nil_r. split; [done|]. intros e He Hcl H1 H2.
      destruct Hcl as [_ Hcl]. destruct (Hcl l He) as [Hb _]. by rewrite not_banned_average in Esk. }
    destruct (lesson_candidates_defined i l d Hl) as (cs & avg & -> & Hin & Hsc).
    assert (passes_threshold env (match cs with [] => None | _ => Some avg end) (s_trials env l) = true) as ->.
    { unfold passes_threshold. destruct cs as [|x cs]; [done|]. destruct (s_trials env l) as [t|] eqn:Et; [|done].
      destruct (m_score _ M l avg (Hsc ltac:(done))) as (_ & -> & _). by rewrite (m_trials _ M l t Et). }
    exists cs. split; [|intros; by apply Hin]. f_equal. unfold extend_candidates. destruct cs as [|x cs]; [by rewrite app_nil_r|].
    destruct (m_score _ M l avg (Hsc ltac:(done))) as (_ & _ & ->). done.
  Qed.

  Lemma step_complete i it st stack : st_stack st = it :: stack → CInv st →
    ∃ st', search_step env o None true [] i it (SState stack (st_visited st) (st_pending st) (st_found st) (st_progress st)) = Next st' ∧ CInv st'.
  Proof using K Ho M A.
    intros Es [W1 W2 W3 W4 W5 W6 W7]. destruct st as [stk V pend found prog]. simpl in *. subst stk.
    rewrite fmap_cons in *. set (u := it.1) in *. set (S := stack.*1) in *.
    unfold search_step. simpl. fold u.
    (* the popped item is already visited, or is no course or lesson *)
    assert (Hdrop : u ∈ V ∨ (¬ is_course env u ∧ ¬ is_lesson env u) → CInv (SState stack V pend found prog)).
    { intros Hu.
      assert (Hst : ∀ c, started (u :: S) V c → is_course env c → started S V c).
      { intros c [H3 H4] Hc. split.
        - intros l Hl. destruct (H3 l Hl) as [?|Hin]; [by left|]. apply elem_of_cons in Hin as [->|?]; [|by right].
          destruct Hu as [?|[_ Hn]]; [by left|]. destruct Hn. by apply (lesson_of_types env K u c), Hl.
        - intros Hl. destruct (H4 Hl) as [?|Hin]; [by left|]. apply elem_of_cons in Hin as [->|?]; [|by right].
          destruct Hu as [?|[Hn _]]; [by left|]. done. }
      assert (Hh : ∀ v, handled (u :: S) V v → is_course env v ∨ is_lesson env v → handled S V v).
      { intros v [H|[H|[H H']]] Hv; [by left| |right; right; auto].
        apply elem_of_cons in H as [->|H]; [|by right; left]. destruct Hu as [?|[? ?]]; [by left|]. by destruct Hv. }
      constructor; simpl; fold S; try done.
      - intros l v Hl Hll Hd. apply Hh; [by eapply W1|]. by apply (k_dep_type _ K v l).
      - intros c v Hl Hll Hd. apply Hh; [by eapply W2|]. by apply (k_dep_type _ K v c).
      - intros c Hc Hcc. apply Hst; [by apply W3|done].
      - intros c l Hl Hall. destruct (W4 c l Hl Hall) as [?|Hin]; [by left|]. apply elem_of_cons in Hin as [->|?]; [|by right].
        destruct Hu as [?|[Hn _]]; [by left|]. destruct Hn. by apply (lesson_of_types env K l u).
      - intros v Hv Hty. by apply Hh; [apply W5|]. }
    destruct (bool_decide_reflect (u ∈ V)) as [Hv|Hv]; [eauto|].
    destruct (get_unit_type (s_graph env) u) as [[]|] eqn:Et.
    - eexists. split; [done|]. apply Hdrop. right. unfold is_course, is_lesson. rewrite Et. done.
    - (* a lesson *)
      unfold lesson_step. fold u. simpl. pose proof (lesson_has_course env K u Et) as Hlc. unfold lesson_of in Hlc. rewrite Hlc.
      set (c := lesson_course env u) in *. set (n := Nat.pred (pending_of env pend c)).
      assert (Hn : n = size (course_lessons env c ∖ ({[u]} ∪ V))).
      { unfold n. rewrite W6.
        assert (course_lessons env c ∖ V = {[u]} ∪ course_lessons env c ∖ ({[u]} ∪ V)) as ->.
        { apply (course_lesson_elem env K) in Hlc. apply set_eq. intros x. destruct (decide (x = u)) as [->|Hne].
          - clear -Hlc Hv. set_solver.
          - clear -Hne. set_solver. }
        rewrite size_union by (clear; set_solver). rewrite size_singleton. lia. }
      set (stk := if Nat.eqb n 0 then (c, it.2 + 1) :: stack else stack).
      destruct (lesson_visit_mastered i it (SState stk ({[u]} ∪ V) (<[c:=n]> pend) found prog) Et) as (fs & Heq & Hfs).
      eexists. split; [exact Heq|]. clear Heq. simpl. fold u.
      set (S' := (push_units o (i + (i + 0)) it (valid_dependents env (o_set o i) None u) stk).*1).
      assert (HV : ∀ x, x ∈ V → x ∈ {[u]} ∪ V) by (clear; set_solver).
      assert (HS : ∀ x, x ∈ u :: S → x ∈ {[u]} ∪ V ∨ x ∈ S').
      { intros x Hx. apply elem_of_cons in Hx as [->|Hx]; [left; clear; set_solver|]. right. unfold S'. apply push_old.
        unfold stk. destruct (Nat.eqb n 0); [by right|done]. }
      assert (Hother : ∀ x, is_course env x → x ∈ {[u]} ∪ V → x ∈ V).
      { intros x Hx [Hxu%elem_of_singleton|Hxv]%elem_of_union; [|done]. subst x. unfold is_course in Hx. congruence. }
      constructor; simpl; fold u S'.
      + intros l v [Hl%elem_of_singleton|Hl]%elem_of_union Hll Hd.
        * subst l. right. left. unfold S'. apply push_new. by apply dependents_all.
        * eapply handled_mono; [exact HV|exact HS|]. by eapply W1.
      + intros c' v Hc' Hcc Hd. eapply handled_mono; [exact HV|exact HS|]. by eapply W2; [apply Hother|..].
      + intros c' Hc' Hcc. eapply started_mono; [exact HV|exact HS|]. by apply W3; [apply Hother|..].
      + intros c' l Hl Hall. destruct (decide (c' = c)) as [->|Hne].
        * right. unfold S'. apply push_old. unfold stk.
          assert (n = 0) as ->; [|left]. rewrite Hn. apply size_empty_iff. intros x. split; [|by intros ?%elem_of_empty].
          intros [Hx1 Hx2]%elem_of_difference. apply (course_lesson_elem env K), Hall in Hx1. done.
        * assert (c' ∈ V ∨ c' ∈ u :: S) as [?|?]; [|left; auto|auto]. apply (W4 c' l Hl). intros l' Hl'.
          specialize (Hall l' Hl'). apply elem_of_union in Hall as [Hall%elem_of_singleton|?]; [|done].
          subst l'. unfold lesson_of in Hl'. congruence.
      + intros v Hv1 Hv2. eapply handled_mono; [exact HV|exact HS|]. by apply W5.
      + intros c'. rewrite pending_insert. case_decide as Hd; [by subst|]. rewrite W6. f_equal.
        assert (Hno : u ∉ course_lessons env c').
        { rewrite (course_lesson_elem env K). unfold lesson_of. rewrite Hlc. congruence. }
        clear -Hno. set_solver.
      + intros l e [Hl%elem_of_singleton|Hl]%elem_of_union Hll He Hcl H1 H2; rewrite fmap_app, elem_of_app.
        * subst l. right. by apply Hfs.
        * left. by eapply W7.
    - (* a course *)
      unfold course_step. fold u. simpl. rewrite W6.
      set (n := size (course_lessons env u ∖ V)).
      set (stk := push_units o (i + (i + 0)) it (valid_starting_lessons env (o_set o i) None u) stack).
      assert (HP : ∀ c, pending_of env (<[u := n]> pend) c = size (course_lessons env c ∖ V)).
      { intros c. rewrite pending_insert. case_decide; [by subst|apply W6]. }
      assert (Hnl : ∀ x, is_lesson env x → x ∈ {[u]} ∪ V → x ∈ V).
      { intros x Hx [Hxu%elem_of_singleton|Hxv]%elem_of_union; [|done]. subst x. unfold is_lesson in Hx. congruence. }
      destruct (skip_course env None n u) eqn:Esk.
      + eexists. split; [done|].
        set (stk' := push_units o (Datatypes.S (i + (i + 0))) it (valid_dependents env (o_set o i) None u) stk).
        replace (push_units o (i + (i + 0) + 1) it (valid_dependents env (o_set o i) None u) stk) with stk'.
        2: { unfold stk'. f_equal. lia. }
        assert (HV : ∀ x, x ∈ V → x ∈ {[u]} ∪ V) by (clear; set_solver).
        assert (HS : ∀ x, x ∈ u :: S → x ∈ {[u]} ∪ V ∨ x ∈ stk'.*1).
        { intros x Hx. apply elem_of_cons in Hx as [->|Hx]; [left; clear; set_solver|]. right. by apply push_old, push_old. }
        constructor; simpl.
        * intros l v Hl Hll Hd. eapply handled_mono; [exact HV|exact HS|]. by eapply W1; [apply Hnl|..].
        * intros c v [Hl%elem_of_singleton|Hl]%elem_of_union Hll Hd.
          -- subst c. right. left. apply push_new. by apply dependents_all.
          -- eapply handled_mono; [exact HV|exact HS|]. by eapply W2.
        * intros c [Hl%elem_of_singleton|Hl]%elem_of_union Hll.
          -- subst c. split; [|intros _; left; clear; set_solver]. intros l Hl. right. by apply push_old, push_new, starting_all.
          -- eapply started_mono; [exact HV|exact HS|]. by eapply W3.
        * intros c l Hl Hall. assert (c ∈ V ∨ c ∈ u :: S) as [?|?]; [|left; auto|auto]. apply (W4 c l Hl). intros l' Hl'.
          apply Hnl; [by apply (lesson_of_types env K l' c)|auto].
        * intros v Hv1 Hv2. eapply handled_mono; [exact HV|exact HS|]. by apply W5.
        * intros c. rewrite HP. f_equal. pose proof (course_not_lesson env K c u Et) as Hno. clear -Hno. set_solver.
        * intros l e Hl Hll. apply W7; [by apply Hnl|done].
      + eexists. split; [done|].
        assert (Hn : n ≠ 0).
        { unfold skip_course in Esk. rewrite !orb_false_iff in Esk. destruct Esk as [[_ Esk] _]. by apply Nat.eqb_neq in Esk. }
        assert (Hless : ∃ l, lesson_of env l u ∧ l ∉ V).
        { destruct (decide (elements (course_lessons env u ∖ V) = [])) as [He|He].
          - destruct Hn. unfold n. apply elements_empty_inv in He. rewrite He. apply size_empty.
          - destruct (elements (course_lessons env u ∖ V)) as [|l ls] eqn:El; [done|].
            assert (l ∈ elements (course_lessons env u ∖ V)) as Hin by (rewrite El; left).
            apply elem_of_elements, elem_of_difference in Hin as [H1 H2]. exists l. by rewrite <-(course_lesson_elem env K). }
        destruct Hless as (l0 & Hl0 & Hl0').
        assert (Hs : started stk.*1 V u).
        { split; [|intros Hno; by destruct (Hno l0)]. intros l Hl. right. by apply push_new, starting_all. }
        assert (HS : ∀ x, x ∈ S → x ∈ stk.*1) by (intros x Hx; by apply push_old).
        constructor; simpl.
        * intros l v Hl Hll Hd. eapply handled_pop; [exact Et|exact Hs|exact HS|]. by eapply W1.
        * intros l v Hl Hll Hd. eapply handled_pop; [exact Et|exact Hs|exact HS|]. by eapply W2.
        * intros l Hl Hll. eapply started_pop; [exact Et|exact Hs|exact HS|]. by eapply W3.
        * intros c l Hl Hall. destruct (W4 c l Hl Hall) as [?|Hin]; [by left|]. apply elem_of_cons in Hin as [->|Hin]; [|auto].
          by destruct Hl0'; apply Hall.
        * intros v Hv1 Hv2. eapply handled_pop; [exact Et|exact Hs|exact HS|]. by apply W5.
        * exact HP.
        * exact W7.
    - eexists. split; [done|]. apply Hdrop. right. unfold is_course, is_lesson. rewrite Et. done.
  Qed.

  Lemma loop_complete fuel : ∀ i st r, CInv st → search_loop env o None true [] fuel i st = r → r ≠ NoFuel →
    ∃ st', CInv st' ∧ st_stack st' = [] ∧ r = Found (st_found st').
  Proof using K Ho M A.
    induction fuel as [|fuel IH]; intros i st r I; cbn [search_loop]; [by intros <-|].
    destruct (st_stack st) as [|it stack] eqn:Es; [intros <- _; eauto|].
    destruct (step_complete i it st stack Es I) as (st' & -> & I'). by apply IH.
  Qed.

  (** At the end everything was visited. *)
  Lemma everything_visited st : CInv st → st_stack st = [] → (∀ u, ¬ tc (waits env) u u) →
    (∀ c, ¬ hidden_course env c) → (∀ c e, is_course env c → depends_on (s_graph env) c e → get_unit_type (s_graph env) e ≠ Some Exercise) →
    ∀ l, is_lesson env l → l ∈ st_visited st.
  Proof using K.
    clear M A. intros [W1 W2 W3 W4 W5 _ _] Es Hw Hh He. rewrite Es in *. simpl in *.
    set (V := st_visited st) in *.
    assert (Hfin : ∀ u, handled [] V u → is_course env u → started [] V u).
    { intros u [H|[H|[_ H]]] Hc; [by apply W3|by apply elem_of_nil in H|done]. }
    assert (Q : ∀ u, (is_lesson env u → u ∈ V) ∧ (is_course env u → started [] V u)).
    { intros u. induction (waits_sn env K Hw u) as [u _ IH]. unfold flip in IH.
      split.
      - intros Hl. pose proof (lesson_has_course env K u Hl) as Hc.
        set (c := lesson_course env u) in *. destruct (lesson_of_types env K u c Hc) as [_ Hcc].
        destruct (decide (all_dependencies env u ∩ course_lessons env c = ∅)) as [Hno|Hd].
        + destruct (IH c (waits_course env u c Hc)) as [_ Hs]. destruct (Hs Hcc) as [Hs' _].
          destruct (Hs' u) as [?|?%elem_of_nil]; [|done|done]. split; [done|]. intros d Hd Hdc.
          apply dependency_elem in Hd. apply (course_lesson_elem env K) in Hdc. clear -Hno Hd Hdc. set_solver.
        + apply set_choose_L in Hd as (d & [Hd Hdc]%elem_of_intersection).
          apply dependency_elem in Hd. apply (course_lesson_elem env K) in Hdc.
          destruct (lesson_of_types env K d c Hdc) as [Hdl _].
          destruct (IH d (waits_dependency env u d Hd)) as [Hdv _].
          destruct (W1 d u (Hdv Hdl) Hdl Hd) as [?|[?%elem_of_nil|[? _]]]; [done..|]. unfold is_course, is_lesson in *. congruence.
      - intros Hc.
        destruct (decide (all_dependencies env u = ∅)) as [Hno|Hd].
        { assert (Hnd : ∀ d, ¬ depends_on (s_graph env) u d).
          { intros d Hd. apply dependency_elem in Hd. rewrite Hno in Hd. by apply elem_of_empty in Hd. }
          apply Hfin; [|done]. apply W5; [|by left]. right. split; [done|]. left. split; [done|].
          intros Hf. by apply (Hh u). }
        destruct (decide (set_Exists (λ d, get_unit_type (s_graph env) d ≠ None) (all_dependencies env u))) as [(d & Hd1 & Hd2)|Hmiss].
        + apply dependency_elem in Hd1. apply Hfin; [|done].
          destruct (get_unit_type (s_graph env) d) as [[]|] eqn:Et; [by destruct (He u d Hc Hd1)| | |done].
          * destruct (IH d (waits_dependency env u d Hd1)) as [Hdv _]. by apply (W1 d u (Hdv Et) Et Hd1).
          * assert (Hall : ∀ l, lesson_of env l d → l ∈ V).
            { intros l Hl. destruct (IH l (waits_lessons env u d l Hd1 Hl)) as [Hlv _]. by apply Hlv, (lesson_of_types env K l d). }
            assert (Hdv : d ∈ V).
            { destruct (decide (course_lessons env d = ∅)) as [Hn|Hn].
              - destruct (IH d (waits_dependency env u d Hd1)) as [_ Hs]. destruct (Hs Et) as [_ Hs'].
                destruct Hs' as [?|?%elem_of_nil]; [|done|done]. intros l Hl. apply (course_lesson_elem env K) in Hl. rewrite Hn in Hl.
                by apply elem_of_empty in Hl.
              - apply set_choose_L in Hn as (l & Hl). apply (course_lesson_elem env K) in Hl.
                by destruct (W4 d l Hl Hall) as [?|?%elem_of_nil]. }
            by apply (W2 d u Hdv Et Hd1).
        + apply Hfin; [|done]. apply W5; [|by left]. left. split.
          * apply set_choose_L in Hd as (d & Hd). exists d. by apply dependency_elem.
          * intros d Hd'. apply dependency_elem in Hd'. unfold missing.
            destruct (get_unit_type (s_graph env) d) eqn:Et; [|done]. destruct Hmiss. exists d. split; [done|]. by rewrite Et. }
    intros l Hl. by apply Q.
  Qed.

  Lemma complete_init stack : (∀ u, is_start env u → handled stack.*1 ∅ u) → CInv (SState stack ∅ ∅ [] ∅).
  Proof using K.
    clear M A. intros H. constructor; simpl; try by intros * ?%elem_of_empty.
    - intros c l Hl Hall. apply Hall in Hl. by apply elem_of_empty in Hl.
    - intros u Hu _. by apply H.
    - intros c. unfold pending_of. rewrite lookup_empty. simpl. f_equal. clear. set_solver.
  Qed.
End complete.

Lemma everything_complete env os : LibOK (s_lib env) → (∀ i, orders_ok (os i)) → mastered env → answers_exercises env →
  (∀ u, ¬ tc (waits env) u u) → (∀ c, ¬ hidden_course env c) →
  (∀ c e, is_course env c → depends_on (s_graph env) c e → get_unit_type (s_graph env) e ≠ Some Exercise) →
  ∃ cs fuel, (∀ fuel', fuel ≤ fuel' → from_everything env os fuel' None = Found cs) ∧
    ∀ e l c, exercise_of env e l → lesson_of env l c → clean env e → s_superseded env l = false → s_superseded env c = false →
      e ∈ exercise_id <$> cs.
Proof.
  intros K Ho M A Hw Hh He.
  destruct (from_everything_settles env K os Ho None) as (n & r & Hr & Hset).
  assert (∃ cs, r = Found cs ∧ ∀ e l c, exercise_of env e l → lesson_of env l c → clean env e →
    s_superseded env l = false → s_superseded env c = false → e ∈ exercise_id <$> cs) as (cs & -> & H).
  2: { exists cs, n. done. }
  pose proof (Hset (2 + n) ltac:(lia)) as E. unfold from_everything in E.
  destruct (initial_stack_spec env K (os 0) None n (Ho 0)) as (stack & Hstack & Hin). rewrite Hstack in E.
  apply (loop_complete env K (os 0) (Ho 0) M A) in E as (st & I & Es & ->); [|apply (complete_init env K)|done].
  - exists (st_found st). split; [done|]. intros e l c Hel Hlc Hcl H1 H2.
    assert (Hl : is_lesson env l) by by apply (lesson_of_types env K l c).
    eapply (w_found env); [exact I| |exact Hl|exact Hel|done|done|by rewrite (lesson_course_of env l c Hlc)].
    by eapply everything_visited.
  - intros u Hu. destruct (is_start_starting env K u Hu) as [[Hm Hty]|Hex].
    + destruct Hty as [Hc|[Hl _]].
      * destruct (decide (starting_lessons env u = ∅)) as [Hno|Hs].
        -- right. left. apply elem_of_list_fmap. exists (u, 0). split; [done|]. apply Hin. split; [done|]. exists u. split; [done|].
           right. split; [done|]. intros l Hl. apply (starting_elem env K) in Hl. rewrite Hno in Hl. by apply elem_of_empty in Hl.
        -- right. right. split; [done|]. assert (Hfl : ∀ l, first_lesson env u l → l ∈ stack.*1).
           { intros l Hl. apply elem_of_list_fmap. exists (l, 0). split; [done|]. apply Hin. split; [done|]. exists u. split; [done|].
             left. split; [done|]. apply (mastered_all env K (os 0) (Ho 0) M). }
           split; [intros l Hl; right; auto|]. intros Hno. apply set_choose_L in Hs as (l & Hl).
           apply (starting_elem env K) in Hl as [Hl _]. by destruct (Hno l).
      * right. left. apply elem_of_list_fmap. exists (u, 0). split; [done|]. apply Hin. split; [done|]. exists u. split; [done|].
        right. split; [done|]. intros l [Hll _]. apply (lesson_of_types env K) in Hll as [_ Hc]. unfold is_course, is_lesson in *. congruence.
    + right. left. apply elem_of_list_fmap. exists (u, 0). split; [done|]. apply Hin. split; [done|]. exists u. split; [done|].
      right. split; [done|]. intros l [Hll _]. apply (lesson_of_types env K) in Hll as [_ Hc]. unfold is_course in *. congruence.
Qed.
