(** A search of the whole graph finds something to work on. *)
From stdpp Require Import gmap strings list relations.
From Verif Require Import F32 Graph GraphSpec GraphProofs Library LibraryQueries
  Filters Options Batch BatchSpec KnockProofs Search SearchSpec ProgressSpec LibFacts ResolveProofs CandidateProofs ShareProofs
  SearchProofs StartProofs TermProofs CompleteProofs.
Local Open Scope list_scope.

Section progress.
  Context (env : senv) (K : LibOK (s_lib env)) (o : orders) (Ho : orders_ok o) (A : answers_exercises env) (SY : steady env)
    (N : passing_numbers env) (F : fgt (min_fraction (passing_score (s_options env))) fzero = true)
    (M0 : 0 < max_lessons_in_progress (s_options env)) (U : ∀ c, is_course env c → s_superseded env c = false).

  Notation ok u := (satisfied_effective env u = true).
  (** All dependencies count as satisfied. *)
  Definition ready (u : uid) : Prop := ∀ d, depends_on (s_graph env) u d → ok d.
  Lemma ready_iff ord u : (∀ s, ord s ≡ₚ elements s) → all_satisfied env ord None u = true ↔ ready u.
  Proof using K.
    intros Hord. rewrite (all_satisfied_iff env K ord None Hord). split.
    - intros H d Hd. apply (H d d Hd). by constructor.
    - intros H d t Hd Ht. inversion Ht; subst; simpl in *; try done. by apply H.
  Qed.
  Lemma satisfied_ok u : satisfied env u → ok u.
  Proof using SY.
    intros H. apply effective_iff. destruct H as [H|[H|[(c & Hc & H)|[H|H]]]]; auto.
    - do 3 right. intros s t Hs _. by destruct (sy_missing env SY u s H).
    - right. left. by rewrite (lesson_course_of env u c Hc).
  Qed.
  Lemma ok_satisfied l : is_lesson env l → ok l → satisfied env l.
  Proof using K.
    intros Hl H. apply effective_iff in H as [H|[H|[H|H]]]; unfold satisfied; auto.
    right. right. left. exists (lesson_course env l). split; [by apply lesson_has_course|done].
  Qed.
  Lemma starting_ready i c l : first_lesson env c l → ready l → l ∈ valid_starting_lessons env (o_set o i) None c.
  Proof using K Ho.
    intros H Hr. unfold valid_starting_lessons. rewrite List_filter_filter, elem_of_list_filter, elem_of_elements, starting_elem by done.
    split; [|done]. apply ready_iff; [apply (o_set_ok o Ho)|done].
  Qed.
  Lemma dependents_ready i u v : depends_on (s_graph env) v u → ready v → v ∈ valid_dependents env (o_set o i) None u.
  Proof using K Ho.
    intros H Hr. unfold valid_dependents. rewrite List_filter_filter, elem_of_list_filter, elem_of_elements, dependent_elem by done.
    split; [|done]. apply ready_iff; [apply (o_set_ok o Ho)|done].
  Qed.

  (** Courses whose first lessons were visited or wait on the stack, and units that need not be
      found any more. *)
  Definition begun (S : list uid) (V : gset uid) (c : uid) : Prop :=
    (∀ l, first_lesson env c l → ready l → l ∈ V ∨ l ∈ S) ∧ ((∀ l, ¬ lesson_of env l c) → c ∈ V ∨ c ∈ S).
  Definition cared (S : list uid) (V : gset uid) (u : uid) : Prop :=
    u ∈ V ∨ u ∈ S ∨ (is_course env u ∧ begun S V u).

  (** There is something to work on. *)
  Definition fruitful (cs : list candidate) : Prop :=
    (∃ c, c ∈ cs ∧ not_passed env (lesson_id c)) ∨ enough_in_progress env cs.

  Record PInv (st : sstate) : Prop := {
    p_ok : ∀ l, l ∈ st_visited st → is_lesson env l → ok l;
    p_lesson : ∀ l v, l ∈ st_visited st → is_lesson env l → depends_on (s_graph env) v l → ready v → cared (st_stack st).*1 (st_visited st) v;
    p_course : ∀ c v, c ∈ st_visited st → is_course env c → depends_on (s_graph env) v c → ready v → cared (st_stack st).*1 (st_visited st) v;
    p_begun : ∀ c, c ∈ st_visited st → is_course env c → begun (st_stack st).*1 (st_visited st) c;
    p_done : ∀ c l, lesson_of env l c → (∀ l, lesson_of env l c → l ∈ st_visited st) → c ∈ st_visited st ∨ c ∈ (st_stack st).*1;
    p_init : ∀ u, is_start env u → is_course env u ∨ is_lesson env u → cared (st_stack st).*1 (st_visited st) u;
    p_pending : ∀ c, pending_of env (st_pending st) c = size (course_lessons env c ∖ st_visited st);
    p_found : ∀ l e, l ∈ st_visited st → exercise_of env e l → clean env e → s_superseded env l = false → st_found st ≠ [] }.
  (** Lessons in progress are among those found. *)
  Definition PProg (st : sstate) : Prop :=
    ∀ l, l ∈ st_progress st → ∃ c x, c ∈ st_found st ∧ lesson_id c = l ∧ lesson_score env l x ∧
      fle x (range_hi (target_window (s_options env))) = true.

  Lemma begun_mono (S S' : list uid) (V V' : gset uid) c : (∀ u, u ∈ V → u ∈ V') → (∀ u, u ∈ S → u ∈ V' ∨ u ∈ S') →
    begun S V c → begun S' V' c.
  Proof using. intros H1 H2 [H3 H4]. split; [intros l Hl Hr; destruct (H3 l Hl Hr)|intros Hl; destruct (H4 Hl)]; auto. Qed.
  Lemma cared_mono (S S' : list uid) (V V' : gset uid) v : (∀ u, u ∈ V → u ∈ V') → (∀ u, u ∈ S → u ∈ V' ∨ u ∈ S') →
    cared S V v → cared S' V' v.
  Proof using.
    intros H1 H2 [H|[H|[H H']]]; [left; auto|destruct (H2 v H); [by left|by right; left]|].
    right. right. split; [done|]. by eapply begun_mono.
  Qed.
  Lemma begun_pop (S S' : list uid) (V : gset uid) u c : is_course env u → begun S' V u → (∀ x, x ∈ S → x ∈ S') →
    begun (u :: S) V c → begun S' V c.
  Proof using K.
    intros Hu Hs HS [H3 H4]. split.
    - intros l Hl Hr. destruct (H3 l Hl Hr) as [?|Hin]; [by left|]. apply elem_of_cons in Hin as [->|Hin]; [|right; auto].
      destruct Hl as [Hl _]. apply (lesson_of_types env K) in Hl as [Hl _]. unfold is_course, is_lesson in *. congruence.
    - intros Hl. destruct (H4 Hl) as [?|Hin]; [by left|]. apply elem_of_cons in Hin as [->|Hin]; [|right; auto]. by apply (proj2 Hs).
  Qed.
  Lemma cared_pop (S S' : list uid) (V : gset uid) u v : is_course env u → begun S' V u → (∀ x, x ∈ S → x ∈ S') →
    cared (u :: S) V v → cared S' V v.
  Proof using K.
    intros Hu Hs HS [H|[H|[H H']]]; [by left| |].
    - apply elem_of_cons in H as [->|H]; [|right; left; auto]. right. right. done.
    - right. right. split; [done|]. by apply (begun_pop S S' V u v).
  Qed.

  Lemma candidates_here i l d : is_lesson env l → ∃ cs avg, lesson_candidates env o i (l, d) = Some (cs, avg) ∧
    (∀ c, c ∈ cs → lesson_id c = l) ∧ (∀ e, exercise_of env e l → clean env e → cs ≠ []) ∧
    (cs ≠ [] → lesson_score env l avg).
  Proof using K Ho A N F SY.
    intros Hl. assert (∃ r, lesson_candidates env o i (l, d) = Some r) as [[cs avg] Hr].
    { unfold lesson_candidates. cbn [fst snd]. destruct (valid_exercises env (o_set o i) l) as [|e es] eqn:E; [eauto|].
      assert (is_Some (mapM (lesson_candidate env l (lesson_course env l) d) (e :: es))) as [r ->]; [|cbn [mbind option_bind]; eauto].
      apply mapM_is_Some. rewrite <-E. apply Forall_forall. intros x Hx.
      apply (valid_open env K _ l (o_set_ok o Ho i)) in Hx as [Hx _]. destruct (A x l Hx) as ([s Hs] & [u Hu] & [v Hv]).
      change (is_Some (lesson_candidate env l (lesson_course env l) d x)). unfold lesson_candidate. rewrite Hs. cbn [mbind option_bind]. rewrite Hu. cbn [mbind option_bind]. rewrite Hv. eauto. }
    exists cs, avg. split; [done|].
    pose proof (lesson_candidates_spec env K o i (l, d) cs avg Ho Hr) as (_ & H2 & Hsc).
    split; [|split; [|exact Hsc]].
    - intros c Hc. by destruct (H2 c Hc) as (_ & _ & ? & _).
    - intros e He Hcl. pose proof (valid_open env K _ l (o_set_ok o Ho i)) as Hop.
      assert (He' : e ∈ valid_exercises env (o_set o i) l) by by apply Hop.
      assert (Hne : valid_exercises env (o_set o i) l ≠ []) by (intros E; rewrite E in He'; by apply elem_of_nil in He').
      eapply lesson_candidates_some; try done.
      destruct (lesson_candidates_full env _ _ _ _ _ Hr) as (full & Hf & _ & Hn).
      destruct (full_fields env K _ _ _ (o_set_ok o Ho i) Hf) as (F1 & _ & F3). simpl in F1, F3.
      assert (Hfull : full ≠ []) by (intros ->; by rewrite <-F1 in Hne).
      destruct (Hn Hfull) as [-> _]. eapply (sy_number env SY l), F3, Hfull.
  Qed.

  Lemma passed_ok l cs avg : is_lesson env l → (∀ e, exercise_of env e l → clean env e → cs ≠ []) → (cs ≠ [] → lesson_score env l avg) →
    passes_threshold env (match cs : list candidate with [] => None | _ => Some avg end) (s_trials env l) = true → ok l.
  Proof using SY.
    intros Hl Hne Hsc Hp. apply effective_iff. do 3 right. intros s t Hs Ht. rewrite Ht in Hp. unfold passes_threshold in Hp.
    destruct cs as [|c cs].
    - exfalso. destruct (sy_scored env SY l s Hl Hs) as (x & es & scores & [_ Hes] & Hn & _). destruct es as [|e es]; [done|].
      destruct (proj1 (Hes e)) as [H1 H2]; [left|]. by eapply Hne.
    - apply andb_true_iff in Hp as [H1 H2]. split; [|done]. eapply (sy_lesson env SY); [done|by apply Hsc|done|done].
  Qed.

  (** What adding candidates does. *)
  Lemma extend_spec st cs l score : PProg st → (∀ c, c ∈ cs → lesson_id c = l) → (cs ≠ [] → ∃ x, score = Some x ∧ lesson_score env l x) →
    let st' := extend_candidates env st cs l score in
    st_stack st' = st_stack st ∧ st_visited st' = st_visited st ∧ st_pending st' = st_pending st ∧
    (∃ more, st_found st' = st_found st ++ more) ∧ PProg st' ∧
    (cs ≠ [] → (∀ c, c ∈ cs → c ∈ st_found st') ∨ enough_in_progress env (st_found st')).
  Proof using M0.
    intros HP Hl Hs. unfold extend_candidates. destruct cs as [|c cs].
    { simpl. split_and!; try done. exists []. by rewrite app_nil_r. }
    destruct (Hs ltac:(done)) as (x & -> & Hx). cbv zeta.
    assert (Hmono : ∀ P, PProg (SState (st_stack st) (st_visited st) (st_pending st) (st_found st ++ c :: cs) P) ↔
      ∀ l, l ∈ P → ∃ c' x, c' ∈ st_found st ++ c :: cs ∧ lesson_id c' = l ∧ lesson_score env l x ∧ fle x (range_hi (target_window (s_options env))) = true) by done.
    assert (Hold : ∀ l, l ∈ st_progress st → ∃ c' x, c' ∈ st_found st ++ c :: cs ∧ lesson_id c' = l ∧ lesson_score env l x ∧ fle x (range_hi (target_window (s_options env))) = true).
    { intros l' Hl'. destruct (HP l' Hl') as (c' & x' & H1 & H2). exists c', x'. split; [apply elem_of_app; by left|done]. }
    destruct (fle x (range_hi (target_window (s_options env))) && negb (bool_decide (l ∈ st_progress st))) eqn:E.
    - apply andb_true_iff in E as [E1 _]. destruct (Nat.leb_spec (max_lessons_in_progress (s_options env)) (size (st_progress st))) as [Hm|Hm].
      + split_and!; try done; [exists []; by rewrite app_nil_r|]. intros _. right. exists (st_progress st). done.
      + simpl. split_and!; try done; [eauto| |].
        * apply Hmono. intros l' [->%elem_of_singleton|Hl']%elem_of_union; [|by apply Hold].
          exists c, x. split; [apply elem_of_app; right; left|]. split; [apply Hl; left|done].
        * intros _. left. intros c' Hc'. apply elem_of_app. by right.
    - simpl. split_and!; try done; [eauto|]. intros _. left. intros c' Hc'. apply elem_of_app. by right.
  Qed.
  Lemma fruitful_app cs more : fruitful cs → fruitful (cs ++ more).
  Proof using.
    intros [(c & Hc & H)|(P & Hm & H)]; [left; exists c; split; [apply elem_of_app; by left|done]|right].
    exists P. split; [done|]. intros l Hl. destruct (H l Hl) as (c & x & H1 & H2). exists c, x. split; [apply elem_of_app; by left|done].
  Qed.
  Lemma enough_found cs : enough_in_progress env cs → cs ≠ [].
  Proof using M0.
    intros (P & Hm & H) ->. destruct (decide (P = ∅)) as [->|Hne]; [rewrite size_empty in Hm; lia|].
    apply set_choose_L in Hne as (l & Hl). destruct (H l Hl) as (c & _ & Hc & _). by apply elem_of_nil in Hc.
  Qed.

  (** A visit of a lesson: the search goes on with the dependents, or there is something to work
      on. *)
  Lemma visit_spec i it st : is_lesson env it.1 → PProg st →
    (∃ st1, lesson_visit env o None i it st = Next (SState (push_units o (2 * i) it (valid_dependents env (o_set o i) None it.1) (st_stack st1))
        (st_visited st1) (st_pending st1) (st_found st1) (st_progress st1)) ∧
      st_stack st1 = st_stack st ∧ st_visited st1 = st_visited st ∧ st_pending st1 = st_pending st ∧
      (∃ more, st_found st1 = st_found st ++ more) ∧ PProg st1 ∧ ok it.1 ∧
      (∀ e, exercise_of env e it.1 → clean env e → s_superseded env it.1 = false → st_found st1 ≠ [])) ∨
    (∃ st1, (lesson_visit env o None i it st = Next st1 ∨ lesson_visit env o None i it st = Stop st1) ∧
      (∃ more, st_found st1 = st_found st ++ more) ∧ PProg st1 ∧ fruitful (st_found st1)).
  Proof using K Ho A N F SY M0 U.
    intros Hl HP. destruct it as [l d]. simpl in *. unfold lesson_visit. cbv zeta. simpl.
    pose proof (lesson_has_course env K l Hl) as Hlc. destruct (lesson_of_types env K _ _ Hlc) as [_ Hcc].
    destruct (skip_lesson env None l) eqn:Esk.
    { left. exists st. split_and!; try done; [exists []; by rewrite app_nil_r| |].
      - apply effective_iff. unfold skip_lesson, banned in Esk. cbn [unit_passes default] in Esk.
        rewrite !orb_true_iff, bool_decide_eq_true, (U _ Hcc) in Esk. simpl in Esk. naive_solver.
      - intros e He [_ Hcl] Hsup. destruct (Hcl l He) as [Hb _].
        rewrite (not_banned_average env l) in Esk by (done || by apply U). done. }
    destruct (candidates_here i l d Hl) as (cs & avg & -> & Hin & Hne & Hsc).
    destruct (passes_threshold env (match cs with [] => None | _ => Some avg end) (s_trials env l)) eqn:Ep.
    - left. destruct (extend_spec st cs l (match cs with [] => None | _ => Some avg end) HP Hin) as (E1 & E2 & E3 & E4 & E5 & E6).
      { intros Hn. exists avg. split; [by destruct cs|by apply Hsc]. }
      exists (extend_candidates env st cs l (match cs with [] => None | _ => Some avg end)).
      split; [done|]. split; [done|]. split; [done|]. split; [done|]. split; [done|]. split; [done|].
      split; [by eapply passed_ok|]. intros e He Hcl _. specialize (Hne e He Hcl). destruct (E6 Hne) as [E7|E7]; [|by apply enough_found].
      destruct cs as [|c cs]; [done|]. intros E. specialize (E7 c ltac:(left)). rewrite E in E7. by apply elem_of_nil in E7.
    - right. destruct cs as [|c cs]; [done|].
      destruct (extend_spec st (set_dead_end <$> c :: cs) l (Some avg) HP) as (E1 & E2 & E3 & E4 & E5 & E6).
      { intros c' Hc'. apply elem_of_list_fmap in Hc' as (c'' & -> & Hc''). simpl. by apply Hin. }
      { intros _. exists avg. split; [done|]. by apply Hsc. }
      set (st1 := extend_candidates env st (set_dead_end <$> c :: cs) l (Some avg)) in *.
      assert (Hfr : fruitful (st_found st1)).
      { destruct E6 as [E6|E6]; [done| |by right]. left. exists (set_dead_end c). split; [apply E6; left|]. simpl.
        rewrite (Hin c) by left. unfold passes_threshold in Ep. destruct (s_trials env l) as [t|] eqn:Et; [|done].
        exists avg, t. split; [by apply Hsc|]. split; [done|]. by apply andb_false_iff in Ep. }
      destruct (Nat.leb (max_candidates env) (length (st_found st1))).
      + exists st1. split; [by right|done].
      + eexists. split; [by left|]. done.
  Qed.

  (** Once there is something to work on, this stays so. *)
  Lemma step_fruitful i it st r : PProg st → fruitful (st_found st) → search_step env o None true [] i it st = r →
    match r with Next st' | Stop st' => PProg st' ∧ fruitful (st_found st') | Fail => False end.
  Proof using K Ho A N F SY M0 U.
    intros HP Hf <-. unfold search_step. destruct (bool_decide_reflect (it.1 ∈ st_visited st)); [done|].
    destruct (get_unit_type (s_graph env) it.1) as [[]|] eqn:Et; [done| | |done].
    - unfold lesson_step. simpl. pose proof (lesson_has_course env K it.1 Et) as Hlc. unfold lesson_of in Hlc. rewrite Hlc.
      match goal with |- context [lesson_visit _ _ _ _ _ ?s] => set (st0 := s) end.
      destruct (visit_spec i it st0 Et) as [(st1 & -> & _ & _ & _ & (more & Hm) & HP1 & _)|(st1 & Hst1 & (more & Hm) & HP1 & Hf1)]; [exact HP| |].
      + split; [exact HP1|]. simpl. rewrite Hm. by apply fruitful_app.
      + destruct Hst1 as [-> | ->]; done.
    - unfold course_step. destruct (skip_course _ _ _ _); done.
  Qed.

  Lemma step_progress i it st stack : st_stack st = it :: stack → PInv st → PProg st →
    match search_step env o None true [] i it (SState stack (st_visited st) (st_pending st) (st_found st) (st_progress st)) with
    | Next st' => PProg st' ∧ (PInv st' ∨ fruitful (st_found st'))
    | Stop st' => PProg st' ∧ fruitful (st_found st')
    | Fail => False
    end.
  Proof using K Ho A N F SY M0 U.
    intros Es [W0 W1 W2 W3 W4 W5 W6 W7] HP. destruct st as [stk V pend found prog]. simpl in *. subst stk.
    rewrite fmap_cons in *. set (u := it.1) in *. set (Z := stack.*1) in *.
    assert (HPs : ∀ s v q, PProg (SState s v q found prog)) by done.
    unfold search_step. simpl. fold u.
    (* the popped item is already visited, or is no course or lesson *)
    assert (Hdrop : u ∈ V ∨ (¬ is_course env u ∧ ¬ is_lesson env u) → PInv (SState stack V pend found prog)).
    { intros Hu.
      assert (Hst : ∀ c, begun (u :: Z) V c → is_course env c → begun Z V c).
      { intros c [H3 H4] Hc. split.
        - intros l Hl Hr. destruct (H3 l Hl Hr) as [?|Hin]; [by left|]. apply elem_of_cons in Hin as [->|?]; [|by right].
          destruct Hu as [?|[_ Hn]]; [by left|]. destruct Hn. by apply (lesson_of_types env K u c), Hl.
        - intros Hl. destruct (H4 Hl) as [?|Hin]; [by left|]. apply elem_of_cons in Hin as [->|?]; [|by right].
          destruct Hu as [?|[Hn _]]; [by left|]. done. }
      assert (Hh : ∀ v, cared (u :: Z) V v → is_course env v ∨ is_lesson env v → cared Z V v).
      { intros v [H|[H|[H H']]] Hv; [by left| |right; right; auto].
        apply elem_of_cons in H as [->|H]; [|by right; left]. destruct Hu as [?|[? ?]]; [by left|]. by destruct Hv. }
      constructor; simpl; fold Z; try done.
      - intros l v Hl Hll Hd Hr. apply Hh; [by eapply W1|]. by apply (k_dep_type _ K v l).
      - intros c v Hl Hll Hd Hr. apply Hh; [by eapply W2|]. by apply (k_dep_type _ K v c).
      - intros c Hc Hcc. apply Hst; [by apply W3|done].
      - intros c l Hl Hall. destruct (W4 c l Hl Hall) as [?|Hin]; [by left|]. apply elem_of_cons in Hin as [->|?]; [|by right].
        destruct Hu as [?|[Hn _]]; [by left|]. destruct Hn. by apply (lesson_of_types env K l u).
      - intros v Hv Hty. by apply Hh; [apply W5|]. }
    destruct (bool_decide_reflect (u ∈ V)) as [Hv|Hv]; [split; [done|left; auto]|].
    destruct (get_unit_type (s_graph env) u) as [[]|] eqn:Et.
    - split; [done|]. left. apply Hdrop. right. unfold is_course, is_lesson. rewrite Et. done.
    - (* a lesson *)
      unfold lesson_step. fold u. simpl. pose proof (lesson_has_course env K u Et) as Hlc. unfold lesson_of in Hlc. rewrite Hlc.
      set (c := lesson_course env u) in *. set (n := Nat.pred (pending_of env pend c)).
      assert (Hn : n = size (course_lessons env c ∖ ({[u]} ∪ V))).
      { unfold n. rewrite W6.
        assert (course_lessons env c ∖ V = {[u]} ∪ course_lessons env c ∖ ({[u]} ∪ V)) as ->.
        { apply (course_lesson_elem env K) in Hlc. apply set_eq. intros x. destruct (decide (x = u)) as [->|Hne].
          - clear -Hlc Hv. set_solver.
          - clear -Hne. set_solver. }
        rewrite size_union by (clear; set_solver). rewrite size_singleton. lia. }
      set (stk := if Nat.eqb n 0 then (c, it.2 + 1) :: stack else stack).
      match goal with |- match ?x with _ => _ end => change x with (lesson_visit env o None i it (SState stk ({[u]} ∪ V) (<[c:=n]> pend) found prog)) end.
      destruct (visit_spec i it (SState stk ({[u]} ∪ V) (<[c:=n]> pend) found prog) Et (HPs _ _ _))
        as [(st1 & -> & Q1 & Q2 & Q3 & (more & Q4) & Q5 & Q6 & Q7)|(st1 & Hst1 & _ & HP1 & Hf1)].
      2: { destruct Hst1 as [-> | ->]; auto. }
      split; [exact Q5|]. left. simpl in Q1, Q2, Q3, Q4. rewrite Q1, Q2, Q3, Q4. fold u in Q6, Q7 |- *. clear Q1 Q2 Q3 Q5.
      set (Z' := (push_units o (2 * i) it (valid_dependents env (o_set o i) None u) stk).*1).
      assert (HV : ∀ x, x ∈ V → x ∈ {[u]} ∪ V) by (clear; set_solver).
      assert (HS : ∀ x, x ∈ u :: Z → x ∈ {[u]} ∪ V ∨ x ∈ Z').
      { intros x Hx. apply elem_of_cons in Hx as [->|Hx]; [left; clear; set_solver|]. right. unfold Z'. apply push_old.
        unfold stk. destruct (Nat.eqb n 0); [by right|done]. }
      assert (Hother : ∀ x, is_course env x → x ∈ {[u]} ∪ V → x ∈ V).
      { intros x Hx [Hxu%elem_of_singleton|Hxv]%elem_of_union; [|done]. subst x. unfold is_course in Hx. congruence. }
      constructor; cbn [st_stack st_visited st_pending st_found st_progress]; fold u Z'.
      + intros l [Hl%elem_of_singleton|Hl]%elem_of_union Hll; [by subst l|by apply W0].
      + intros l v [Hl%elem_of_singleton|Hl]%elem_of_union Hll Hd Hr.
        * subst l. right. left. unfold Z'. apply push_new; [done|]. by apply dependents_ready.
        * eapply cared_mono; [exact HV|exact HS|]. by eapply W1.
      + intros c' v Hc' Hcc Hd Hr. eapply cared_mono; [exact HV|exact HS|]. by eapply W2; [apply Hother|..].
      + intros c' Hc' Hcc. eapply begun_mono; [exact HV|exact HS|]. by apply W3; [apply Hother|..].
      + intros c' l Hl Hall. destruct (decide (c' = c)) as [->|Hne].
        * right. unfold Z'. apply push_old. unfold stk.
          assert (n = 0) as ->; [|left]. rewrite Hn. apply size_empty_iff. intros x. split; [|by intros ?%elem_of_empty].
          intros [Hx1 Hx2]%elem_of_difference. apply (course_lesson_elem env K), Hall in Hx1. done.
        * assert (c' ∈ V ∨ c' ∈ u :: Z) as [?|?]; [|left; auto|auto]. apply (W4 c' l Hl). intros l' Hl'.
          specialize (Hall l' Hl'). apply elem_of_union in Hall as [Hall%elem_of_singleton|?]; [|done].
          subst l'. unfold lesson_of in Hl'. congruence.
      + intros v Hv1 Hv2. eapply cared_mono; [exact HV|exact HS|]. by apply W5.
      + intros c'. rewrite pending_insert. case_decide as Hd; [by subst|]. rewrite W6. f_equal.
        assert (Hno : u ∉ course_lessons env c').
        { rewrite (course_lesson_elem env K). unfold lesson_of. rewrite Hlc. congruence. }
        clear -Hno. set_solver.
      + intros l e [Hl%elem_of_singleton|Hl]%elem_of_union He Hcl H1.
        * subst l. rewrite <-Q4. by eapply Q7.
        * intros [Hf _]%app_eq_nil. by eapply W7.
    - (* a course *)
      unfold course_step. fold u. simpl. rewrite W6.
      set (n := size (course_lessons env u ∖ V)).
      set (stk := push_units o (i + (i + 0)) it (valid_starting_lessons env (o_set o i) None u) stack).
      assert (HPd : ∀ c, pending_of env (<[u := n]> pend) c = size (course_lessons env c ∖ V)).
      { intros c. rewrite pending_insert. case_decide; [by subst|apply W6]. }
      assert (Hnl : ∀ x, is_lesson env x → x ∈ {[u]} ∪ V → x ∈ V).
      { intros x Hx [Hxu%elem_of_singleton|Hxv]%elem_of_union; [|done]. subst x. unfold is_lesson in Hx. congruence. }
      destruct (skip_course env None n u) eqn:Esk.
      + split; [done|]. left.
        set (stk' := push_units o (Datatypes.S (i + (i + 0))) it (valid_dependents env (o_set o i) None u) stk).
        replace (push_units o (i + (i + 0) + 1) it (valid_dependents env (o_set o i) None u) stk) with stk'.
        2: { unfold stk'. f_equal. lia. }
        assert (HV : ∀ x, x ∈ V → x ∈ {[u]} ∪ V) by (clear; set_solver).
        assert (HS : ∀ x, x ∈ u :: Z → x ∈ {[u]} ∪ V ∨ x ∈ stk'.*1).
        { intros x Hx. apply elem_of_cons in Hx as [->|Hx]; [left; clear; set_solver|]. right. by apply push_old, push_old. }
        constructor; simpl.
        * intros l Hl Hll. apply W0; [by apply Hnl|done].
        * intros l v Hl Hll Hd Hr. eapply cared_mono; [exact HV|exact HS|]. by eapply W1; [apply Hnl|..].
        * intros c v [Hl%elem_of_singleton|Hl]%elem_of_union Hll Hd Hr.
          -- subst c. right. left. apply push_new; [done|]. by apply dependents_ready.
          -- eapply cared_mono; [exact HV|exact HS|]. by eapply W2.
        * intros c [Hl%elem_of_singleton|Hl]%elem_of_union Hll.
          -- subst c. split; [|intros _; left; clear; set_solver]. intros l Hl Hr. right. by apply push_old, push_new, starting_ready.
          -- eapply begun_mono; [exact HV|exact HS|]. by eapply W3.
        * intros c l Hl Hall. assert (c ∈ V ∨ c ∈ u :: Z) as [?|?]; [|left; auto|auto]. apply (W4 c l Hl). intros l' Hl'.
          apply Hnl; [by apply (lesson_of_types env K l' c)|auto].
        * intros v Hv1 Hv2. eapply cared_mono; [exact HV|exact HS|]. by apply W5.
        * intros c. rewrite HPd. f_equal. pose proof (course_not_lesson env K c u Et) as Hno. clear -Hno. set_solver.
        * intros l e Hl He. apply (W7 l e); [|done]. apply Hnl; [|done]. by apply (exercise_of_types env K e l).
      + split; [done|]. left.
        assert (Hn : n ≠ 0).
        { unfold skip_course in Esk. rewrite !orb_false_iff in Esk. destruct Esk as [[_ Esk] _]. by apply Nat.eqb_neq in Esk. }
        assert (Hless : ∃ l, lesson_of env l u ∧ l ∉ V).
        { destruct (decide (elements (course_lessons env u ∖ V) = [])) as [He|He].
          - destruct Hn. unfold n. apply elements_empty_inv in He. rewrite He. apply size_empty.
          - destruct (elements (course_lessons env u ∖ V)) as [|l ls] eqn:El; [done|].
            assert (l ∈ elements (course_lessons env u ∖ V)) as Hin by (rewrite El; left).
            apply elem_of_elements, elem_of_difference in Hin as [H1 H2]. exists l. by rewrite <-(course_lesson_elem env K). }
        destruct Hless as (l0 & Hl0 & Hl0').
        assert (Hs : begun stk.*1 V u).
        { split; [|intros Hno; by destruct (Hno l0)]. intros l Hl Hr. right. by apply push_new, starting_ready. }
        assert (HS : ∀ x, x ∈ Z → x ∈ stk.*1) by (intros x Hx; by apply push_old).
        constructor; simpl.
        * exact W0.
        * intros l v Hl Hll Hd Hr. eapply cared_pop; [exact Et|exact Hs|exact HS|]. by eapply W1.
        * intros l v Hl Hll Hd Hr. eapply cared_pop; [exact Et|exact Hs|exact HS|]. by eapply W2.
        * intros l Hl Hll. eapply begun_pop; [exact Et|exact Hs|exact HS|]. by eapply W3.
        * intros c l Hl Hall. destruct (W4 c l Hl Hall) as [?|Hin]; [by left|]. apply elem_of_cons in Hin as [->|Hin]; [|auto].
          by destruct Hl0'; apply Hall.
        * intros v Hv1 Hv2. eapply cared_pop; [exact Et|exact Hs|exact HS|]. by apply W5.
        * exact HPd.
        * exact W7.
    - split; [done|]. left. apply Hdrop. right. unfold is_course, is_lesson. rewrite Et. done.
  Qed.

  Lemma loop_progress fuel : ∀ i st r, PProg st → PInv st ∨ fruitful (st_found st) → search_loop env o None true [] fuel i st = r → r ≠ NoFuel →
    ∃ st', r = Found (st_found st') ∧ PProg st' ∧ (PInv st' ∧ st_stack st' = [] ∨ fruitful (st_found st')).
  Proof using K Ho A N F SY M0 U.
    induction fuel as [|fuel IH]; intros i st r HP I; cbn [search_loop]; [by intros <-|].
    destruct (st_stack st) as [|it stack] eqn:Es; [intros <- _; exists st; split; [done|]; split; [done|]; destruct I; auto|].
    destruct I as [I|I].
    - pose proof (step_progress i it st stack Es I HP) as H.
      destruct (search_step _ _ _ _ _ _ _ _) as [st'|st'|]; [|intros <- _; exists st'; split; [done|]; destruct H; auto|done].
      destruct H as [H1 H2]. by apply IH.
    - pose proof (step_fruitful i it (SState stack (st_visited st) (st_pending st) (st_found st) (st_progress st)) _ HP I eq_refl) as H.
      destruct (search_step _ _ _ _ _ _ _ _) as [st'|st'|]; [|intros <- _; exists st'; split; [done|]; destruct H; auto|done].
      destruct H as [H1 H2]. apply IH; auto.
  Qed.

  (** At the end everything was visited. *)
  Lemma all_visited st : PInv st → st_stack st = [] → well_ordered env →
    ∀ l, is_lesson env l → l ∈ st_visited st.
  Proof using K SY.
    clear A N F M0 U. intros [W0 W1 W2 W3 W4 W5 _ _] Es [Hw Hh He]. rewrite Es in *. simpl in *.
    set (V := st_visited st) in *.
    assert (Hfin : ∀ u, cared [] V u → is_course env u → begun [] V u).
    { intros u [H|[H|[_ H]]] Hc; [by apply W3|by apply elem_of_nil in H|done]. }
    assert (Q : ∀ u, (is_lesson env u → u ∈ V) ∧ (is_course env u → begun [] V u)).
    { intros u. induction (waits_sn env K Hw u) as [u _ IH]. unfold flip in IH.
      assert (Hready : ready u).
      { intros d Hd. destruct (get_unit_type (s_graph env) d) as [[]|] eqn:Et; [by destruct (He u d Hd)| | |].
        - apply W0; [|done]. by apply (IH d (waits_dependency env u d Hd)).
        - apply satisfied_ok, (sy_course env SY d Et). intros l Hl. destruct (lesson_of_types env K _ _ Hl) as [Hll _].
          apply ok_satisfied; [done|]. apply W0; [|done]. by apply (IH l (waits_lessons env u d l Hd Hl)).
        - apply satisfied_ok. by left. }
      split.
      - intros Hl. pose proof (lesson_has_course env K u Hl) as Hc.
        set (c := lesson_course env u) in *. destruct (lesson_of_types env K u c Hc) as [_ Hcc].
        destruct (decide (all_dependencies env u ∩ course_lessons env c = ∅)) as [Hno|Hd].
        + destruct (IH c (waits_course env u c Hc)) as [_ Hs]. destruct (Hs Hcc) as [Hs' _].
          destruct (Hs' u) as [?|?%elem_of_nil]; [|done|done|done]. split; [done|]. intros d Hd Hdc.
          apply dependency_elem in Hd. apply (course_lesson_elem env K) in Hdc. clear -Hno Hd Hdc. set_solver.
        + apply set_choose_L in Hd as (d & [Hd Hdc]%elem_of_intersection).
          apply dependency_elem in Hd. apply (course_lesson_elem env K) in Hdc.
          destruct (lesson_of_types env K d c Hdc) as [Hdl _].
          destruct (IH d (waits_dependency env u d Hd)) as [Hdv _].
          destruct (W1 d u (Hdv Hdl) Hdl Hd Hready) as [?|[?%elem_of_nil|[? _]]]; [done..|]. unfold is_course, is_lesson in *. congruence.
      - intros Hc.
        destruct (decide (all_dependencies env u = ∅)) as [Hno|Hd].
        { assert (Hnd : ∀ d, ¬ depends_on (s_graph env) u d).
          { intros d Hd. apply dependency_elem in Hd. rewrite Hno in Hd. by apply elem_of_empty in Hd. }
          apply Hfin; [|done]. apply W5; [|by left]. right. split; [done|]. left. split; [done|].
          intros Hf. by apply (Hh u). }
        destruct (decide (set_Exists (λ d, get_unit_type (s_graph env) d ≠ None) (all_dependencies env u))) as [(d & Hd1 & Hd2)|Hmiss].
        + apply dependency_elem in Hd1. apply Hfin; [|done].
          destruct (get_unit_type (s_graph env) d) as [[]|] eqn:Et; [by destruct (He u d Hd1)| | |done].
          * destruct (IH d (waits_dependency env u d Hd1)) as [Hdv _]. by apply (W1 d u (Hdv Et) Et Hd1).
          * assert (Hall : ∀ l, lesson_of env l d → l ∈ V).
            { intros l Hl. destruct (IH l (waits_lessons env u d l Hd1 Hl)) as [Hlv _]. by apply Hlv, (lesson_of_types env K l d). }
            assert (Hdv : d ∈ V).
            { destruct (decide (course_lessons env d = ∅)) as [Hn|Hn].
              - destruct (IH d (waits_dependency env u d Hd1)) as [_ Hs]. destruct (Hs Et) as [_ Hs'].
                destruct Hs' as [?|?%elem_of_nil]; [|done|done]. intros l Hl. apply (course_lesson_elem env K) in Hl. rewrite Hn in Hl.
                by apply elem_of_empty in Hl.
              - apply set_choose_L in Hn as (l & Hl). apply (course_lesson_elem env K) in Hl.
                by destruct (W4 d l Hl Hall) as [?|?%elem_of_nil]. }
            by apply (W2 d u Hdv Et Hd1).
        + apply Hfin; [|done]. apply W5; [|by left]. left. split.
          * apply set_choose_L in Hd as (d & Hd). exists d. by apply dependency_elem.
          * intros d Hd'. apply dependency_elem in Hd'. unfold missing.
            destruct (get_unit_type (s_graph env) d) eqn:Et; [|done]. destruct Hmiss. exists d. split; [done|]. by rewrite Et. }
    intros l Hl. by apply Q.
  Qed.

  Lemma progress_init stack : (∀ u, is_start env u → cared stack.*1 ∅ u) → PInv (SState stack ∅ ∅ [] ∅).
  Proof using K.
    clear A N F M0 U SY. intros H. constructor; simpl; try by intros * ?%elem_of_empty.
    - intros c l Hl Hall. apply Hall in Hl. by apply elem_of_empty in Hl.
    - intros u Hu _. by apply H.
    - intros c. unfold pending_of. rewrite lookup_empty. simpl. f_equal. clear. set_solver.
  Qed.
End progress.

Lemma something_to_do env os : opened (s_lib env) → (∀ i, orders_ok (os i)) → verify_options (s_options env) = true →
  passing_numbers env → fgt (min_fraction (passing_score (s_options env))) fzero = true →
  answers_exercises env → steady env → well_ordered env → (∀ c, is_course env c → s_superseded env c = false) →
  ∃ cs fuel, (∀ fuel', fuel ≤ fuel' → unit_candidates env os fuel' None = Found cs) ∧
    ((∃ c, c ∈ cs ∧ not_passed env (lesson_id c)) ∨ enough_in_progress env cs ∨ ∀ l, is_lesson env l → satisfied env l) ∧
    ((∃ e l, exercise_of env e l ∧ clean env e ∧ s_superseded env l = false) → cs ≠ []).
Proof.
  intros Hop Ho Hv N F A S W U. pose proof (opened_ok _ Hop) as K.
  assert (M0 : 0 < max_lessons_in_progress (s_options env)).
  { unfold verify_options in Hv. rewrite !andb_true_iff in Hv. destruct Hv as [_ Hv]. apply negb_true_iff, Nat.eqb_neq in Hv. lia. }
  destruct (from_everything_settles env K os Ho None) as (n & r & Hr & Hset).
  assert (∃ cs, r = Found cs ∧
    ((∃ c, c ∈ cs ∧ not_passed env (lesson_id c)) ∨ enough_in_progress env cs ∨ ∀ l, is_lesson env l → satisfied env l) ∧
    ((∃ e l, exercise_of env e l ∧ clean env e ∧ s_superseded env l = false) → cs ≠ [])) as (cs & -> & H).
  2: { exists cs, n. done. }
  pose proof (Hset (2 + n) ltac:(lia)) as E. unfold from_everything in E.
  destruct (initial_stack_spec env K (os 0) None n (Ho 0)) as (stack & Hstack & Hin). rewrite Hstack in E.
  apply (loop_progress env K (os 0) (Ho 0) A S N F M0 U) in E as (st & -> & HP & Hfin); [|by intros ? ?%elem_of_empty|left; apply (progress_init env K)|done].
  - exists (st_found st). split; [done|]. destruct Hfin as [[I Es]|Hf].
    + pose proof (all_visited env K S st I Es W) as Hall. split.
      * do 2 right. intros l Hl. apply ok_satisfied; [done|done|]. apply (p_ok env _ I); auto.
      * intros (e & l & He & Hcl & Hs). eapply (p_found env _ I l e); try done. apply Hall. by apply (exercise_of_types env K e l).
    + split; [destruct Hf; auto|]. intros _. destruct Hf as [(c & Hc & _)|Hf]; [|by eapply enough_found].
      intros E. rewrite E in Hc. by apply elem_of_nil in Hc.
  - intros u Hu. destruct (is_start_starting env K u Hu) as [[Hm Hty]|Hex].
    + destruct Hty as [Hc|[Hl _]].
      * assert (Hready : ∀ l, all_satisfied env (o_set (os 0) 0) None l = true ↔ ready env l).
        { intros l. apply (ready_iff env K). apply (o_set_ok _ (Ho 0)). }
        destruct (decide (set_Exists (λ l, all_satisfied env (o_set (os 0) 0) None l = true) (starting_lessons env u))) as [(l0 & Hl0 & Hl0')|Hno].
        -- right. right. split; [done|]. split.
           ++ intros l Hl Hrl. right. apply elem_of_list_fmap. exists (l, 0). split; [done|]. apply Hin. split; [done|]. exists u. split; [done|].
              left. split; [done|]. by apply Hready.
           ++ intros Hn. apply (starting_elem env K) in Hl0 as [Hl0 _]. by destruct (Hn l0).
        -- right. left. apply elem_of_list_fmap. exists (u, 0). split; [done|]. apply Hin. split; [done|]. exists u. split; [done|].
           right. split; [done|]. intros l Hl. apply (starting_elem env K) in Hl. apply not_true_iff_false. intros Hs. apply Hno. by exists l.
      * right. left. apply elem_of_list_fmap. exists (u, 0). split; [done|]. apply Hin. split; [done|]. exists u. split; [done|].
        right. split; [done|]. intros l [Hll _]. apply (lesson_of_types env K) in Hll as [_ Hc]. unfold is_course, is_lesson in *. congruence.
    + right. left. apply elem_of_list_fmap. exists (u, 0). split; [done|]. apply Hin. split; [done|]. exists u. split; [done|].
      right. split; [done|]. intros l [Hll _]. apply (lesson_of_types env K) in Hll as [_ Hc]. unfold is_course in *. congruence.
Qed.
