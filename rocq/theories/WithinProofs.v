(** A search of the whole graph visits what is within reach. *)
From stdpp Require Import gmap strings list relations.
From Verif Require Import F32 Graph GraphSpec GraphProofs Library LibraryQueries
  Filters Options Batch BatchSpec KnockProofs Search SearchSpec ProgressSpec WithinSpec LibFacts ResolveProofs CandidateProofs ShareProofs
  SearchProofs StartProofs TermProofs CompleteProofs WholeProofs ProgressProofs.
Local Open Scope list_scope.

Section within.
  Context (env : senv) (K : LibOK (s_lib env)) (o : orders) (Ho : orders_ok o) (A : answers_exercises env)
    (N : passing_numbers env) (F : fgt (min_fraction (passing_score (s_options env))) fzero = true)
    (NN : ∀ l x, lesson_score env l x → fis_nan x = false)
    (NM : ∀ u s, missing env u → s_score env u ≠ Some (Some s)) (NB : ""%string ∉ s_banned env) (f : option kv_filter).
  Notation g := (s_graph env).
  Notation p := (passing_score (s_options env)).

  Lemma unlocked_iff ord u : (∀ s, ord s ≡ₚ elements s) → all_satisfied env ord f u = true ↔ unlocked env f u.
  Proof using K NM NB.
    intros Hord. rewrite (all_satisfied_iff env K ord f Hord). unfold unlocked. split; intros H d t Hd Ht.
    - apply (effective_satisfied env K); [done|]. by eapply H.
    - specialize (H d t Hd Ht). destruct (get_unit_type g t) eqn:Et; [apply satisfied_effectively; [unfold missing; by rewrite Et|done]|].
      apply effective_iff. do 3 right. intros s t' Hs _. by destruct (NM t s Et).
  Qed.
  Lemma starting_unlocked i c l : l ∈ valid_starting_lessons env (o_set o i) f c ↔ first_lesson env c l ∧ unlocked env f l.
  Proof using K Ho NM NB.
    unfold valid_starting_lessons. rewrite List_filter_filter, elem_of_list_filter, elem_of_elements, starting_elem by done.
    rewrite unlocked_iff by apply (o_set_ok o Ho). tauto.
  Qed.
  Lemma dependents_unlocked i u v : v ∈ valid_dependents env (o_set o i) f u ↔ depends_on g v u ∧ unlocked env f v.
  Proof using K Ho NM NB.
    unfold valid_dependents. rewrite List_filter_filter, elem_of_list_filter, elem_of_elements, dependent_elem by done.
    rewrite unlocked_iff by apply (o_set_ok o Ho). tauto.
  Qed.
  Lemma push_elem i (it : sitem) (us : list uid) (stack : list sitem) u : u ∈ (push_units o i it us stack).*1 ↔ u ∈ us ∨ u ∈ stack.*1.
  Proof using Ho.
    unfold push_units. rewrite fmap_app, elem_of_app, <-list_fmap_compose. simpl. rewrite list_fmap_id.
    by rewrite (o_units_ok o Ho).
  Qed.
  Lemma filter_iff b u : is_course env u ∨ is_lesson env u → default b (unit_passes env f u) = true ↔ lets_through env f u.
  Proof using K. intros H. rewrite (passes_defined env K f u b H). by apply passes_iff. Qed.
  Lemma passed_over_iff l : is_lesson env l → skip_lesson env f l = true ↔ passed_over env f l.
  Proof using K.
    intros Hl. pose proof (lesson_has_course env K l Hl) as Hc. unfold skip_lesson, banned, passed_over.
    rewrite !orb_true_iff, bool_decide_eq_true, negb_true_iff, <-not_true_iff_false, filter_iff by by right.
    split; [intros [[[H|H]|H]|H]|intros [H|[H|[H|(c & H1 & H2)]]]]; auto; [right; right; right; eauto|].
    right. unfold lesson_of in Hc, H1. rewrite Hc in H1. injection H1 as <-. done.
  Qed.

  Lemma candidates_of i l d : is_lesson env l → ∃ cs avg, lesson_candidates env o i (l, d) = Some (cs, avg) ∧
    (∀ c, c ∈ cs → lesson_id c = l ∧ in_place env c ∧ clean env (exercise_id c)) ∧
    (∀ e, exercise_of env e l → clean env e → cs ≠ []) ∧ (cs ≠ [] → lesson_score env l avg) ∧
    (fge avg f_4 = true ∨ flt avg (min_score p) = true → ∀ e, exercise_of env e l → clean env e → e ∈ exercise_id <$> cs).
  Proof using K Ho A N F NN.
    intros Hl. assert (∃ r, lesson_candidates env o i (l, d) = Some r) as [[cs avg] Hr].
    { unfold lesson_candidates. cbn [fst snd]. destruct (valid_exercises env (o_set o i) l) as [|e es] eqn:E; [eauto|].
      assert (is_Some (mapM (lesson_candidate env l (lesson_course env l) d) (e :: es))) as [r ->]; [|cbn [mbind option_bind]; eauto].
      apply mapM_is_Some. rewrite <-E. apply Forall_forall. intros x Hx.
      apply (valid_open env K _ l (o_set_ok o Ho i)) in Hx as [Hx _]. destruct (A x l Hx) as ([s Hs] & [u Hu] & [v Hv]).
      change (is_Some (lesson_candidate env l (lesson_course env l) d x)). unfold lesson_candidate. rewrite Hs. cbn [mbind option_bind]. rewrite Hu. cbn [mbind option_bind]. rewrite Hv. eauto. }
    exists cs, avg. split; [done|].
    pose proof (lesson_candidates_spec env K o i (l, d) cs avg Ho Hr) as (_ & H2 & Hsc).
    split; [|split; [|split; [exact Hsc|]]].
    - intros c Hc. destruct (H2 c Hc) as (? & ? & ? & _). done.
    - intros e He Hcl. pose proof (valid_open env K _ l (o_set_ok o Ho i)) as Hop.
      assert (He' : e ∈ valid_exercises env (o_set o i) l) by by apply Hop.
      assert (Hne : valid_exercises env (o_set o i) l ≠ []) by (intros E; rewrite E in He'; by apply elem_of_nil in He').
      eapply lesson_candidates_some; try done.
      destruct (lesson_candidates_full env _ _ _ _ _ Hr) as (full & Hf & _ & Hn).
      destruct (full_fields env K _ _ _ (o_set_ok o Ho i) Hf) as (F1 & _ & F3). simpl in F1, F3.
      assert (Hfull : full ≠ []) by (intros ->; by rewrite <-F1 in Hne).
      destruct (Hn Hfull) as [-> _]. eapply (NN l), F3, Hfull.
    - intros Hall e He Hcl. pose proof (valid_open env K _ l (o_set_ok o Ho i)) as Hop.
      assert (He' : e ∈ valid_exercises env (o_set o i) l) by by apply Hop.
      destruct (lesson_candidates_full env _ _ _ _ _ Hr) as (full & Hf & _ & Hn).
      destruct (full_fields env K _ _ _ (o_set_ok o Ho i) Hf) as (F1 & _ & F3). simpl in F1, F3.
      rewrite <-F1 in He'. assert (Hfull : full ≠ []) by (intros ->; by apply elem_of_nil in He').
      destruct (Hn Hfull) as [_ ->]. unfold select_lesson_candidates. destruct full as [|c0 full]; [done|].
      apply orb_true_iff in Hall. by rewrite Hall.
  Qed.

  (** What adding the candidates of a lesson does. *)
  Lemma extend_within st cs l x : PProg env st → (∀ c, c ∈ cs → lesson_id c = l) → cs ≠ [] → lesson_score env l x →
    let st' := extend_candidates env st cs l (Some x) in
    st_stack st' = st_stack st ∧ st_visited st' = st_visited st ∧ st_pending st' = st_pending st ∧ PProg env st' ∧
    (st_found st' = st_found st ++ cs ∨ st_found st' = st_found st ∧ left_for_later env (st_found st') l).
  Proof using.
    intros HP Hl Hs Hx. unfold extend_candidates. destruct cs as [|c cs]; [done|]. cbv zeta.
    assert (Hold : ∀ l, l ∈ st_progress st → ∃ c' x, c' ∈ st_found st ++ c :: cs ∧ lesson_id c' = l ∧ lesson_score env l x ∧ fle x (range_hi (target_window (s_options env))) = true).
    { intros l' Hl'. destruct (HP l' Hl') as (c' & x' & H1 & H2). exists c', x'. split; [apply elem_of_app; by left|done]. }
    destruct (fle x (range_hi (target_window (s_options env))) && negb (bool_decide (l ∈ st_progress st))) eqn:E.
    - apply andb_true_iff in E as [E1 _]. destruct (Nat.leb_spec (max_lessons_in_progress (s_options env)) (size (st_progress st))) as [Hm|Hm].
      + split_and!; try done. right. split; [done|]. split; [|eauto]. exists (st_progress st). done.
      + simpl. split_and!; try done; [|by left]. intros l' [->%elem_of_singleton|Hl']%elem_of_union; [|by apply Hold].
        exists c, x. split; [apply elem_of_app; right; left|]. split; [apply Hl; left|done].
    - simpl. split_and!; try done. by left.
  Qed.

  (** What was found for a lesson. *)
  Definition tended (cs : list candidate) (l : uid) : Prop := is_offered env cs l ∨ left_for_later env cs l.
  Lemma tended_app cs more l : tended cs l → tended (cs ++ more) l.
  Proof using.
    intros [[(c & Hc & Hl) H2]|[(P & Hm & H) Hx]].
    - left. split; [exists c; split; [apply elem_of_app; by left|done]|]. intros Hs e He Hcl.
      rewrite fmap_app. apply elem_of_app. left. eauto.
    - right. split; [|done]. exists P. split; [done|]. intros l' Hl'. destruct (H l' Hl') as (c & x & H1 & H2). exists c, x.
      split; [apply elem_of_app; by left|done].
  Qed.
  Definition good (l : uid) (c : candidate) : Prop :=
    lesson_id c = l ∧ in_place env c ∧ clean env (exercise_id c) ∧ ¬ passed_over env f l.

  Lemma visit_within i it st : is_lesson env it.1 → PProg env st →
    ∃ st1, st_stack st1 = st_stack st ∧ st_visited st1 = st_visited st ∧ st_pending st1 = st_pending st ∧ PProg env st1 ∧
      (∃ more, st_found st1 = st_found st ++ more ∧ ∀ c, c ∈ more → good it.1 c) ∧
      (∀ e, exercise_of env e it.1 → clean env e → ¬ passed_over env f it.1 → tended (st_found st1) it.1) ∧
      (lesson_visit env o f i it st = Next (SState (push_units o (2 * i) it (valid_dependents env (o_set o i) f it.1) (st_stack st1))
         (st_visited st1) (st_pending st1) (st_found st1) (st_progress st1)) ∧ maybe_leads env f it.1 ∨
       lesson_visit env o f i it st = Next (SState (o_stack o (S i) (st_stack st1)) (st_visited st1) (st_pending st1) (st_found st1) (st_progress st1)) ∧
         ¬ surely_leads env f it.1 ∨
       lesson_visit env o f i it st = Stop st1 ∧ max_candidates env ≤ length (st_found st1)).
  Proof using K Ho A N F NN.
    intros Hl HP. destruct it as [l d]. simpl in *. unfold lesson_visit. cbv zeta. cbn [fst snd].
    pose proof (passed_over_iff l Hl) as Hov.
    destruct (skip_lesson env f l) eqn:Esk.
    { exists st. split_and!; try done.
      - exists []. split; [by rewrite app_nil_r|]. by intros c ?%elem_of_nil.
      - intros e _ _ []. by apply Hov.
      - left. split; [done|]. left. by apply Hov. }
    assert (Hno : ¬ passed_over env f l) by (intros H; by apply Hov in H). clear Hov.
    destruct (candidates_of i l d Hl) as (cs & avg & -> & Hin & Hne & Hsc & Hfull).
    destruct cs as [|c0 cs0].
    { cbn [passes_threshold extend_candidates]. exists st. split_and!; try done.
      - exists []. split; [by rewrite app_nil_r|]. by intros c ?%elem_of_nil.
      - intros e He Hcl. by destruct (Hne e He Hcl).
      - left. split; [done|]. right. intros x (es & sc & [_ Hes] & Hn & _). destruct es as [|e es]; [done|].
        destruct (proj1 (Hes e)) as [H1 H2]; [left|]. by destruct (Hne e H1 H2). }
    specialize (Hsc ltac:(done)). cbn [fmap list_fmap]. remember (c0 :: cs0) as cs eqn:Ecs.
    assert (Hcs : cs ≠ []) by by subst.
    change (set_dead_end c0 :: (set_dead_end <$> cs0)) with (set_dead_end <$> (c0 :: cs0)). rewrite <-Ecs.
    assert (Hserve : ∀ st1 cs', (exercise_id <$> cs' = exercise_id <$> cs) → (lesson_id <$> cs' = lesson_id <$> cs) →
      st_found st1 = st_found st ++ cs' ∨ st_found st1 = st_found st ∧ left_for_later env (st_found st1) l → tended (st_found st1) l).
    { intros st1 cs' He Hls [E|[_ E]]; [|by right]. left. rewrite E. split.
      - assert (l ∈ lesson_id <$> cs') as Hin'.
        { rewrite Hls. apply elem_of_list_fmap. exists c0. subst cs. split; [symmetry; apply Hin; left|left]. }
        apply elem_of_list_fmap in Hin' as (c & -> & Hc). exists c. split; [apply elem_of_app; by right|done].
      - intros Hs e H1 H2. rewrite fmap_app. apply elem_of_app. right. rewrite He. apply Hfull; auto. }
    destruct (passes_threshold env (Some avg) (s_trials env l)) eqn:Ep.
    - destruct (extend_within st cs l avg HP ltac:(apply Hin) Hcs Hsc) as (E1 & E2 & E3 & E4 & E5).
      exists (extend_candidates env st cs l (Some avg)). split_and!; try done.
      + destruct E5 as [E5|[E5 _]]; [exists cs|exists []; rewrite app_nil_r]; (split; [done|]).
        * intros c Hc. destruct (Hin c Hc) as (? & ? & ?). done.
        * by intros c ?%elem_of_nil.
      + intros e _ _ _. by eapply Hserve.
      + left. split; [by subst|]. right. intros x _. exists avg. split; [done|]. intros t Ht. unfold passes_threshold in Ep. rewrite Ht in Ep.
        by apply andb_true_iff in Ep.
    - destruct (extend_within st (set_dead_end <$> cs) l avg HP) as (E1 & E2 & E3 & E4 & E5); [|by subst|done|].
      { intros c' Hc'. apply elem_of_list_fmap in Hc' as (c'' & -> & Hc''). simpl. by apply Hin. }
      assert (Hids : exercise_id <$> (set_dead_end <$> cs) = exercise_id <$> cs) by by rewrite <-list_fmap_compose.
      assert (Hlids : lesson_id <$> (set_dead_end <$> cs) = lesson_id <$> cs) by by rewrite <-list_fmap_compose.
      assert (Hsure : ¬ surely_leads env f l).
      { intros [H|H]; [done|]. specialize (H avg Hsc). unfold passes_threshold in Ep. destruct (s_trials env l) as [t|] eqn:Et; [|done].
        destruct (H t Et) as [H1 H2]. by rewrite H1, H2 in Ep. }
      exists (extend_candidates env st (set_dead_end <$> cs) l (Some avg)). split_and!; try done.
      + destruct E5 as [E5|[E5 _]]; [exists (set_dead_end <$> cs)|exists []; rewrite app_nil_r]; (split; [done|]).
        * intros c Hc. apply elem_of_list_fmap in Hc as (c'' & -> & Hc''). destruct (Hin c'' Hc'') as (? & ? & ?). done.
        * by intros c ?%elem_of_nil.
      + intros e _ _ _. by eapply Hserve.
      + right. subst cs. destruct (Nat.leb_spec (max_candidates env) (length (st_found (extend_candidates env st (set_dead_end <$> c0 :: cs0) l (Some avg))))) as [Hm|Hm].
        * right. by split.
        * left. by split.
  Qed.

  (** The first lessons of the course were visited or wait on the stack. *)
  Definition begun (S : list uid) (V : gset uid) (c : uid) : Prop :=
    (∀ l, first_lesson env c l → unlocked env f l → l ∈ V ∨ l ∈ S) ∧ ((∀ l, ¬ lesson_of env l c) → c ∈ V ∨ c ∈ S).
  Lemma begun_mono (S S' : list uid) (V V' : gset uid) c : (∀ u, u ∈ V → u ∈ V') → (∀ u, u ∈ S → u ∈ V' ∨ u ∈ S') →
    begun S V c → begun S' V' c.
  Proof using. intros H1 H2 [H3 H4]. split; [intros l Hl Hr; destruct (H3 l Hl Hr)|intros Hl; destruct (H4 Hl)]; auto. Qed.
  Lemma begun_pop (S S' : list uid) (V : gset uid) u c : is_course env u → begun S' V u → (∀ x, x ∈ S → x ∈ S') →
    begun (u :: S) V c → begun S' V c.
  Proof using K.
    intros Hu Hs HS [H3 H4]. split.
    - intros l Hl Hr. destruct (H3 l Hl Hr) as [?|Hin]; [by left|]. apply elem_of_cons in Hin as [->|Hin]; [|right; auto].
      destruct Hl as [Hl _]. apply (lesson_of_types env K) in Hl as [Hl _]. unfold is_course, is_lesson in *. congruence.
    - intros Hl. destruct (H4 Hl) as [?|Hin]; [by left|]. apply elem_of_cons in Hin as [->|Hin]; [|right; auto]. by apply (proj2 Hs).
  Qed.
  Definition minded (S : list uid) (V : gset uid) (u : uid) : Prop :=
    u ∈ V ∨ u ∈ S ∨ (is_course env u ∧ (lets_through env f u ∧ u ∉ s_banned env) ∧ s_superseded env u = false ∧ begun S V u).
  Lemma minded_mono (S S' : list uid) (V V' : gset uid) v : (∀ u, u ∈ V → u ∈ V') → (∀ u, u ∈ S → u ∈ V' ∨ u ∈ S') →
    minded S V v → minded S' V' v.
  Proof using.
    intros H1 H2 [H|[H|(H & H' & H'' & H3)]]; [left; auto|destruct (H2 v H); [by left|by right; left]|].
    right. right. split; [done|]. split; [done|]. split; [done|]. by eapply begun_mono.
  Qed.
  Section from.
  Context (start : uid → Prop).
  Notation reach := (in_reach env f start (maybe_leads env f)).
  Notation typed u := (is_course env u ∨ is_lesson env u).

  Record WInv (st : sstate) : Prop := {
    w_lesson : ∀ l v, l ∈ st_visited st → is_lesson env l → surely_leads env f l → depends_on g v l → unlocked env f v →
      minded (st_stack st).*1 (st_visited st) v;
    w_course : ∀ c v, c ∈ st_visited st → is_course env c → depends_on g v c → unlocked env f v → minded (st_stack st).*1 (st_visited st) v;
    w_begun : ∀ c, c ∈ st_visited st → is_course env c → begun (st_stack st).*1 (st_visited st) c;
    w_done : ∀ c l, lesson_of env l c → (∀ l, lesson_of env l c → l ∈ st_visited st) → c ∈ st_visited st ∨ c ∈ (st_stack st).*1;
    w_start : ∀ u, start u → typed u → minded (st_stack st).*1 (st_visited st) u;
    w_pending : ∀ c, pending_of env (st_pending st) c = size (course_lessons env c ∖ st_visited st);
    w_found : ∀ l e, l ∈ st_visited st → exercise_of env e l → clean env e → ¬ passed_over env f l → tended (st_found st) l }.
  Record WSound (st : sstate) : Prop := {
    w_visited : ∀ u, u ∈ st_visited st → reach u;
    w_stack : ∀ u, u ∈ (st_stack st).*1 → typed u → reach u;
    w_good : ∀ c, c ∈ st_found st → reach (lesson_id c) ∧ good (lesson_id c) c }.

  Lemma step_within i it st stack : st_stack st = it :: stack → WInv st → WSound st → PProg env st →
    match search_step env o f true [] i it (SState stack (st_visited st) (st_pending st) (st_found st) (st_progress st)) with
    | Next st' => WInv st' ∧ WSound st' ∧ PProg env st'
    | Stop st' => WSound st' ∧ max_candidates env ≤ length (st_found st')
    | Fail => False
    end.
  Proof using K Ho A N F NN NM NB.
    intros Es [W1 W2 W3 W4 W5 W8 W9] [X1 X2 X3] HP. destruct st as [stk V pend found prog]. simpl in *. subst stk.
    rewrite fmap_cons in *. set (u := it.1) in *. set (Z := stack.*1) in *.
    assert (HPs : ∀ s v q, PProg env (SState s v q found prog)) by done.
    assert (X2' : ∀ x, x ∈ Z → typed x → reach x) by (intros x Hx; apply X2; by right).
    unfold search_step. simpl. fold u.
    (* the popped item is already visited, or is no course or lesson *)
    assert (Hdrop : u ∈ V ∨ (¬ is_course env u ∧ ¬ is_lesson env u) →
      WInv (SState stack V pend found prog) ∧ WSound (SState stack V pend found prog)).
    { intros Hu.
      assert (Hel : ∀ x, x ∈ V ∨ x ∈ u :: Z → typed x → x ∈ V ∨ x ∈ Z).
      { intros x [?|Hin] Hx; [by left|]. apply elem_of_cons in Hin as [->|?]; [|by right].
        destruct Hu as [?|[? ?]]; [by left|]. by destruct Hx. }
      assert (Hst : ∀ c, begun (u :: Z) V c → is_course env c → begun Z V c).
      { intros c [H3 H4] Hc. split.
        - intros l Hl Hr. apply Hel; [by apply H3|]. right. by apply (lesson_of_types env K l c), Hl.
        - intros Hl. apply Hel; [by apply H4|by left]. }
      assert (Hh : ∀ v, minded (u :: Z) V v → typed v → minded Z V v).
      { intros v [H|[H|(H & H' & H'' & H3)]] Hv; [by left| |right; right; auto].
        destruct (Hel v (or_intror H) Hv); [by left|by right; left]. }
      split; [|by constructor].
      constructor; simpl; fold Z; try done.
      - intros l v Hl Hll Hs Hd Hr. apply Hh; [by eapply W1|]. by apply (k_dep_type _ K v l).
      - intros c v Hl Hll Hd Hr. apply Hh; [by eapply W2|]. by apply (k_dep_type _ K v c).
      - intros c Hc Hcc. apply Hst; [by apply W3|done].
      - intros c l Hl Hall. apply Hel; [by eapply W4|]. left. by apply (lesson_of_types env K l c).
      - intros v Hs Hty. apply Hh; [by apply W5|done]. }
    destruct (bool_decide_reflect (u ∈ V)) as [Hv|Hv]; [destruct Hdrop; auto|].
    destruct (get_unit_type g u) as [[]|] eqn:Et.
    - destruct Hdrop; auto. right. unfold is_course, is_lesson. rewrite Et. done.
    - (* a lesson *)
      unfold lesson_step. fold u. simpl. pose proof (lesson_has_course env K u Et) as Hlc. unfold lesson_of in Hlc. rewrite Hlc.
      set (c := lesson_course env u) in *. set (n := Nat.pred (pending_of env pend c)).
      assert (Hu : reach u) by (apply X2; [by left|by right]).
      assert (Hn : n = size (course_lessons env c ∖ ({[u]} ∪ V))).
      { unfold n. rewrite W8.
        assert (course_lessons env c ∖ V = {[u]} ∪ course_lessons env c ∖ ({[u]} ∪ V)) as ->.
        { apply (course_lesson_elem env K) in Hlc. apply set_eq. intros x. destruct (decide (x = u)) as [->|Hne].
          - clear -Hlc Hv. set_solver.
          - clear -Hne. set_solver. }
        rewrite size_union by (clear; set_solver). rewrite size_singleton. lia. }
      set (stk := if Nat.eqb n 0 then (c, it.2 + 1) :: stack else stack).
      assert (Hstk : ∀ x, x ∈ stk.*1 ↔ (n = 0 ∧ x = c) ∨ x ∈ Z).
      { intros x. unfold stk. destruct (Nat.eqb_spec n 0) as [E|E]; [|fold Z; naive_solver]. rewrite fmap_cons, elem_of_cons. fold Z. simpl. naive_solver. }
      assert (XV : ∀ x, x ∈ {[u]} ∪ V → reach x).
      { intros x [->%elem_of_singleton|Hx]%elem_of_union; auto. }
      assert (XS : ∀ x, x ∈ stk.*1 → typed x → reach x).
      { intros x Hx Hty. apply Hstk in Hx as [[E ->]|Hx]; [|auto]. apply (in_whole env f start (maybe_leads env f) c u); [done|].
        intros l Hl. apply XV. destruct (decide (l ∈ ({[u]} ∪ V : gset uid))) as [?|Hnl]; [done|]. exfalso.
        rewrite E in Hn. symmetry in Hn. apply size_empty_inv in Hn. apply (course_lesson_elem env K) in Hl. clear -Hn Hl Hnl. set_solver. }
      match goal with |- match ?x with _ => _ end => change x with (lesson_visit env o f i it (SState stk ({[u]} ∪ V) (<[c:=n]> pend) found prog)) end.
      destruct (visit_within i it (SState stk ({[u]} ∪ V) (<[c:=n]> pend) found prog) Et (HPs _ _ _))
        as (st1 & Q1 & Q2 & Q3 & QP & (more & Q4 & Q5) & Q6 & Q7). fold u in Q5, Q6, Q7. simpl in Q1, Q2, Q3, Q4.
      assert (XG : ∀ c', c' ∈ found ++ more → reach (lesson_id c') ∧ good (lesson_id c') c').
      { intros c' [Hc'|Hc']%elem_of_app; [auto|]. destruct (Q5 c' Hc') as (E & R). rewrite E. done. }
      assert (HV : ∀ x, x ∈ V → x ∈ {[u]} ∪ V) by (clear; set_solver).
      assert (Hother : ∀ x, is_course env x → x ∈ {[u]} ∪ V → x ∈ V).
      { intros x Hx [Hxu%elem_of_singleton|Hxv]%elem_of_union; [|done]. subst x. unfold is_course in Hx. congruence. }
      assert (Main : ∀ Z', (∀ x, x ∈ stk.*1 → x ∈ Z'.*1) → (∀ x, x ∈ Z'.*1 → typed x → reach x) →
        (∀ v, surely_leads env f u → depends_on g v u → unlocked env f v → v ∈ Z'.*1) →
        WInv (SState Z' (st_visited st1) (st_pending st1) (st_found st1) (st_progress st1)) ∧
        WSound (SState Z' (st_visited st1) (st_pending st1) (st_found st1) (st_progress st1))).
      { intros Z' HZ1 HZ2 HZ3. rewrite Q2, Q3, Q4.
        assert (HS : ∀ x, x ∈ u :: Z → x ∈ {[u]} ∪ V ∨ x ∈ Z'.*1).
        { intros x Hx. apply elem_of_cons in Hx as [->|Hx]; [left; clear; set_solver|]. right. apply HZ1, Hstk. by right. }
        assert (HVS : ∀ x, x ∈ V ∨ x ∈ u :: Z → x ∈ {[u]} ∪ V ∨ x ∈ Z'.*1) by (intros x [?|?]; auto).
        split; [|by constructor].
        constructor; cbn [st_stack st_visited st_pending st_found st_progress].
        + intros l v [Hl%elem_of_singleton|Hl]%elem_of_union Hll Hs Hd Hr.
          * subst l. right. left. auto.
          * eapply minded_mono; [exact HV|exact HS|]. by eapply W1.
        + intros c' v Hc' Hcc Hd Hr. eapply minded_mono; [exact HV|exact HS|]. by eapply W2; [apply Hother|..].
        + intros c' Hc' Hcc. eapply begun_mono; [exact HV|exact HS|]. by apply W3; [apply Hother|..].
        + intros c' l Hl Hall. destruct (decide (c' = c)) as [->|Hne].
          * right. apply HZ1, Hstk. left. split; [|done]. rewrite Hn. apply size_empty_iff. intros x. split; [|by intros ?%elem_of_empty].
            intros [Hx1 Hx2]%elem_of_difference. apply (course_lesson_elem env K), Hall in Hx1. done.
          * apply HVS. apply (W4 c' l Hl). intros l' Hl'.
            specialize (Hall l' Hl'). apply elem_of_union in Hall as [Hall%elem_of_singleton|?]; [|done].
            subst l'. unfold lesson_of in Hl'. congruence.
        + intros v Hs Hty. eapply minded_mono; [exact HV|exact HS|]. by apply W5.
        + intros c'. rewrite pending_insert. case_decide as Hd; [by subst|]. rewrite W8. f_equal.
          assert (Hno : u ∉ course_lessons env c').
          { rewrite (course_lesson_elem env K). unfold lesson_of. rewrite Hlc. congruence. }
          clear -Hno. set_solver.
        + intros l e [Hl%elem_of_singleton|Hl]%elem_of_union He Hcl H1.
          * subst l. rewrite <-Q4. by eapply Q6.
          * apply tended_app. by eapply W9. }
      destruct Q7 as [[-> Hlead]|[[-> Hlead]|[-> Hmax]]].
      + rewrite Q1. destruct (Main (push_units o (2 * i) it (valid_dependents env (o_set o i) f u) stk)) as [M1 M2].
        * intros x Hx. apply push_elem. by right.
        * intros x Hx Hty. apply push_elem in Hx as [Hx|Hx]; [|auto]. apply dependents_unlocked in Hx as [Hd Hx]. by eapply in_next.
        * intros v _ Hd Hr. apply push_elem. left. by apply dependents_unlocked.
        * split; [exact M1|]. split; [exact M2|exact QP].
      + rewrite Q1. destruct (Main (o_stack o (Datatypes.S i) stk)) as [M1 M2].
        * intros x Hx. by rewrite (o_stack_ok o Ho).
        * intros x Hx. rewrite (o_stack_ok o Ho) in Hx. auto.
        * intros v Hs. done.
        * split; [exact M1|]. split; [exact M2|exact QP].
      + split; [|done]. constructor; [rewrite Q2|rewrite Q1|rewrite Q4]; auto.
    - (* a course *)
      unfold course_step. fold u. simpl. rewrite W8.
      assert (Hu : reach u) by (apply X2; [by left|by left]).
      set (n := size (course_lessons env u ∖ V)).
      set (stk := push_units o (i + (i + 0)) it (valid_starting_lessons env (o_set o i) f u) stack).
      assert (HPd : ∀ c, pending_of env (<[u := n]> pend) c = size (course_lessons env c ∖ V)).
      { intros c. rewrite pending_insert. case_decide; [by subst|apply W8]. }
      assert (Hnl : ∀ x, is_lesson env x → x ∈ {[u]} ∪ V → x ∈ V).
      { intros x Hx [Hxu%elem_of_singleton|Hxv]%elem_of_union; [|done]. subst x. unfold is_lesson in Hx. congruence. }
      assert (XS : ∀ x, x ∈ stk.*1 → typed x → reach x).
      { intros x Hx Hty. apply push_elem in Hx as [Hx|Hx]; [|auto]. apply starting_unlocked in Hx as [Hx1 Hx2]. by eapply in_first. }
      assert (Hskip : skip_course env f n u = true ↔ n = 0 ∨ (¬ lets_through env f u ∨ u ∈ s_banned env ∨ s_superseded env u = true)).
      { unfold skip_course, banned. rewrite !orb_true_iff, bool_decide_eq_true, Nat.eqb_eq, negb_true_iff, <-not_true_iff_false, filter_iff by by left. clear. tauto. }
      destruct (skip_course env f n u) eqn:Esk.
      + set (stk' := push_units o (Datatypes.S (i + (i + 0))) it (valid_dependents env (o_set o i) f u) stk).
        replace (push_units o (i + (i + 0) + 1) it (valid_dependents env (o_set o i) f u) stk) with stk'.
        2: { unfold stk'. f_equal. lia. }
        assert (HV : ∀ x, x ∈ V → x ∈ {[u]} ∪ V) by (clear; set_solver).
        assert (HS : ∀ x, x ∈ u :: Z → x ∈ {[u]} ∪ V ∨ x ∈ stk'.*1).
        { intros x Hx. apply elem_of_cons in Hx as [->|Hx]; [left; clear; set_solver|]. right. by apply push_old, push_old. }
        assert (HVS : ∀ x, x ∈ V ∨ x ∈ u :: Z → x ∈ {[u]} ∪ V ∨ x ∈ stk'.*1) by (intros x [?|?]; auto).
        split; [|split; [|done]].
        * constructor; simpl.
          -- intros l v Hl Hll Hs Hd Hr. eapply minded_mono; [exact HV|exact HS|]. by eapply W1; [apply Hnl|..].
          -- intros c v [Hl%elem_of_singleton|Hl]%elem_of_union Hll Hd Hr.
             ++ subst c. right. left. apply push_elem. left. by apply dependents_unlocked.
             ++ eapply minded_mono; [exact HV|exact HS|]. by eapply W2.
          -- intros c [Hl%elem_of_singleton|Hl]%elem_of_union Hll.
             ++ subst c. split; [|intros _; left; clear; set_solver]. intros l Hl Hr. right. apply push_old, push_elem. left.
                apply starting_unlocked. done.
             ++ eapply begun_mono; [exact HV|exact HS|]. by eapply W3.
          -- intros c l Hl Hall. apply HVS. apply (W4 c l Hl). intros l' Hl'.
             apply Hnl; [by apply (lesson_of_types env K l' c)|auto].
          -- intros v Hs Hty. eapply minded_mono; [exact HV|exact HS|]. by apply W5.
          -- intros c. rewrite HPd. f_equal. pose proof (course_not_lesson env K c u Et) as Hno. clear -Hno. set_solver.
          -- intros l e Hl He. apply (W9 l e); [|done]. apply Hnl; [|done]. by apply (exercise_of_types env K e l).
        * constructor; simpl; [|fold stk'|done].
          -- intros x [->%elem_of_singleton|Hx]%elem_of_union; auto.
          -- intros x Hx Hty. apply push_elem in Hx as [Hx|Hx]; [|auto]. apply dependents_unlocked in Hx as [Hd Hx].
             destruct (proj1 Hskip eq_refl) as [H|H]; [|eapply in_over; eauto].
             eapply in_done; eauto. intros l Hl. apply X1. destruct (decide (l ∈ V)) as [?|Hnv]; [done|]. exfalso.
             apply size_empty_inv in H. apply (course_lesson_elem env K) in Hl. clear -H Hl Hnv. set_solver.
      + assert (Hno' : (lets_through env f u ∧ u ∉ s_banned env) ∧ n ≠ 0 ∧ s_superseded env u = false).
        { split_and!; [destruct (lets_through_dec env K f u) as [H|H]; [done|]|intros H|intros H|apply not_true_iff_false; intros H]; (assert (false = true) by (apply Hskip; auto); done). }
        destruct Hno' as (Hb & Hn & Hsup).
        assert (Hless : ∃ l, lesson_of env l u ∧ l ∉ V).
        { destruct (decide (elements (course_lessons env u ∖ V) = [])) as [He|He].
          - destruct Hn. unfold n. apply elements_empty_inv in He. rewrite He. apply size_empty.
          - destruct (elements (course_lessons env u ∖ V)) as [|l ls] eqn:El; [done|].
            assert (l ∈ elements (course_lessons env u ∖ V)) as Hin by (rewrite El; left).
            apply elem_of_elements, elem_of_difference in Hin as [H1 H2]. exists l. by rewrite <-(course_lesson_elem env K). }
        destruct Hless as (l0 & Hl0 & Hl0').
        assert (Hs : begun stk.*1 V u).
        { split; [|intros Hno; by destruct (Hno l0)]. intros l Hl Hr. right. apply push_elem. left. apply starting_unlocked. done. }
        assert (HS : ∀ x, x ∈ Z → x ∈ stk.*1) by (intros x Hx; by apply push_old).
        assert (HVS : ∀ x, is_lesson env x → x ∈ V ∨ x ∈ u :: Z → x ∈ V ∨ x ∈ stk.*1).
        { intros x Hx [?|Hin]; [by left|]. apply elem_of_cons in Hin as [->|?]; [|right; auto]. unfold is_lesson in Hx. congruence. }
        assert (Hmp : ∀ v, minded (u :: Z) V v → minded stk.*1 V v).
        { intros v [H|[H|(H & H' & H'' & H3)]]; [by left| |].
          - apply elem_of_cons in H as [->|H]; [|right; left; auto]. right. right. done.
          - right. right. split; [done|]. split; [done|]. split; [done|]. by apply (begun_pop Z stk.*1 V u v). }
        split; [|split; [|done]].
        * constructor; simpl.
          -- intros l v Hl Hll Hsl Hd Hr. apply Hmp. by eapply W1.
          -- intros l v Hl Hll Hd Hr. apply Hmp. by eapply W2.
          -- intros l Hl Hll. apply (begun_pop Z stk.*1 V u); try done. by eapply W3.
          -- intros c l Hl Hall. destruct (W4 c l Hl Hall) as [?|Hin]; [by left|]. apply elem_of_cons in Hin as [->|Hin]; [|auto].
             by destruct Hl0'; apply Hall.
          -- intros v Hsv Hty. apply Hmp. by apply W5.
          -- exact HPd.
          -- exact W9.
        * constructor; simpl; auto.
    - destruct Hdrop; auto. right. unfold is_course, is_lesson. rewrite Et. done.
  Qed.

  Lemma loop_within fuel : ∀ i st r, WInv st → WSound st → PProg env st → search_loop env o f true [] fuel i st = r → r ≠ NoFuel →
    ∃ st', r = Found (st_found st') ∧ WSound st' ∧ (WInv st' ∧ st_stack st' = [] ∨ max_candidates env ≤ length (st_found st')).
  Proof using K Ho A N F NN NM NB.
    induction fuel as [|fuel IH]; intros i st r HW HS HP; cbn [search_loop]; [by intros <-|].
    destruct (st_stack st) as [|it stack] eqn:Es; [intros <- _; exists st; auto|].
    pose proof (step_within i it st stack Es HW HS HP) as H.
    destruct (search_step _ _ _ _ _ _ _ _) as [st'|st'|]; [|intros <- _; exists st'; destruct H; auto|done].
    destruct H as (H1 & H2 & H3). by apply IH.
  Qed.

  (** At the end everything within reach was visited. *)
  Lemma reach_visited st u : WInv st → st_stack st = [] → in_reach env f start (surely_leads env f) u →
    u ∈ st_visited st ∨ (is_course env u ∧ (lets_through env f u ∧ u ∉ s_banned env) ∧ s_superseded env u = false ∧ begun [] (st_visited st) u).
  Proof using K NM NB.
    intros [W1 W2 W3 W4 W5 _ _] Es Hr. rewrite Es in *. simpl in *. set (V := st_visited st) in *.
    assert (Hm : ∀ v, minded [] V v → v ∈ V ∨ (is_course env v ∧ (lets_through env f v ∧ v ∉ s_banned env) ∧ s_superseded env v = false ∧ begun [] V v)).
    { intros v [H|[?%elem_of_nil|H]]; auto; done. }
    assert (Hn : ∀ v, v ∈ V ∨ v ∈ @nil uid → v ∈ V) by (intros v [?|?%elem_of_nil]; done).
    assert (Hles : ∀ v, is_lesson env v → v ∈ V ∨ (is_course env v ∧ (lets_through env f v ∧ v ∉ s_banned env) ∧ s_superseded env v = false ∧ begun [] V v) → v ∈ V).
    { intros v Hl [?|[Hc _]]; [done|]. unfold is_course, is_lesson in *. congruence. }
    induction Hr as [u Hb Hty|c l Hc IH Hf Hu|l v Hl IH Hll Hs Hd Hu|c l Hl Hall IH|c v Hc IH Hcc Hov Hd Hu|c v Hc IH Hcc Hall IH' Hd Hu].
    - by apply Hm, W5.
    - destruct (lesson_of_types env K l c (proj1 Hf)) as [_ Hcc]. left. apply Hn.
      destruct IH as [H|(_ & _ & _ & H)]; [apply (W3 c H Hcc)|apply H]; done.
    - apply Hm. apply (W1 l v); auto.
    - left. apply Hn, (W4 c l Hl). intros l' Hl'. apply Hles; [by apply (lesson_of_types env K l' c)|auto].
    - apply Hm. apply (W2 c v); auto. destruct IH as [?|(_ & [H0 H1] & H2 & _)]; [done|]. destruct Hov as [?|[?|?]]; [done..|congruence].
    - apply Hm. apply (W2 c v); auto. destruct IH as [?|(_ & _ & _ & H)]; [done|].
      destruct (decide (course_lessons env c = ∅)) as [He|He].
      + apply Hn, H. intros l Hl. apply (course_lesson_elem env K) in Hl. rewrite He in Hl. by apply elem_of_empty in Hl.
      + apply set_choose_L in He as (l & Hl). apply (course_lesson_elem env K) in Hl. apply Hn, (W4 c l Hl).
        intros l' Hl'. apply Hles; [by apply (lesson_of_types env K l' c)|auto].
  Qed.
  (** A search of the graph that returns. *)
  Lemma search_within fuel stack : (∀ u, is_course env u ∨ is_lesson env u → u ∈ stack.*1 ↔ start u) →
    search env o f true [] fuel stack ∅ ≠ NoFuel → ∃ cs, search env o f true [] fuel stack ∅ = Found cs ∧ found_from env f start cs.
  Proof using K Ho A N F NN NM NB.
    intros Hin Hr. destruct (loop_within fuel 0 (SState stack ∅ ∅ [] ∅) (search env o f true [] fuel stack ∅)) as (st & E & HS & Hfin); [..|done|done|].
    - constructor; simpl; try by intros * ?%elem_of_empty.
      + intros c l Hl Hall. apply Hall in Hl. by apply elem_of_empty in Hl.
      + intros u Hu Hty. right. left. by apply Hin.
      + intros c. unfold pending_of. rewrite lookup_empty. simpl. f_equal. clear. set_solver.
    - constructor; simpl; [by intros * ?%elem_of_empty| |by intros ? ?%elem_of_nil].
      intros u Hu Hty. apply in_start; [by apply Hin|done].
    - by intros ? ?%elem_of_empty.
    - exists (st_found st). split; [done|]. split.
      + intros c Hc. destruct (w_good _ HS c Hc) as (H1 & _ & H2 & H3 & H4). done.
      + destruct Hfin as [[HW Es]|Hm]; [right|by left]. intros l e Hl Hno He Hcl.
        destruct (exercise_of_types env K e l He) as [_ Hll].
        apply (w_found _ HW l e); try done. destruct (reach_visited st l HW Es Hl) as [?|[Hc _]]; [done|].
        unfold is_course, is_lesson in *. congruence.
  Qed.
  End from.

  (** ** Searches that stay inside some courses *)
  Section inside.
    Context (ks : list uid).
    Notation inside l := (∃ c, lesson_of env l c ∧ c ∈ ks).
    Notation reach := (in_courses env f ks (maybe_leads env f)).
    Record CInv (st : sstate) : Prop := {
      v_first : ∀ c l, c ∈ ks → first_lesson env c l → l ∉ ks → l ∈ st_visited st ∨ l ∈ (st_stack st).*1;
      v_next : ∀ l v, l ∈ st_visited st → l ∉ ks → inside l → surely_leads env f l → depends_on g v l → unlocked env f v →
        inside v → v ∈ st_visited st ∨ v ∈ (st_stack st).*1;
      v_found : ∀ l e, l ∈ st_visited st → l ∉ ks → inside l → exercise_of env e l → clean env e → ¬ passed_over env f l → tended (st_found st) l }.
    Record CSound (st : sstate) : Prop := {
      v_ks : ∀ u, u ∈ ks → u ∈ st_visited st;
      v_stack : ∀ u, u ∈ (st_stack st).*1 → u ∉ ks → inside u → reach u;
      v_good : ∀ c, c ∈ st_found st → reach (lesson_id c) ∧ good (lesson_id c) c }.

    Lemma step_inside i it st stack : st_stack st = it :: stack → CInv st → CSound st → PProg env st →
      match search_step env o f false ks i it (SState stack (st_visited st) (st_pending st) (st_found st) (st_progress st)) with
      | Next st' => CInv st' ∧ CSound st' ∧ PProg env st'
      | Stop st' => CSound st' ∧ max_candidates env ≤ length (st_found st')
      | Fail => False
      end.
    Proof using K Ho A N F NN NM NB.
      intros Es [W1 W2 W3] [X1 X2 X3] HP. destruct st as [stk V pend found prog]. simpl in *. subst stk.
      rewrite fmap_cons in *. set (u := it.1) in *. set (Z := stack.*1) in *.
      assert (HPs : ∀ s v q, PProg env (SState s v q found prog)) by done.
      unfold search_step. simpl. fold u.
      assert (Hdrop : u ∈ V ∨ ¬ is_lesson env u → CInv (SState stack V pend found prog) ∧ CSound (SState stack V pend found prog)).
      { intros Hu. assert (Hel : ∀ x, x ∈ V ∨ x ∈ u :: Z → x ∈ V ∨ x ∈ Z ∨ ¬ is_lesson env x).
        { intros x [?|Hin]; [by left|]. apply elem_of_cons in Hin as [->|?]; [|by right; left]. destruct Hu; auto. }
        split; [|constructor; simpl; fold Z; [done| |done]; intros x Hx; apply X2; by right].
        constructor; simpl; fold Z; [| |done].
        - intros c l Hc Hl Hn. destruct (Hel l (W1 c l Hc Hl Hn)) as [?|[?|Hx]]; [by left|by right|].
          destruct Hx. by apply (lesson_of_types env K l c), Hl.
        - intros l v Hl Hn Hi Hs Hd Hu' (c & Hv & Hc). destruct (Hel v (W2 l v Hl Hn Hi Hs Hd Hu' (ex_intro _ c (conj Hv Hc)))) as [?|[?|Hx]]; [by left|by right|].
          destruct Hx. by apply (lesson_of_types env K v c). }
      destruct (bool_decide_reflect (u ∈ V)) as [Hv|Hv]; [destruct Hdrop; auto|].
      assert (Hks : u ∉ ks) by auto.
      destruct (get_unit_type g u) as [[]|] eqn:Et.
      1,3,4: destruct Hdrop; [right; unfold is_lesson; rewrite Et; done|auto].
      unfold lesson_step. fold u. simpl. pose proof (lesson_has_course env K u Et) as Hlc.
      assert (HV : ∀ x, x ∈ V → x ∈ {[u]} ∪ V) by (clear; set_solver).
      assert (HVS : ∀ x (Z' : list uid), (∀ y, y ∈ Z → y ∈ Z') → x ∈ V ∨ x ∈ u :: Z → x ∈ {[u]} ∪ V ∨ x ∈ Z').
      { intros x Z' HZ [?|Hin]; [left; auto|]. apply elem_of_cons in Hin as [->|?]; [left; clear; set_solver|right; auto]. }
      destruct (existsb (String.eqb (lesson_course env u)) ks) eqn:Eal.
      2: { (* a lesson of another course *)
        assert (Hni : ¬ inside u).
        { intros (c & Hc & Hin). unfold lesson_of in *. rewrite Hlc in Hc. injection Hc as <-.
          apply not_true_iff_false in Eal. apply Eal, existsb_exists. exists (lesson_course env u). split; [by apply elem_of_list_In|apply String.eqb_refl]. }
        assert (Hne : ∀ l, inside l → l ∈ {[u]} ∪ V → l ∈ V).
        { intros l Hl [Hlu%elem_of_singleton|?]%elem_of_union; [by subst|done]. }
        split; [|split; [|done]].
        - constructor; simpl; fold Z.
          + intros c l Hc Hl Hn. apply HVS; [done|]. by eapply W1.
          + intros l v Hl Hn Hi Hs Hd Hu Hiv. apply HVS; [done|]. apply (W2 l v); auto.
          + intros l e Hl Hn Hi. apply W3; auto.
        - constructor; simpl; fold Z; [auto| |done]. intros x Hx. apply X2. by right. }
      apply existsb_exists in Eal as (k & Hk & Ek). apply String.eqb_eq in Ek. subst k. apply elem_of_list_In in Hk.
      assert (Hin : inside u) by by exists (lesson_course env u).
      assert (Hu : reach u) by (apply X2; [by left|done|done]).
      match goal with |- match ?x with _ => _ end => change x with (lesson_visit env o f i it (SState stack ({[u]} ∪ V) pend found prog)) end.
      destruct (visit_within i it (SState stack ({[u]} ∪ V) pend found prog) Et (HPs _ _ _))
        as (st1 & Q1 & Q2 & Q3 & QP & (more & Q4 & Q5) & Q6 & Q7). fold u in Q5, Q6, Q7. simpl in Q1, Q2, Q3, Q4.
      assert (XG : ∀ c', c' ∈ found ++ more → reach (lesson_id c') ∧ good (lesson_id c') c').
      { intros c' [Hc'|Hc']%elem_of_app; [auto|]. destruct (Q5 c' Hc') as (E & R). rewrite E. done. }
      assert (Main : ∀ Z', (∀ x, x ∈ Z → x ∈ Z'.*1) → (∀ x, x ∈ Z'.*1 → x ∉ ks → inside x → reach x) →
        (∀ v, surely_leads env f u → depends_on g v u → unlocked env f v → v ∈ Z'.*1) →
        CInv (SState Z' (st_visited st1) (st_pending st1) (st_found st1) (st_progress st1)) ∧
        CSound (SState Z' (st_visited st1) (st_pending st1) (st_found st1) (st_progress st1))).
      { intros Z' HZ1 HZ2 HZ3. rewrite Q2, Q4. split; [|constructor; simpl; auto].
        constructor; simpl.
        - intros c l Hc Hl Hn. apply HVS; [done|]. by eapply W1.
        - intros l v [Hl%elem_of_singleton|Hl]%elem_of_union Hn Hi Hs Hd Hu' Hiv; [subst l; right; auto|]. apply HVS; [done|]. by apply (W2 l v).
        - intros l e [Hl%elem_of_singleton|Hl]%elem_of_union Hn Hi He Hcl Hno; [subst l; rewrite <-Q4; by eapply Q6|].
          apply tended_app. by apply (W3 l e). }
      destruct Q7 as [[-> Hlead]|[[-> Hlead]|[-> Hmax]]].
      - rewrite Q1. destruct (Main (push_units o (2 * i) it (valid_dependents env (o_set o i) f u) stack)) as [M1 M2].
        + intros x Hx. apply push_elem. by right.
        + intros x Hx Hn Hi. apply push_elem in Hx as [Hx|Hx]; [|apply X2; [by right|done|done]].
          apply dependents_unlocked in Hx as [Hd Hx]. destruct Hi as (c & Hc & Hck). by apply (inside_next env f ks (maybe_leads env f) u x c).
        + intros v _ Hd Hr. apply push_elem. left. by apply dependents_unlocked.
        + split; [exact M1|]. split; [exact M2|exact QP].
      - rewrite Q1. destruct (Main (o_stack o (Datatypes.S i) stack)) as [M1 M2].
        + intros x Hx. by rewrite (o_stack_ok o Ho).
        + intros x Hx Hn Hi. rewrite (o_stack_ok o Ho) in Hx. apply X2; [by right|done|done].
        + intros v Hs. done.
        + split; [exact M1|]. split; [exact M2|exact QP].
      - split; [|done]. constructor; [rewrite Q2|rewrite Q1|rewrite Q4]; auto. intros x Hx. apply X2. by right.
    Qed.
    Lemma loop_inside fuel : ∀ i st r, CInv st → CSound st → PProg env st → search_loop env o f false ks fuel i st = r → r ≠ NoFuel →
      ∃ st', r = Found (st_found st') ∧ CSound st' ∧ (CInv st' ∧ st_stack st' = [] ∨ max_candidates env ≤ length (st_found st')).
    Proof using K Ho A N F NN NM NB.
      induction fuel as [|fuel IH]; intros i st r HW HS HP; cbn [search_loop]; [by intros <-|].
      destruct (st_stack st) as [|it stack] eqn:Es; [intros <- _; exists st; auto|].
      pose proof (step_inside i it st stack Es HW HS HP) as H.
      destruct (search_step _ _ _ _ _ _ _ _) as [st'|st'|]; [|intros <- _; exists st'; destruct H; auto|done].
      destruct H as (H1 & H2 & H3). by apply IH.
    Qed.
    Lemma inside_visited st l : CInv st → st_stack st = [] → in_courses env f ks (surely_leads env f) l → l ∈ st_visited st ∧ l ∉ ks ∧ inside l.
    Proof using.
      intros [W1 W2 _] Es Hr. rewrite Es in *. simpl in *.
      assert (Hn : ∀ v, v ∈ st_visited st ∨ v ∈ @nil uid → v ∈ st_visited st) by (intros v [?|?%elem_of_nil]; done).
      induction Hr as [c l Hc Hl Hk|l v c Hl IH Hs Hd Hu Hv Hc Hk].
      - split; [by eapply Hn, W1|]. split; [done|]. exists c. split; [apply Hl|done].
      - destruct IH as (I1 & I2 & I3). assert (Hi : inside v) by by exists c. split; [|done]. by apply Hn, (W2 l v).
    Qed.
    Lemma search_inside fuel stack : (∀ l, l ∈ stack.*1 ↔ ∃ c, c ∈ ks ∧ first_lesson env c l) →
      search env o f false ks fuel stack (list_to_set ks) ≠ NoFuel →
      ∃ cs, search env o f false ks fuel stack (list_to_set ks) = Found cs ∧ found_inside env f ks cs.
    Proof using K Ho A N F NN NM NB.
      intros Hin Hr. destruct (loop_inside fuel 0 (SState stack (list_to_set ks) ∅ [] ∅) (search env o f false ks fuel stack (list_to_set ks))) as (st & E & HS & Hfin); [..|done|done|].
      - constructor; simpl.
        + intros c l Hc Hl Hn. right. apply Hin. eauto.
        + intros l v Hl Hn. by apply elem_of_list_to_set in Hl.
        + intros l e Hl Hn. by apply elem_of_list_to_set in Hl.
      - constructor; simpl; [intros u; apply elem_of_list_to_set| |by intros ? ?%elem_of_nil].
        intros u Hu Hn _. apply Hin in Hu as (c & Hc & Hl). by eapply inside_first.
      - by intros ? ?%elem_of_empty.
      - exists (st_found st). split; [done|]. split.
        + intros c Hc. destruct (v_good _ HS c Hc) as (H1 & _ & H2 & H3 & H4). done.
        + destruct Hfin as [[HW Es]|Hm]; [right|by left]. intros l e Hl Hno He Hcl.
          destruct (inside_visited st l HW Es Hl) as (V1 & V2 & V3). by apply (v_found _ HW l e).
    Qed.
  End inside.
End within.

Lemma begins_start env u : LibOK (s_lib env) → begins env u ↔ is_start env u ∧ (is_course env u ∨ is_lesson env u).
Proof.
  intros K. unfold begins, is_start, hidden_course, first_lesson_depends. split.
  - intros (H1 & H2 & H3).
    assert (Hty : is_course env u ∨ is_lesson env u) by (destruct H2 as [?|[d Hd]]; [by left|by apply (k_dep_type _ K u d)]).
    split; [|done]. destruct (decide (all_dependencies env u = ∅)) as [He|He].
    + assert (Hno : ∀ d, ¬ depends_on (s_graph env) u d).
      { intros d Hd. apply dependency_elem in Hd. rewrite He in Hd. by apply elem_of_empty in Hd. }
      right. split; [done|]. left. destruct H2 as [Hc|[d Hd]]; [|by destruct (Hno d)]. split; [done|]. intros Hf. by apply H3.
    + apply set_choose_L in He as (d & Hd). apply dependency_elem in Hd. left. eauto.
  - intros [[[[d Hd] H]|[Hn [[H1 H2]|[H1 _]]]] Hty].
    + split; [done|]. split; [eauto|]. intros (_ & Hno & _). by apply (Hno d).
    + split; [intros d Hd; by destruct (Hn d)|]. split; [by left|]. intros (_ & _ & H). done.
    + exfalso. unfold is_course, is_lesson in Hty. rewrite H1 in Hty. by destruct Hty.
Qed.


Section requests.
  Context (env : senv) (K : LibOK (s_lib env)) (os : nat → orders) (Ho : ∀ i, orders_ok (os i)) (A : answers_exercises env)
    (N : passing_numbers env) (F : fgt (min_fraction (passing_score (s_options env))) fzero = true)
    (NN : ∀ l x, lesson_score env l x → fis_nan x = false)
    (NM : ∀ u s, missing env u → s_score env u ≠ Some (Some s)) (NB : ""%string ∉ s_banned env).
  Definition comes (h : nat → sresult) (Q : list candidate → Prop) : Prop := ∃ cs n, (∀ m, n ≤ m → h m = Found cs) ∧ Q cs.

  Lemma everything_comes f : comes (λ m, from_everything env os m f) (found_from env f (starts env f)).
  Proof using K Ho A N F NN NM NB.
    destruct (from_everything_settles env K os Ho f) as (n & r & Hr & Hset).
    pose proof (Hset (2 + n) ltac:(lia)) as E. unfold from_everything in E.
    destruct (initial_stack_spec env K (os 0) f n (Ho 0)) as (stack & Hstack & Hin). rewrite Hstack in E.
    assert (Hready : ∀ l, all_satisfied env (o_set (os 0) 0) f l = true ↔ unlocked env f l).
    { intros l. apply (unlocked_iff env K NM NB). apply (o_set_ok _ (Ho 0)). }
    destruct (search_within env K (os 0) (Ho 0) A N F NN NM NB f (starts env f) (2 + n) stack) as (cs & Hs & HF).
    - intros u Hty. rewrite elem_of_list_fmap. split.
      + intros (it & -> & Hit). apply Hin in Hit as (_ & c & Hc & [[H1 H2]|[Hu H]]).
        * right. exists c. split; [|split; [done|by apply Hready]]. apply (begins_start env c K). split; [done|]. left. by apply (lesson_of_types env K it.1 c), H1.
        * rewrite Hu in *. left. split; [by apply (begins_start env c K)|]. intros l Hl Hul. apply H in Hl. apply Hready in Hul. congruence.
      + intros [[Hb H]|(c & Hb & Hl & Hu)]; (exists (u, 0); split; [done|]; apply Hin; split; [done|]).
        * exists u. split; [by apply (begins_start env u K)|]. right. split; [done|]. intros l Hl. apply not_true_iff_false. rewrite Hready. by apply H.
        * exists c. split; [by apply (begins_start env c K)|]. left. split; [done|by apply Hready].
    - unfold from_graph in E. rewrite E. done.
    - exists cs, n. split; [|done]. intros m Hm. rewrite Hset by done. unfold from_graph in E. congruence.
  Qed.
  Lemma graph_comes start stack : (∀ u, is_course env u ∨ is_lesson env u → u ∈ stack.*1 ↔ start u) →
    comes (λ m, from_graph env os m stack None) (found_from env None start).
  Proof using K Ho A N F NN NM NB.
    intros Hin. destruct (search_settles env (os 0) None true [] stack ∅ K (Ho 0)) as (n & r & Hr & Hset).
    destruct (search_within env K (os 0) (Ho 0) A N F NN NM NB None start n stack Hin) as (cs & Hs & HF).
    - rewrite (Hset n) by done. done.
    - exists cs, n. split; [|done]. intros m Hm. unfold from_graph. rewrite Hset by done. rewrite Hset in Hs by done. done.
  Qed.
  Lemma courses_come i ks : comes (λ m, from_courses env os m i ks) (found_inside env None ks).
  Proof using K Ho A N F NN NM NB.
    unfold from_courses. set (stack := rev _). destruct (search_settles env (os i) None false ks stack (list_to_set ks) K (Ho i)) as (n & r & Hr & Hset).
    destruct (search_inside env K (os i) (Ho i) A N F NN NM NB None ks n stack) as (cs & Hs & HF).
    - intros l. unfold stack. rewrite elem_of_list_fmap. setoid_rewrite elem_of_list_In. setoid_rewrite <-in_rev. setoid_rewrite <-elem_of_list_In.
      setoid_rewrite elem_of_list_join. split.
      + intros (it & -> & xs & Hit & Hxs). apply elem_of_list_fmap in Hxs as (c & -> & Hc). apply elem_of_list_fmap in Hit as (l & -> & Hl).
        exists c. split; [done|]. rewrite (o_set_ok _ (Ho i)), elem_of_elements in Hl. by apply (starting_elem env K) in Hl.
      + intros (c & Hc & Hl). exists (l, 0). split; [done|]. eexists. split; [|apply elem_of_list_fmap; exists c; split; [reflexivity|done]].
        apply elem_of_list_fmap. exists l. split; [done|]. rewrite (o_set_ok _ (Ho i)), elem_of_elements. by apply (starting_elem env K).
    - rewrite (Hset n) by done. done.
    - exists cs, n. split; [|done]. intros m Hm. rewrite Hset by done. rewrite Hset in Hs by done. done.
  Qed.
  Lemma lesson_comes i l : comes (λ _, from_lesson env os i l)
    (λ cs, (∀ c, c ∈ cs → lesson_id c = l ∧ in_place env c ∧ clean env (exercise_id c)) ∧ (∀ e, exercise_of env e l → clean env e → is_offered env cs l)).
  Proof using K Ho A N F NN.
    destruct (get_unit_type (s_graph env) l) as [[]|] eqn:Et.
    2: { destruct (candidates_of env K (os i) (Ho i) A N F NN 0 l 0 Et) as (cs & avg & E & Hin & Hne & Hsc & Hfull).
      exists cs, 0. unfold from_lesson. rewrite E. split; [done|]. split; [done|]. intros e He Hcl.
      specialize (Hne e He Hcl). split.
      - destruct cs as [|c cs]; [done|]. exists c. split; [left|]. apply Hin. left.
      - intros Hx. apply Hfull, Hx, Hsc, Hne. }
    all: assert (Hno : ∀ e, ¬ exercise_of env e l) by (intros e He; apply (exercise_of_types env K) in He as [_ He]; unfold is_lesson in He; congruence).
    all: exists [], 0; split; [|split; [by intros c ?%elem_of_nil|intros e He; by destruct (Hno e)]].
    all: intros m _; unfold from_lesson, lesson_candidates; cbn [fst snd].
    all: destruct (valid_exercises env (o_set (os i) 0) l) as [|e es] eqn:E; [done|exfalso].
    all: destruct (Hno e); apply (proj1 (proj2 (valid_open env K _ l (o_set_ok _ (Ho i) 0)) e)); rewrite E; left.
  Qed.

  (** Several searches in a row. *)
  Lemma collect_comes {X} (Q : X → list candidate → Prop) (us : list X) : ∀ h : nat → X → nat → sresult,
    (∀ i u, u ∈ us → comes (h i u) (Q u)) →
    comes (λ m, collect (imap (λ i u, h i u m) us)) (λ cs, ∃ parts, cs = mjoin parts ∧ Forall2 Q us parts).
  Proof using.
    induction us as [|u us IH]; intros h Hh.
    - exists [], 0. split; [done|]. exists []. split; [done|constructor].
    - destruct (Hh 0 u) as (a & n & Ha & HQ); [left|]. destruct (IH (λ i, h (S i))) as (b & n' & Hb & parts & -> & HF); [intros i v Hv; apply Hh; by right|].
      exists (a ++ mjoin parts), (n + n'). split; [|exists (a :: parts); split; [done|by constructor]].
      intros m Hm. rewrite imap_cons. cbn [collect]. rewrite Ha by lia.
      change (imap ((λ (i : nat) (u0 : X), h i u0 m) ∘ S) us) with (imap (λ i u0, h (S i) u0 m) us). by rewrite Hb by lia.
  Qed.
  Definition entry_right (u : uid) (cs : list candidate) : Prop :=
    (∀ c, c ∈ cs → in_place env c ∧ (exercise_id c = u ∨ lesson_id c = u ∨ course_id c = u)) ∧
    (∀ l, exercise_of env u l → u ∈ exercise_id <$> cs) ∧ (∀ e, exercise_of env e u → clean env e → is_offered env cs u) ∧
    (is_course env u → found_inside env None [u] cs).
  Lemma entry_comes i u : ¬ missing env u → comes (λ m, from_entry env os m i u) (entry_right u).
  Proof using K Ho A N F NN NM NB.
    intros Hm. unfold from_entry. destruct (get_unit_type (s_graph env) u) as [[]|] eqn:Et; [| | |done].
    - destruct (k_exercise _ K u Et) as [l Hl]. destruct (exercise_of_types env K u l Hl) as [_ Hll]. pose proof (lesson_has_course env K l Hll) as Hc.
      destruct (A u l Hl) as ([s Hs] & [y Hy] & [v Hv]). unfold from_exercise. change (get_exercise_lesson (s_graph env) u = Some l) in Hl. rewrite Hl. cbn [default]. unfold lesson_candidate.
      rewrite Hs. cbn [mbind option_bind]. rewrite Hy. cbn [mbind option_bind]. rewrite Hv. cbn [mbind option_bind].
      eexists [_], 0. split; [intros; reflexivity|]. split_and!.
      + intros c Hin. apply elem_of_list_singleton in Hin as ->. cbn [exercise_id]. split; [|by left]. split; [exact Hl|exact Hc].
      + intros l' _. cbn [fmap list_fmap exercise_id]. by apply elem_of_list_singleton.
      + intros e He. apply (exercise_of_types env K) in He as [_ He]. unfold is_lesson in He. congruence.
      + intros H. unfold is_course in H. congruence.
    - destruct (lesson_comes i u) as (cs & n & H & H1 & H2). exists cs, n. split; [done|]. split_and!.
      + intros c Hc. destruct (H1 c Hc) as (<- & ? & _). split; [done|]. right. by left.
      + intros l Hl. apply (exercise_of_types env K) in Hl as [Hl _]. congruence.
      + done.
      + intros H'. unfold is_course in H'. congruence.
    - destruct (courses_come i [u]) as (cs & n & H & HF). exists cs, n. split; [done|]. split_and!.
      + intros c Hc. destruct HF as [HF _]. destruct (HF c Hc) as (Hr & _ & Hp & _). split; [done|]. right. right.
        destruct Hp as [_ Hp]. assert (∃ c', c' ∈ [u] ∧ lesson_of env (lesson_id c) c') as (c' & ->%elem_of_list_singleton & Hc').
        { inversion Hr as [c' ? ? [? _] _|? ? c']; subst; eauto. }
        unfold lesson_of in *. congruence.
      + intros l Hl. apply (exercise_of_types env K) in Hl as [Hl _]. congruence.
      + intros e He. apply (exercise_of_types env K) in He as [_ He]. unfold is_lesson in He. congruence.
      + done.
  Qed.
  Lemma offered_more cs cs' l : (∀ c, c ∈ cs → c ∈ cs') → is_offered env cs l → is_offered env cs' l.
  Proof using.
    intros H [(c & Hc & Hl) H2]. split; [exists c; split; [by apply H|done]|]. intros Hx e He Hcl.
    destruct (proj1 (elem_of_list_fmap _ _ _) (H2 Hx e He Hcl)) as (c' & -> & Hc'). apply elem_of_list_fmap. exists c'. split; [done|by apply H].
  Qed.
  Lemma part_of {X} (Q : X → list candidate → Prop) us parts u : Forall2 Q us parts → u ∈ us → ∃ part, Q u part ∧ ∀ c, c ∈ part → c ∈ mjoin parts.
  Proof using.
    induction 1 as [|x p us ps H _ IH]; [by intros ?%elem_of_nil|]. intros Hin. cbn [mjoin list_join]. apply elem_of_cons in Hin as [->|Hin].
    - exists p. split; [done|]. intros c Hc. apply elem_of_app. by left.
    - destruct (IH Hin) as (part & H1 & H2). exists part. split; [done|]. intros c Hc. apply elem_of_app. right. by apply H2.
  Qed.
  Lemma in_part {X} (Q : X → list candidate → Prop) us parts c : Forall2 Q us parts → c ∈ mjoin parts → ∃ u part, u ∈ us ∧ Q u part ∧ c ∈ part.
  Proof using.
    induction 1 as [|x p us ps H _ IH]; cbn [mjoin list_join]; [by intros ?%elem_of_nil|]. intros [Hc|Hc]%elem_of_app.
    - exists x, p. split; [left|done].
    - destruct (IH Hc) as (u & part & ? & ?). exists u, part. split; [by right|done].
  Qed.
  Lemma start_at_elem us u : u ∈ (start_at us).*1 ↔ u ∈ us.
  Proof using.
    unfold start_at. rewrite elem_of_list_fmap. setoid_rewrite elem_of_list_In. setoid_rewrite <-in_rev. setoid_rewrite <-elem_of_list_In.
    split.
    - intros (it & -> & Hit). by apply elem_of_list_fmap in Hit as (x & -> & Hx).
    - intros Hu. exists (u, 0). split; [done|]. apply elem_of_list_fmap. by exists u.
  Qed.

  Lemma filter_comes uf : (uf = Some FReviewList → review_known env) → comes (λ m, unit_candidates env os m uf) (serves env uf).
  Proof using K Ho A N F NN NM NB.
    intros Hrev. destruct uf as [[ks|ls|kv| |us|us d]|]; cbn [unit_candidates serves].
    - apply courses_come.
    - destruct (collect_comes _ ls (λ i l _, from_lesson env os i l) (λ i l _, lesson_comes i l)) as (cs & n & H & parts & -> & HF).
      exists (mjoin parts), n. split; [done|]. split.
      + intros c Hc. apply (in_part _ _ _ _ HF) in Hc as (l & part & Hl & [H1 _] & Hc). destruct (H1 c Hc) as (-> & ? & ?). done.
      + intros l e Hl He Hcl. destruct (part_of _ _ _ _ HF Hl) as (part & [_ H2] & Hp). apply (offered_more part); [done|]. by eapply H2.
    - apply everything_comes.
    - destruct (collect_comes entry_right (s_review env) (λ i u m, from_entry env os m i u)) as (cs & n & H & parts & -> & HF).
      { intros i u Hu. apply entry_comes. by apply Hrev. }
      exists (mjoin parts), n. split; [done|]. split.
      + intros c Hc. apply (in_part _ _ _ _ HF) in Hc as (u & part & Hu & (H1 & _) & Hc). destruct (H1 c Hc) as (? & [E|[E|E]]); rewrite E; auto.
      + intros u Hu. destruct (part_of _ _ _ _ HF Hu) as (part & (_ & H2 & H3 & H4) & Hp). split_and!.
        * intros l Hl. destruct (proj1 (elem_of_list_fmap _ _ _) (H2 l Hl)) as (c' & -> & Hc'). apply elem_of_list_fmap. exists c'. split; [done|by apply Hp].
        * intros e He Hcl. apply (offered_more part); [done|]. by eapply H3.
        * intros Hc. exists part. split; [done|by apply H4].
    - apply graph_comes. intros u _. apply start_at_elem.
    - apply graph_comes. intros u Hty.
      rewrite elem_of_list_fmap. setoid_rewrite (o_stack_ok _ (Ho 1)). rewrite <-elem_of_list_fmap, start_at_elem, elem_of_list_join. split.
      + intros (xs & Hu & Hxs). apply elem_of_list_fmap in Hxs as (x & -> & Hx). apply depth_units in Hu as [Hu _]. eauto.
      + intros (x & Hx & Hb). eexists. split; [|apply elem_of_list_fmap; exists x; split; [reflexivity|done]]. apply depth_units. split; [done|].
        unfold is_course, is_lesson in Hty. destruct Hty as [-> | ->]; eauto.
    - apply everything_comes.
  Qed.
End requests.

Lemma offers_filter env os : opened (s_lib env) → (∀ i, orders_ok (os i)) →
  passing_numbers env → fgt (min_fraction (passing_score (s_options env))) fzero = true →
  answers_exercises env → (∀ l x, lesson_score env l x → fis_nan x = false) →
  (∀ u s, missing env u → s_score env u ≠ Some (Some s)) → ""%string ∉ s_banned env →
  ∀ uf, (uf = Some FReviewList → review_known env) →
  ∃ cs fuel, (∀ fuel', fuel ≤ fuel' → unit_candidates env os fuel' uf = Found cs) ∧ serves env uf cs.
Proof. intros Hop Ho N F A NN NM NB uf Hrev. apply filter_comes; try done. by apply opened_ok. Qed.

Lemma offers_reach env os : opened (s_lib env) → (∀ i, orders_ok (os i)) →
  passing_numbers env → fgt (min_fraction (passing_score (s_options env))) fzero = true →
  answers_exercises env → (∀ l x, lesson_score env l x → fis_nan x = false) →
  (∀ u s, missing env u → s_score env u ≠ Some (Some s)) → ""%string ∉ s_banned env →
  ∃ cs fuel, (∀ fuel', fuel ≤ fuel' → unit_candidates env os fuel' None = Found cs) ∧ found_from env None (starts env None) cs.
Proof. intros Hop Ho N F A NN NM NB. by apply (offers_filter env os Hop Ho N F A NN NM NB None). Qed.
