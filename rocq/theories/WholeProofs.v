(** All searches and whole batches. *)
From stdpp Require Import gmap strings list relations.
From Coq Require Import ZArith.
From Verif Require Import F32 Graph GraphSpec GraphProofs Library LibrarySpec LibraryQueries
  Filters Options OptionsSpec OptionsProofs Batch BatchSpec KnockProofs SelectProofs FinishProofs Search SearchSpec LibFacts ResolveProofs CandidateProofs
  SearchProofs StartProofs TermProofs ShareProofs CompleteProofs.
Local Open Scope list_scope.

Lemma collect_found rs cs : collect rs = Found cs → ∃ css, cs = mjoin css ∧ Forall2 (λ r a, r = Found a) rs css.
Proof.
  revert cs. induction rs as [|r rs IH]; intros cs; cbn [collect].
  - intros [= <-]. exists []. split; [done|constructor].
  - destruct r as [a| |]; [|done|done]. destruct (collect rs) as [b| |]; [|done|done]. intros [= <-].
    destruct (IH b eq_refl) as (css & -> & H). exists (a :: css). split; [done|]. by constructor.
Qed.
Lemma collect_elem rs cs c : collect rs = Found cs → c ∈ cs → ∃ i a, rs !! i = Some (Found a) ∧ c ∈ a.
Proof.
  intros H Hc. apply collect_found in H as (css & -> & H). apply elem_of_list_join in Hc as (a & Hc & Ha).
  apply elem_of_list_lookup in Ha as [i Hi]. destruct (Forall2_lookup_r _ _ _ _ _ H Hi) as (r & Hr & ->). eauto.
Qed.
Lemma imap_elem {A} (h : nat → A → sresult) (l : list A) cs c : collect (imap h l) = Found cs → c ∈ cs →
  ∃ i x a, l !! i = Some x ∧ h i x = Found a ∧ c ∈ a.
Proof.
  intros H Hc. destruct (collect_elem _ _ _ H Hc) as (i & a & Hi & Ha).
  rewrite list_lookup_imap in Hi. destruct (l !! i) as [x|] eqn:E; [|done]. injection Hi as Hi. eauto 10.
Qed.

(** The units at a depth. *)
Lemma below_depth env n u v : v ∈ dependencies_at env n u ↔ below env n u v.
Proof.
  revert u. induction n as [|n IH]; intros u; cbn [dependencies_at].
  - rewrite elem_of_list_singleton. split; [intros ->; constructor|by inversion 1].
  - destruct (get_dependencies (s_graph env) u) as [s|] eqn:E.
    + assert (Hd : ∀ d, depends_on (s_graph env) u d ↔ d ∈ s).
      { intros d. unfold depends_on, answers. rewrite E. naive_solver. }
      case_bool_decide as Hs.
      * subst s. rewrite elem_of_list_singleton. split; [intros ->; constructor; intros d Hx; by apply Hd, elem_of_empty in Hx|].
        inversion 1 as [|? ? Hn|? ? d ? Hx]; [done|]. by apply Hd, elem_of_empty in Hx.
      * rewrite elem_of_list_join. setoid_rewrite elem_of_list_fmap. split.
        -- intros (l & Hv & d & -> & Hx). apply (below_next env n u d v); [by apply Hd, elem_of_elements|by apply IH].
        -- inversion 1 as [|? ? Hn|? ? d ? Hx Hb]; subst.
           ++ apply set_choose_L in Hs as [d Hx]. exfalso. apply (Hn d). by apply Hd.
           ++ exists (dependencies_at env n d). split; [by apply IH|]. exists d. split; [done|]. by apply elem_of_elements, Hd.
    + assert (Hd : ∀ d, ¬ depends_on (s_graph env) u d).
      { intros d. unfold depends_on, answers. rewrite E. naive_solver. }
      rewrite elem_of_list_singleton. split; [intros ->; by constructor|].
      inversion 1 as [|? ? Hn|? ? d ? Hx]; [done|]. by apply Hd in Hx.
Qed.
Lemma depth_units env n u v : v ∈ dependencies_at_depth env n u ↔ below env n u v ∧ is_Some (get_unit_type (s_graph env) v).
Proof.
  unfold dependencies_at_depth. rewrite elem_of_list_In, filter_In, <-elem_of_list_In, bool_decide_eq_true, below_depth. done.
Qed.

Section whole.
  Context (env : senv) (K : LibOK (s_lib env)) (os : nat → orders) (Ho : ∀ i, orders_ok (os i)).

  Lemma from_lesson_found i l cs : from_lesson env os i l = Found cs →
    NoDup (exercise_id <$> cs) ∧ ∀ c, c ∈ cs → in_place env c ∧ scored_by env c ∧ clean env (exercise_id c) ∧ lesson_id c = l.
  Proof using K Ho.
    unfold from_lesson. destruct (lesson_candidates env (os i) 0 (l, 0)) as [[a s]|] eqn:E; [|done]. intros [= <-].
    destruct (lesson_candidates_spec env K _ _ _ _ _ (Ho i) E) as (H1 & H2 & _). split; [done|].
    intros c Hc. destruct (H2 c Hc) as (? & ? & ? & _ & ?). done.
  Qed.
  Lemma from_courses_found fuel i us cs : from_courses env os fuel i us = Found cs →
    NoDup (exercise_id <$> cs) ∧ in_progress_at_most env (max_lessons_in_progress (s_options env)) cs ∧
    ∀ c, c ∈ cs → in_place env c ∧ scored_by env c ∧ clean env (exercise_id c) ∧ course_id c ∈ us.
  Proof using K Ho.
    unfold from_courses. intros H. eapply (search_found env K (os i) (Ho i) None false us (λ _, True)) in H; try done.
    destruct H as (H1 & H2 & H3). split; [done|]. split; [exact H3|]. intros c Hc.
    destruct (H1 c Hc) as (? & ? & ? & _ & _ & _ & _ & Ha). auto.
  Qed.
  Lemma from_graph_found fuel stack cs (start : uid → Prop) : ""%string ∉ s_banned env → (∀ it, it ∈ stack → start it.1) →
    from_graph env os fuel stack None = Found cs →
    NoDup (exercise_id <$> cs) ∧ in_progress_at_most env (max_lessons_in_progress (s_options env)) cs ∧
    ∀ c, c ∈ cs → in_place env c ∧ scored_by env c ∧ clean env (exercise_id c) ∧ reachable env None start (lesson_id c).
  Proof using K Ho.
    intros Hb Hs H. unfold from_graph in H.
    apply (graph_search_found env K (os 0) (Ho 0) None start Hb) in H as (H1 & H2 & H3).
    - split; [done|]. split; [exact H3|]. intros c Hc. destruct (H1 c Hc) as (Hp & ? & ? & Hr & _). split_and!; try done.
      apply Hr. right. destruct Hp as [_ Hp]. by apply (lesson_of_types env K _ _ Hp).
    - intros it Hit Hty. by apply reach_start; [apply Hs|].
  Qed.
  (** The same without what depends on the blacklist having no blank entry. *)
  Lemma from_graph_basic fuel stack f cs : from_graph env os fuel stack f = Found cs →
    NoDup (exercise_id <$> cs) ∧ in_progress_at_most env (max_lessons_in_progress (s_options env)) cs ∧
    ∀ c, c ∈ cs → in_place env c ∧ scored_by env c ∧ clean env (exercise_id c) ∧ lets_through env f (lesson_id c).
  Proof using K Ho.
    unfold from_graph. intros H. eapply (search_found env K (os 0) (Ho 0) f true [] (λ _, True)) in H; try done.
    destruct H as (H1 & H2 & H3). split; [done|]. split; [exact H3|]. intros c Hc.
    destruct (H1 c Hc) as (? & ? & ? & _ & ? & _). auto.
  Qed.
  Lemma from_exercise_found e cs : get_unit_type (s_graph env) e = Some Exercise → from_exercise env e = Found cs →
    ∀ c, c ∈ cs → in_place env c ∧ scored_by env c ∧ exercise_id c = e.
  Proof using K.
    intros He. unfold from_exercise. cbv zeta.
    destruct (lesson_candidate _ _ _ _ _) as [x|] eqn:E; [|done]. intros [= <-] c Hc%elem_of_list_singleton. subst c. simpl.
    apply candidate_fields in E as (E1 & E2 & E3 & _ & E4).
    split; [|split; [|done]]; [|unfold scored_by; simpl; by rewrite E1]. unfold in_place. simpl. rewrite E1, E2, E3.
    destruct (k_exercise _ K e He) as [l Hl]. fold (s_graph env) in Hl. rewrite Hl. simpl. split; [done|].
    apply lesson_has_course; [done|]. by apply (exercise_of_types env K e).
  Qed.

  (** Candidates are where they claim to be, and not blacklisted. *)
  Lemma candidates_in_place fuel f cs c : unit_candidates env os fuel f = Found cs → c ∈ cs → in_place env c ∧ scored_by env c.
  Proof using K Ho.
    destruct f as [[us|ls|kv| |us|us d]|]; cbn [unit_candidates]; intros H Hc.
    - destruct (from_courses_found _ _ _ _ H) as (_ & _ & H'). destruct (H' c) as (? & ? & _); auto.
    - destruct (imap_elem _ _ _ _ H Hc) as (i & l & a & _ & Ha & Hca). destruct (from_lesson_found _ _ _ Ha) as [_ H']. destruct (H' c) as (? & ? & _); auto.
    - unfold from_everything in H. destruct (initial_stack _ _ _ _); [|done].
      destruct (from_graph_basic _ _ _ _ H) as (_ & _ & H'). destruct (H' c) as (? & ? & _); auto.
    - destruct (imap_elem _ _ _ _ H Hc) as (i & u & a & _ & Ha & Hca). unfold from_entry in Ha.
      destruct (get_unit_type _ u) as [[]|] eqn:Et; [| | |done].
      + destruct (from_exercise_found _ _ Et Ha c) as (? & ? & _); auto.
      + destruct (from_lesson_found _ _ _ Ha) as [_ H']. destruct (H' c) as (? & ? & _); auto.
      + destruct (from_courses_found _ _ _ _ Ha) as (_ & _ & H'). destruct (H' c) as (? & ? & _); auto.
    - destruct (from_graph_basic _ _ _ _ H) as (_ & _ & H'). destruct (H' c) as (? & ? & _); auto.
    - destruct (from_graph_basic _ _ _ _ H) as (_ & _ & H'). destruct (H' c) as (? & ? & _); auto.
    - unfold from_everything in H. destruct (initial_stack _ _ _ _); [|done].
      destruct (from_graph_basic _ _ _ _ H) as (_ & _ & H'). destruct (H' c) as (? & ? & _); auto.
  Qed.
  Lemma candidates_clean fuel f cs c : unit_candidates env os fuel f = Found cs → f ≠ Some FReviewList → c ∈ cs →
    clean env (exercise_id c).
  Proof using K Ho.
    destruct f as [[us|ls|kv| |us|us d]|]; cbn [unit_candidates]; intros H Hf Hc.
    - destruct (from_courses_found _ _ _ _ H) as (_ & _ & H'). by apply H'.
    - destruct (imap_elem _ _ _ _ H Hc) as (i & l & a & _ & Ha & Hca). destruct (from_lesson_found _ _ _ Ha) as [_ H']. by apply H'.
    - unfold from_everything in H. destruct (initial_stack _ _ _ _); [|done].
      destruct (from_graph_basic _ _ _ _ H) as (_ & _ & H'). by apply H'.
    - done.
    - destruct (from_graph_basic _ _ _ _ H) as (_ & _ & H'). by apply H'.
    - destruct (from_graph_basic _ _ _ _ H) as (_ & _ & H'). by apply H'.
    - unfold from_everything in H. destruct (initial_stack _ _ _ _); [|done].
      destruct (from_graph_basic _ _ _ _ H) as (_ & _ & H'). by apply H'.
  Qed.
  (** The candidates of the review list are clean unless their exercise is itself an entry. *)
  Lemma review_clean fuel cs c : unit_candidates env os fuel (Some FReviewList) = Found cs → c ∈ cs →
    exercise_id c ∈ s_review env ∨ clean env (exercise_id c).
  Proof using K Ho.
    cbn [unit_candidates]. intros H Hc. destruct (imap_elem _ _ _ _ H Hc) as (i & u & a & Hi & Ha & Hca). unfold from_entry in Ha.
    apply elem_of_list_lookup_2 in Hi.
    destruct (get_unit_type _ u) as [[]|] eqn:Et; [| | |done].
    - left. by destruct (from_exercise_found _ _ Et Ha c Hca) as (_ & _ & ->).
    - right. destruct (from_lesson_found _ _ _ Ha) as [_ H']. by apply H'.
    - right. destruct (from_courses_found _ _ _ _ Ha) as (_ & _ & H'). by apply H'.
  Qed.
  Lemma candidates_once fuel f cs : unit_candidates env os fuel f = Found cs → lists_once f → NoDup (exercise_id <$> cs).
  Proof using K Ho.
    destruct f as [[us|ls|kv| |us|us d]|]; cbn [unit_candidates lists_once]; intros H Hf.
    - by apply from_courses_found in H as (? & ? & _).
    - apply collect_found in H as (css & -> & H).
      assert (Hall : ∀ j, NoDup ls → Forall2 (λ r a, r = Found a) (imap (λ i, from_lesson env os (j + i)) ls) css → NoDup (exercise_id <$> mjoin css)).
      { clear H Hf. revert css. induction ls as [|l ls IH]; intros css j Hnd H; [inversion H; constructor|].
        rewrite imap_cons in H. inversion H as [|x a xs css' Ha Hrest]; subst. apply NoDup_cons in Hnd as [Hnl Hnd].
        change (mjoin (a :: css')) with (a ++ mjoin css'). rewrite fmap_app. apply NoDup_app.
        destruct (from_lesson_found _ _ _ Ha) as [N1 P1].
        assert (Hrest' : Forall2 (λ r a, r = Found a) (imap (λ i, from_lesson env os (S j + i)) ls) css').
        { erewrite imap_ext; [exact Hrest|]. intros i x _. simpl. f_equal. lia. }
        split_and!; [done| |by eapply IH].
        intros e He He'. apply elem_of_list_fmap in He as (c & -> & Hc), He' as (c' & Heq & Hc').
        destruct (P1 c Hc) as (Hp & _ & _ & Hl).
        apply elem_of_list_join in Hc' as (b & Hc' & Hb). apply elem_of_list_lookup in Hb as [k Hk].
        destruct (Forall2_lookup_r _ _ _ _ _ Hrest' Hk) as (r & Hr & ->).
        rewrite list_lookup_imap in Hr. destruct (ls !! k) as [l'|] eqn:El; [|done]. injection Hr as Hr.
        destruct (from_lesson_found _ _ _ Hr) as [_ P2]. destruct (P2 c' Hc') as (Hp' & _ & _ & Hl').
        destruct Hp as [Hp _], Hp' as [Hp' _]. unfold exercise_of in *. rewrite Heq, Hp' in Hp. injection Hp as Hp.
        apply Hnl. apply elem_of_list_lookup_2 in El. congruence. }
      apply (Hall 0 Hf). exact H.
    - unfold from_everything in H. destruct (initial_stack _ _ _ _); [|done]. by apply from_graph_basic in H as (? & ? & _).
    - done.
    - by apply from_graph_basic in H as (? & ? & _).
    - by apply from_graph_basic in H as (? & ? & _).
    - unfold from_everything in H. destruct (initial_stack _ _ _ _); [|done]. by apply from_graph_basic in H as (? & ? & _).
  Qed.
  Lemma candidates_limited fuel f cs : unit_candidates env os fuel f = Found cs → one_search f →
    in_progress_at_most env (max_lessons_in_progress (s_options env)) cs.
  Proof using K Ho.
    destruct f as [[us|ls|kv| |us|us d]|]; cbn [unit_candidates one_search]; intros H Hf; try done.
    - by apply from_courses_found in H as (? & ? & _).
    - unfold from_everything in H. destruct (initial_stack _ _ _ _); [|done]. by apply from_graph_basic in H as (? & ? & _).
    - by apply from_graph_basic in H as (? & ? & _).
    - by apply from_graph_basic in H as (? & ? & _).
    - unfold from_everything in H. destruct (initial_stack _ _ _ _); [|done]. by apply from_graph_basic in H as (? & ? & _).
  Qed.
  Lemma candidates_asked fuel f cs c : ""%string ∉ s_banned env → unit_candidates env os fuel f = Found cs → c ∈ cs →
    asked_for env f c.
  Proof using K Ho.
    intros Hb. destruct f as [[us|ls|kv| |us|us d]|]; cbn [unit_candidates asked_for]; intros H Hc.
    - destruct (from_courses_found _ _ _ _ H) as (_ & _ & H'). by apply H'.
    - destruct (imap_elem _ _ _ _ H Hc) as (i & l & a & Hi & Ha & Hca). destruct (from_lesson_found _ _ _ Ha) as [_ H'].
      destruct (H' c Hca) as (_ & _ & _ & ->). by eapply elem_of_list_lookup_2.
    - apply everything_found in H as (H & _ & _); try done. destruct (H c Hc) as ((_ & Hp) & _ & _ & Hr & Hl & _). split; [done|].
      apply Hr. right. by apply (lesson_of_types env K _ _ Hp).
    - destruct (imap_elem _ _ _ _ H Hc) as (i & u & a & Hi & Ha & Hca). unfold from_entry in Ha.
      apply elem_of_list_lookup_2 in Hi.
      destruct (get_unit_type _ u) as [[]|] eqn:Et; [| | |done].
      + left. by destruct (from_exercise_found _ _ Et Ha c Hca) as (_ & _ & ->).
      + right. left. destruct (from_lesson_found _ _ _ Ha) as [_ H']. by destruct (H' c Hca) as (_ & _ & _ & ->).
      + right. right. destruct (from_courses_found _ _ _ _ Ha) as (_ & _ & H'). destruct (H' c Hca) as (_ & _ & _ & Hin).
        apply elem_of_list_singleton in Hin as ->. done.
    - eapply from_graph_found in H as (_ & _ & H'); [by apply H'|done|].
      intros it Hit. unfold start_at in Hit. rewrite elem_of_reverse || apply elem_of_list_In, in_rev, elem_of_list_In in Hit.
      by apply elem_of_list_fmap in Hit as (u & -> & Hu).
    - eapply from_graph_found in H as (_ & _ & H'); [by apply H'|done|].
      intros it Hit. rewrite (o_stack_ok _ (Ho 1)) in Hit. unfold start_at in Hit. apply elem_of_list_In, in_rev, elem_of_list_In in Hit.
      apply elem_of_list_fmap in Hit as (u & -> & Hu). apply elem_of_list_join in Hu as (l & Hu & Hl).
      apply elem_of_list_fmap in Hl as (x & -> & Hx). exists x. by apply depth_units in Hu.
    - apply everything_found in H as (H & _ & _); try done. destruct (H c Hc) as ((_ & Hp) & _ & _ & Hr & Hl & _).
      apply Hr. right. by apply (lesson_of_types env K _ _ Hp).
  Qed.
  (** An unfiltered or metadata-filtered search offers only unlocked lessons. *)
  Lemma candidates_unlocked fuel f cs c : ""%string ∉ s_banned env → from_everything env os fuel f = Found cs → c ∈ cs →
    reachable env f (starting_unit env) (lesson_id c) ∧ unlocked env f (lesson_id c).
  Proof using K Ho.
    intros Hb H Hc. apply everything_found in H as (H & _ & _); try done. destruct (H c Hc) as ((_ & Hp) & _ & _ & Hr & _).
    assert (Hl : is_lesson env (lesson_id c)) by by apply (lesson_of_types env K _ _ Hp).
    assert (Hre : reachable env f (starting_unit env) (lesson_id c)) by (apply Hr; by right).
    split; [done|]. eapply reachable_unlocked; [done| |done|exact Hre]. intros u [Hu _]. by apply missing_unlocked.
  Qed.

  (** ** Errors *)
  Lemma search_never_fails o f courses allowed (A : answers_exercises env) (Hok : orders_ok o) : ∀ fuel i st,
    search_loop env o f courses allowed fuel i st ≠ Failed.
  Proof using K.
    assert (HL : ∀ i l d, lesson_candidates env o i (l, d) ≠ None).
    { intros i l d. unfold lesson_candidates. cbn [fst snd]. destruct (valid_exercises env (o_set o i) l) as [|e es] eqn:E; [done|].
      assert (is_Some (mapM (lesson_candidate env l (lesson_course env l) d) (e :: es))) as [r ->]; [|done].
      apply mapM_is_Some. rewrite <-E. apply Forall_forall. intros x Hx.
      apply (valid_open env K _ l (o_set_ok o Hok i)) in Hx as [Hx _]. destruct (A x l Hx) as ([s Hs] & [u Hu] & [v Hv]).
      change (is_Some (lesson_candidate env l (lesson_course env l) d x)).
      unfold lesson_candidate. rewrite Hs. cbn [mbind option_bind]. rewrite Hu. cbn [mbind option_bind]. rewrite Hv. eauto. }
    assert (HV : ∀ i it st, lesson_visit env o f i it st ≠ Fail).
    { intros i [l d] st. unfold lesson_visit. cbv zeta. destruct (skip_lesson _ _ _); [done|].
      destruct (lesson_candidates env o i (l, d)) as [[cs avg]|] eqn:E; [|by destruct (HL i l d)].
      destruct (passes_threshold _ _ _); [done|]. by destruct (Nat.leb _ _). }
    induction fuel as [|fuel IH]; intros i st; cbn [search_loop]; [done|].
    destruct (st_stack st) as [|it stack]; [done|].
    destruct (search_step _ _ _ _ _ _ _ _) eqn:E; [apply IH|done|]. exfalso. revert E. unfold search_step.
    destruct (bool_decide _); [done|]. destruct (get_unit_type _ _) as [[]|] eqn:Et; [done| |destruct courses; [|done]|done].
    - unfold lesson_step. cbv zeta. destruct courses.
      + pose proof (lesson_has_course env K it.1 Et) as Hl. unfold lesson_of in Hl. rewrite Hl. apply HV.
      + destruct (existsb _ _); [apply HV|done].
    - unfold course_step. cbv zeta. by destruct (skip_course _ _ _ _).
  Qed.
  Lemma from_lesson_never_fails i l : answers_exercises env → from_lesson env os i l ≠ Failed.
  Proof using K Ho.
    intros A. unfold from_lesson. unfold lesson_candidates. cbn [fst snd]. destruct (valid_exercises env (o_set (os i) 0) l) as [|e es] eqn:E; [done|].
    assert (is_Some (mapM (lesson_candidate env l (lesson_course env l) 0) (e :: es))) as [r ->]; [|done].
    apply mapM_is_Some. rewrite <-E. apply Forall_forall. intros x Hx.
    apply (valid_open env K _ l (o_set_ok _ (Ho i) 0)) in Hx as [Hx _]. destruct (A x l Hx) as ([s Hs] & [u Hu] & [v Hv]).
    change (is_Some (lesson_candidate env l (lesson_course env l) 0 x)).
    unfold lesson_candidate. rewrite Hs. cbn [mbind option_bind]. rewrite Hu. cbn [mbind option_bind]. rewrite Hv. eauto.
  Qed.
  Lemma collect_not_failed rs : (∀ r, r ∈ rs → r ≠ Failed) → collect rs ≠ Failed.
  Proof using.
    induction rs as [|r rs IH]; intros H; cbn [collect]; [done|].
    pose proof (H r ltac:(left)) as Hr. specialize (IH (λ x Hx, H x (elem_of_list_further _ _ _ Hx))).
    destruct r; [|done|done]. by destruct (collect rs).
  Qed.
  Lemma candidates_never_fail fuel f : answers_exercises env → (f = Some FReviewList → review_known env) →
    unit_candidates env os fuel f ≠ Failed.
  Proof using K Ho.
    intros A Hrev. 
    assert (HE : ∀ f, from_everything env os fuel f ≠ Failed).
    { intros f'. unfold from_everything. destruct (initial_stack _ _ _ _); [|done]. by apply search_never_fails. }
    destruct f as [[us|ls|kv| |us|us d]|]; cbn [unit_candidates]; try apply HE; try by apply search_never_fails.
    - apply collect_not_failed. intros r Hr. apply elem_of_lookup_imap in Hr as (i & y & -> & _). by apply from_lesson_never_fails.
    - apply collect_not_failed. intros r Hr. apply elem_of_lookup_imap in Hr as (i & y & -> & Hy).
      apply elem_of_list_lookup_2 in Hy. unfold from_entry.
      destruct (get_unit_type (s_graph env) y) as [[]|] eqn:Et.
      + unfold from_exercise. cbv zeta. destruct (k_exercise _ K y Et) as [l Hl]. destruct (A y l Hl) as ([s Hs] & [u Hu] & [v Hv]).
        unfold lesson_candidate. rewrite Hs. cbn [mbind option_bind]. rewrite Hu. cbn [mbind option_bind]. by rewrite Hv.
      + by apply from_lesson_never_fails.
      + by apply search_never_fails.
      + by destruct (Hrev eq_refl y Hy).
  Qed.
End whole.

(** ** Batches *)
Lemma finish_members m r e o rate pile cs batch x : choices_ok r →
  finish_candidates m r e o rate pile cs = Some batch → x ∈ exercise_id <$> batch →
  x ∈ exercise_id <$> cs ∨ x ∈ pile.
Proof.
  intros Hr H Hx. destruct (finish_split _ _ _ _ _ _ _ _ Hr H) as (k & final & extra & Ek & Ef & Hp & He1 & He2 & _).
  assert (∃ cs', Forall2 same_candidate cs cs' ∧ ko_candidates k `sublist_of` cs' ∧ ko_highly k `sublist_of` ko_candidates k) as (cs' & Hs & Hsub & Hhi).
  { revert Ek. unfold knock_out_reviews.
    destruct (walk_all (ed_down e) _ _ _) as [down|]; simpl; [|done].
    destruct (walk_all (ed_up e) _ _ _) as [up|]; simpl; [|done]. intros [= <-].
    set (under := exercise_weights (weight_map down) cs). set (over := exercise_weights (weight_map up) cs).
    exists (set_weights over under <$> cs). cbn [ko_candidates ko_highly]. split; [|split; apply sublist_List_filter].
    apply Forall2_fmap_r. apply Forall_Forall2_diag. apply Forall_true. intros c. apply set_weights_same. }
  rewrite Hp, fmap_app, bare_ids in Hx. apply elem_of_app in Hx as [Hx|Hx]; [left|right; by apply He2].
  apply elem_of_list_fmap in Hx as (c & -> & Hc).
  destruct (filter_spec m r (oc_filter o) rate k Hr) as (f & Ef' & Hin & _). rewrite Ef in Ef'. injection Ef' as <-.
  rewrite (same_ids _ _ Hs). apply elem_of_list_fmap_1.
  eapply elem_of_submseteq in Hc; [|exact Hin]. apply pool_incl in Hc; [|done].
  eapply elem_of_submseteq; [exact Hc|by apply sublist_submseteq].
Qed.
Lemma graph_weights g e : GInv g → edges_of g e → weights_ok e.
Proof.
  intros I (Hd & _) u l v w Hu Hin. specialize (Hd u). rewrite Hu in Hd.
  inversion Hd as [l' ? Hp E|]; subst. rewrite <-Hp in Hin. symmetry in E. unfold get_encompasses in E. case_decide.
  - destruct (get_dependencies g u); simpl in E; [|done]. injection E as <-.
    apply elem_of_list_fmap in Hin as (d & [= _ ->] & _). apply f_1_unit.
  - eapply (i_enc_w _ I u v w). unfold vget. by rewrite E.
Qed.

Section batches.
  Context (env : senv) (K : LibOK (s_lib env)) (m : libm) (r : choices) (Hr : choices_ok r) (e : edges) (oc : option_copies)
    (rate : f32) (pile : gset uid).

  Lemma batch_ids_of found es : finish_batch env m r e oc rate pile found = BatchOf es →
    ∃ cs batch, found = Found cs ∧ finish_candidates m r e oc rate (clean_pile (inside_blacklisted env) pile) cs = Some batch ∧
      em_id <$> es = exercise_id <$> batch.
  Proof using K.
    unfold finish_batch. destruct found as [cs| |]; try done. destruct (finish_candidates _ _ _ _ _ _ _) as [batch|] eqn:E; [|done].
    destruct (mapM _ batch) as [l|] eqn:Em; [|done]. intros [= <-]. exists cs, batch. split_and!; try done.
    apply mapM_Some_1 in Em. clear E. induction Em as [|c em batch l Hc _ IH]; [done|]. rewrite !fmap_cons, IH. f_equal.
    by apply (k_emap_id _ K).
  Qed.
  Lemma pile_clean x : x ∈ clean_pile (inside_blacklisted env) pile → x ∈ pile ∧ clean env x.
  Proof using.
    unfold clean_pile. rewrite elem_of_filter. intros [H Hx]. split; [done|]. unfold inside_blacklisted in H.
    rewrite !orb_false_iff in H. unfold banned in H. rewrite !bool_decide_eq_false in H. destruct H as (H1 & H2 & H3).
    split; [done|]. intros l Hl. unfold exercise_of in Hl. rewrite Hl in *. simpl in *. split; [done|]. intros c Hc.
    by rewrite (lesson_course_of env l c Hc) in H3.
  Qed.
  Lemma batch_member found es em : finish_batch env m r e oc rate pile found = BatchOf es → em ∈ es →
    ∃ cs, found = Found cs ∧ (em_id em ∈ exercise_id <$> cs ∨ (em_id em ∈ pile ∧ clean env (em_id em))).
  Proof using K Hr.
    intros H Hem. apply batch_ids_of in H as (cs & batch & -> & Hf & Hids). exists cs. split; [done|].
    assert (Hin : em_id em ∈ exercise_id <$> batch) by (rewrite <-Hids; by apply elem_of_list_fmap_1).
    destruct (finish_members _ _ _ _ _ _ _ _ _ Hr Hf Hin) as [?|?%pile_clean]; auto.
  Qed.
  Lemma batch_once cs es : edges_of (s_graph env) e → NoDup (exercise_id <$> cs) →
    (∀ c, c ∈ cs → length (windows_of (oc_filter oc) (exercise_score c)) ≤ 1) →
    finish_batch env m r e oc rate pile (Found cs) = BatchOf es → NoDup (em_id <$> es).
  Proof using K Hr.
    intros He Hnd Hw H. apply batch_ids_of in H as (cs' & batch & [= <-] & Hf & ->).
    eapply batch_nodup; [done| |done|done|done]. eapply graph_weights; [apply (k_inv _ K)|done].
  Qed.
  (** No errors: every candidate and every exercise of the pile has a manifest. *)
  Lemma batch_succeeds cs : edges_ok e → (∀ c, c ∈ cs → in_place env c) →
    (∀ x, x ∈ pile → get_unit_type (s_graph env) x = Some Exercise) →
    ∃ es, finish_batch env m r e oc rate pile (Found cs) = BatchOf es.
  Proof using K Hr.
    intros He Hcs Hpile. unfold finish_batch.
    destruct (batch_total m r e oc rate (clean_pile (inside_blacklisted env) pile) cs Hr He) as [batch Hb]. rewrite Hb.
    assert (is_Some (mapM (λ c, exercise_map (s_lib env) !! exercise_id c) batch)) as [es ->]; [|eauto].
    apply mapM_is_Some, Forall_forall. intros c Hc. apply (k_emap _ K).
    destruct (finish_members _ _ _ _ _ _ _ _ (exercise_id c) Hr Hb ltac:(by apply elem_of_list_fmap_1)) as [Hin|Hin].
    - apply elem_of_list_fmap in Hin as (c' & -> & Hc'). destruct (Hcs c' Hc') as [H' _]. by apply (exercise_of_types env K _ _ H').
    - apply pile_clean in Hin as [Hin _]. by apply Hpile.
  Qed.
End batches.

Lemma uses_candidates env os fuel checks time f cs : initial_candidates env os fuel checks time f = Found cs →
  ∃ uf, uses env checks time f uf ∧ unit_candidates env os fuel uf = Found cs.
Proof.
  unfold initial_candidates, uses. destruct f as [[f|s]|]; [intros H; by exists (Some f)| |intros H; by exists None].
  unfold session_filter. destruct (get_part checks s time) as [p|]; cbn [mbind option_bind]; [|done].
  destruct p as [f d|x d|d]; [intros H; exists (Some f); split; [by eexists|done]| |intros H; exists None; split; [by eexists|done]].
  destruct (s_saved env x) as [f|] eqn:E; cbn [mbind option_bind]; [|done]. intros H. exists (Some f).
  split; [|done]. eexists. split; [done|]. simpl. eauto.
Qed.
Lemma uses_same env checks time f a b : uses env checks time f a → uses env checks time f b → a = b.
Proof. destruct f as [[f|s]|]; simpl; try congruence. intros (p & Hp & A) (q & Hq & B). destruct p; naive_solver. Qed.
Lemma uses_initial env os fuel checks time f uf : uses env checks time f uf →
  initial_candidates env os fuel checks time f = unit_candidates env os fuel uf.
Proof.
  unfold initial_candidates, uses. destruct f as [[f|s]|]; [by intros ->| |by intros ->]. unfold session_filter.
  intros (p & -> & Hp). cbn [mbind option_bind]. destruct p; [by rewrite Hp| |by rewrite Hp].
  destruct Hp as (f & -> & ->). done.
Qed.

(** ** The statements of P_Search.v *)
Section statements.
  Context (env : senv) (os : nat → orders) (fuel : nat) (checks : bool) (time : Z) (m : libm) (r : choices) (e : edges)
    (oc : option_copies) (rate : f32) (pile : gset uid) (f : option exercise_filter) (uf : option unit_filter).
  Context (Hlib : opened (s_lib env)) (Ho : ∀ i, orders_ok (os i)) (Hr : choices_ok r) (Hu : uses env checks time f uf).
  Let batch := get_exercise_batch env os fuel checks time m r e oc rate pile f.

  Lemma batch_clean es em : batch = BatchOf es → em ∈ es →
    clean env (em_id em) ∨ (uf = Some FReviewList ∧ em_id em ∈ s_review env).
  Proof using Hlib Ho Hr Hu.
    pose proof (opened_ok _ Hlib) as K. unfold batch, get_exercise_batch. rewrite (uses_initial _ _ _ _ _ _ _ Hu).
    intros H Hem. destruct (batch_member env K m r Hr e oc rate pile _ _ _ H Hem) as (cs & Hcs & [Hin|[_ ?]]); [|by left].
    apply elem_of_list_fmap in Hin as (c & -> & Hc).
    assert (uf = Some FReviewList ∨ uf ≠ Some FReviewList) as [->|Hne].
    { destruct uf as [[]|]; by (left + right). }
    - destruct (review_clean env K os Ho fuel cs c Hcs Hc); auto.
    - left. by eapply candidates_clean.
  Qed.
  Lemma batch_no_repeats es : edges_of (s_graph env) e → lists_once uf →
    (∀ x s, s_score env x = Some s → length (windows_of (oc_filter oc) (default fzero s)) ≤ 1) →
    batch = BatchOf es → NoDup (em_id <$> es).
  Proof using Hlib Ho Hr Hu.
    pose proof (opened_ok _ Hlib) as K. unfold batch, get_exercise_batch. rewrite (uses_initial _ _ _ _ _ _ _ Hu).
    intros He Hl Hw H. destruct (unit_candidates env os fuel uf) as [cs| |] eqn:E; [|done|done].
    eapply (batch_once env K m r Hr e oc rate pile cs); try done.
    - by eapply candidates_once.
    - intros c Hc. destruct (candidates_in_place env K os Ho fuel uf cs c E Hc) as (_ & s & Hs & ->). by eapply Hw.
  Qed.
  Lemma batch_no_repeats_defaults es b : edges_of (s_graph env) e → lists_once uf →
    oc_filter oc = create_scheduler_options b → (∀ x s, s_score env x = Some (Some s) → score_in_range s) →
    batch = BatchOf es → NoDup (em_id <$> es).
  Proof using Hlib Ho Hr Hu.
    intros He Hl Hb Hs. apply batch_no_repeats; [done|done|]. intros x s Hx. rewrite Hb, created_one_window; [done|].
    destruct s as [s|]; simpl; [by eapply Hs|split; reflexivity].
  Qed.
  Lemma batch_asked es em : ""%string ∉ s_banned env → batch = BatchOf es → em ∈ es →
    exercise_asked env uf (em_id em) ∨ em_id em ∈ pile.
  Proof using Hlib Ho Hr Hu.
    pose proof (opened_ok _ Hlib) as K. unfold batch, get_exercise_batch. rewrite (uses_initial _ _ _ _ _ _ _ Hu).
    intros Hb H Hem. destruct (batch_member env K m r Hr e oc rate pile _ _ _ H Hem) as (cs & Hcs & [Hin|[? _]]); [|by right].
    left. apply elem_of_list_fmap in Hin as (c & Heq & Hc). exists c. split; [done|]. split; [|by eapply candidates_asked].
    by eapply candidates_in_place.
  Qed.
  Lemma batch_unlocked es em : ""%string ∉ s_banned env → uf = None ∨ (∃ kv, uf = Some (FMetadata kv)) →
    batch = BatchOf es → em ∈ es → em_id em ∈ pile ∨
    ∃ l, exercise_of env (em_id em) l ∧
      let kv := match uf with Some (FMetadata kv) => Some kv | _ => None end in
      reachable env kv (starting_unit env) l ∧ unlocked env kv l ∧ lets_through env kv l.
  Proof using Hlib Ho Hr Hu.
    pose proof (opened_ok _ Hlib) as K. unfold batch, get_exercise_batch. rewrite (uses_initial _ _ _ _ _ _ _ Hu).
    intros Hb Hf H Hem. destruct (batch_member env K m r Hr e oc rate pile _ _ _ H Hem) as (cs & Hcs & [Hin|[? _]]); [|by left].
    right. apply elem_of_list_fmap in Hin as (c & Heq & Hc). rewrite Heq. exists (lesson_id c).
    split; [by eapply candidates_in_place|]. cbv zeta.
    assert (Hev : from_everything env os fuel (match uf with Some (FMetadata kv) => Some kv | _ => None end) = Found cs).
    { by destruct Hf as [->|[kv ->]]. }
    destruct (candidates_unlocked env K os Ho fuel _ cs c Hb Hev Hc) as [A B]. split; [done|]. split; [done|].
    unfold from_everything in Hev. destruct (initial_stack _ _ _ _); [|done].
    destruct (from_graph_basic env K os Ho _ _ _ _ Hev) as (_ & _ & H'). by apply H'.
  Qed.
  Lemma batch_never_fails : answers_exercises env → edges_ok e → (uf = Some FReviewList → review_known env) →
    (∀ x, x ∈ pile → get_unit_type (s_graph env) x = Some Exercise) →
    batch = BatchNoFuel ∨ ∃ es, batch = BatchOf es.
  Proof using Hlib Ho Hr Hu.
    pose proof (opened_ok _ Hlib) as K. unfold batch, get_exercise_batch. rewrite (uses_initial _ _ _ _ _ _ _ Hu).
    intros A He Hrev Hp. pose proof (candidates_never_fail env K os Ho fuel uf A Hrev) as Hn.
    destruct (unit_candidates env os fuel uf) as [cs| |] eqn:E; [|done|by left].
    right. apply (batch_succeeds env K m r Hr); try done. intros c Hc. by eapply candidates_in_place.
  Qed.
End statements.

(** ** Locked courses *)
(** When lessons depend only on lessons of their own course, every reached lesson belongs to an
    unlocked course. *)
Lemma reached_course env f l c : LibOK (s_lib env) →
  (∀ l d c, lesson_of env l c → depends_on (s_graph env) l d → lesson_of env d c) →
  reachable env f (starting_unit env) l → lesson_of env l c → unlocked env f c.
Proof.
  intros K Hown H Hl.
  assert (P : (is_course env l → unlocked env f l) ∧ (∀ c, lesson_of env l c → unlocked env f c)); [|by apply P].
  clear Hl c. 
  revert l H. fix IH 2. intros u H. destruct H as [u [Hm Hs] _|c l Hc Hl Hu|u v Hu Hd Hv|c l Hl Hall].
  - split; [intros _; by apply missing_unlocked|]. intros c Hc. destruct Hs as [Hs|[Hs [d Hd]]].
    + apply (lesson_of_types env K) in Hc as [Hc _]. unfold is_course, is_lesson in *. congruence.
    + pose proof (Hown _ _ _ Hc Hd) as Hdc. apply Hm in Hd. apply (lesson_of_types env K) in Hdc as [Hdc _].
      unfold missing, is_lesson in *. congruence.
  - destruct Hl as [Hl _]. destruct (lesson_of_types env K l c Hl) as [Hll Hcc]. split.
    + unfold is_course, is_lesson in *. congruence.
    + intros c' Hc'. assert (c' = c) as -> by (unfold lesson_of in *; congruence). by apply (proj1 (IH c Hc)).
  - split; [done|]. intros c Hc. pose proof (Hown v u c Hc Hd) as Huc. by apply (proj2 (IH u Hu) c Huc).
  - split.
    + intros _. apply (proj2 (IH l (Hall l Hl)) c Hl).
    + intros c' Hc'. apply (lesson_of_types env K) in Hc' as [Hc' _]. apply (lesson_of_types env K) in Hl as [_ Hl].
      unfold is_course, is_lesson in *. congruence.
Qed.

(** ** More statements of P_Search.v *)
Section more.
  Context (env : senv) (os : nat → orders).
  Context (Hlib : opened (s_lib env)) (Ho : ∀ i, orders_ok (os i)).

  Lemma batch_returns checks time m r e oc rate pile f : ∃ fuel b, b ≠ BatchNoFuel ∧ ∀ fuel', fuel ≤ fuel' →
    get_exercise_batch env os fuel' checks time m r e oc rate pile f = b.
  Proof using Hlib Ho.
    pose proof (opened_ok _ Hlib) as K.
    destruct (initial_candidates_settle env K os Ho checks time f) as (n & s & Hs & H).
    exists n, (finish_batch env m r e oc rate pile s). split.
    - destruct s as [cs| |]; [|done|done]. simpl. destruct (finish_candidates _ _ _ _ _ _ _); [|done]. by destruct (mapM _ _).
    - intros fuel' Hf. unfold get_exercise_batch. by rewrite H.
  Qed.
  Lemma resolution_returns i f u : resolve env (o_set (os i) 0) f (resolve_fuel env) ∅ u ≠ None.
  Proof using Hlib Ho.
    pose proof (opened_ok _ Hlib) as K. intros H.
    destruct (resolve_enough env K (o_set (os i) 0) f (o_set_ok _ (Ho i) 0) u) as (t & v & H' & _). congruence.
  Qed.
  Lemma search_unlocked fuel f cs c : ""%string ∉ s_banned env → from_everything env os fuel f = Found cs → c ∈ cs →
    reachable env f (starting_unit env) (lesson_id c) ∧ unlocked env f (lesson_id c) ∧ lets_through env f (lesson_id c).
  Proof using Hlib Ho.
    pose proof (opened_ok _ Hlib) as K. intros Hb H Hc.
    destruct (candidates_unlocked env K os Ho fuel f cs c Hb H Hc) as [A B]. split; [done|]. split; [done|].
    unfold from_everything in H. destruct (initial_stack _ _ _ _); [|done].
    destruct (from_graph_basic env K os Ho _ _ _ _ H) as (_ & _ & H'). by apply H'.
  Qed.
  Lemma search_own_course fuel f cs c : ""%string ∉ s_banned env →
    (∀ l d c, lesson_of env l c → depends_on (s_graph env) l d → lesson_of env d c) →
    from_everything env os fuel f = Found cs → c ∈ cs → unlocked env f (course_id c).
  Proof using Hlib Ho.
    pose proof (opened_ok _ Hlib) as K. intros Hb Hown H Hc.
    destruct (candidates_unlocked env K os Ho fuel f cs c Hb H Hc) as [A _].
    apply (reached_course env f (lesson_id c)); try done.
    unfold from_everything in H. destruct (initial_stack _ _ _ _); [|done].
    destruct (from_graph_basic env K os Ho _ _ _ _ H) as (_ & _ & H'). destruct (H' c Hc) as ((_ & ?) & _). done.
  Qed.
  Lemma search_limited fuel f cs : one_search f → unit_candidates env os fuel f = Found cs →
    in_progress_at_most env (max_lessons_in_progress (s_options env)) cs.
  Proof using Hlib Ho. intros Hf H. eapply candidates_limited; try done. by apply opened_ok. Qed.

End more.

(** The candidates of one lesson. *)
Section share.
  Context (env : senv) (o : orders) (i : nat) (l : uid) (d : nat) (cs : list candidate) (avg : f32) (es : list uid).
  Context (Hlib : opened (s_lib env)) (Ho : orders_ok o) (H : lesson_candidates env o i (l, d) = Some (cs, avg))
    (Hes : open_exercises env l es) (Hne : es ≠ []).
  Let p := passing_score (s_options env).

  Lemma offers_members : lesson_score env l avg ∧ NoDup (exercise_id <$> cs) ∧ ∀ e, e ∈ exercise_id <$> cs → e ∈ es.
  Proof using Hlib Ho H Hes Hne.
    pose proof (opened_ok _ Hlib) as K. destruct (lesson_candidates_spec env K o i _ cs avg Ho H) as (H1 & H2 & _).
    split; [|split; [done|]].
    - apply lesson_candidates_full in H as (full & Hf & He & Hn).
      destruct (full_fields env K _ _ _ (o_set_ok o Ho i) Hf) as (F1 & _ & F3). simpl in F1, F3.
      assert (Hfull : full ≠ []).
      { intros ->. apply Hne, Permutation_nil. rewrite (open_perm env l es _ Hes (valid_open env K _ l (o_set_ok o Ho i))), <-F1. done. }
      destruct (Hn Hfull) as [-> _]. by apply F3.
    - intros e He. apply elem_of_list_fmap in He as (c & -> & Hc). destruct (H2 c Hc) as ([Hp _] & Hcl & Hl & _). simpl in Hl.
      apply Hes. rewrite <-Hl. done.
  Qed.
  Lemma offers_all : fge avg f_4 = true ∨ flt avg (min_score p) = true → exercise_id <$> cs ≡ₚ es.
  Proof using Hlib Ho H Hes Hne. eapply lesson_candidates_all; try done. by apply opened_ok. Qed.
  Lemma offers_some : passing_numbers env → fgt (min_fraction p) fzero = true → fis_nan avg = false → cs ≠ [].
  Proof using Hlib Ho H Hes Hne. eapply lesson_candidates_some; try done. by apply opened_ok. Qed.
End share.
Lemma opened_complete env os : opened (s_lib env) → (∀ i, orders_ok (os i)) → mastered env → answers_exercises env →
  (∀ u, ¬ tc (waits env) u u) → (∀ c, ¬ hidden_course env c) →
  (∀ c e, is_course env c → depends_on (s_graph env) c e → get_unit_type (s_graph env) e ≠ Some Exercise) →
  ∃ cs fuel, (∀ fuel', fuel ≤ fuel' → unit_candidates env os fuel' None = Found cs) ∧
    ∀ e l c, exercise_of env e l → lesson_of env l c → clean env e → s_superseded env l = false → s_superseded env c = false →
      e ∈ exercise_id <$> cs.
Proof. intros H. apply everything_complete. by apply opened_ok. Qed.
