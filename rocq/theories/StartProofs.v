(** Where a search of the whole graph starts, and what it reaches. *)
From stdpp Require Import gmap strings list relations.
From Verif Require Import F32 Graph GraphSpec GraphProofs Library LibraryQueries
  Filters Options Batch BatchSpec KnockProofs Search SearchSpec LibFacts ResolveProofs CandidateProofs SearchProofs.
Local Open Scope list_scope.

Section start.
  Context (env : senv) (K : LibOK (s_lib env)).

  Lemma dependent_exists u d : depends_on (s_graph env) u d → ¬ missing env u.
  Proof using K. intros H. unfold missing. destruct (k_dep_type _ K _ _ H) as [H'|H']; unfold s_graph; rewrite H'; done. Qed.

  Lemma replace_elem s u : u ∈ replace_missing env s ↔
    (u ∈ s ∧ ¬ missing env u) ∨ ∃ d, d ∈ s ∧ missing env d ∧ depends_on (s_graph env) u d.
  Proof using K.
    unfold replace_missing. rewrite elem_of_list_to_set, elem_of_list_join.
    split.
    - intros (l & Hu & Hl). apply elem_of_list_fmap in Hl as (d & -> & Hd). rewrite elem_of_elements in Hd.
      destruct (unit_exists env d) eqn:E.
      + apply elem_of_list_singleton in Hu as ->. left. split; [done|]. by apply unit_exists_iff.
      + right. exists d. rewrite elem_of_elements, dependent_elem in Hu by done. split_and!; try done.
        unfold missing. destruct (get_unit_type (s_graph env) d) eqn:Et; [|done].
        exfalso. assert (unit_exists env d = true); [|congruence]. apply (unit_exists_iff env K). unfold missing. congruence.
    - intros [[H1 H2]|(d & H1 & H2 & H3)].
      + exists [u]. split; [by apply elem_of_list_singleton|]. apply elem_of_list_fmap. exists u.
        rewrite elem_of_elements. apply (unit_exists_iff env K) in H2. by rewrite H2.
      + exists (elements (all_dependents env d)). rewrite elem_of_elements, dependent_elem by done. split; [done|].
        apply elem_of_list_fmap. exists d. rewrite elem_of_elements. split; [|done].
        destruct (unit_exists env d) eqn:E; [|done]. by apply (unit_exists_iff env K) in E.
  Qed.
  Lemma replace_missing_elem s u : u ∈ replace_missing env s → ¬ missing env u.
  Proof using K. rewrite replace_elem. intros [[_ H]|(d & _ & _ & H)]; [done|]. by eapply dependent_exists. Qed.
  Lemma replace_twice s : replace_missing env (replace_missing env s) = replace_missing env s.
  Proof using K.
    apply set_eq. intros u. rewrite (replace_elem (replace_missing env s)). split.
    - intros [[H _]|(d & H1 & H2 & _)]; [done|]. by apply replace_missing_elem in H1.
    - intros H. left. split; [done|]. by eapply replace_missing_elem.
  Qed.
  (** Two rounds are enough. *)
  Lemma starting_loop_eq fuel s : starting_loop env (2 + fuel) s = Some (replace_missing env s).
  Proof using K.
    cbn [starting_loop Nat.add]. destruct (bool_decide_reflect (replace_missing env s = s)) as [->|_]; [done|].
    by rewrite replace_twice, bool_decide_eq_true_2.
  Qed.

  (** A first lesson of the course has dependencies and all of them are in the library. *)
  Definition first_lesson_depends (c : uid) : Prop :=
    ∃ l, first_lesson env c l ∧ (∃ d, depends_on (s_graph env) l d) ∧ ∀ d, depends_on (s_graph env) l d → ¬ missing env d.
  Definition is_start (u : uid) : Prop :=
    ((∃ d, depends_on (s_graph env) u d) ∧ ∀ d, depends_on (s_graph env) u d → missing env d) ∨
    ((∀ d, ¬ depends_on (s_graph env) u d) ∧
     ((is_course env u ∧ ¬ first_lesson_depends u) ∨
      (get_unit_type (s_graph env) u = Some Exercise ∧ ∃ v, depends_on (s_graph env) v u))).

  Lemma start_first u l : answers (get_starting_lessons (s_graph env) u) l ↔ first_lesson env u l.
  Proof using K. apply (k_start _ K). Qed.

  Lemma sinks_elem u : u ∈ get_dependency_sinks (s_graph env) ↔
    (is_course env u ∨ (¬ is_lesson env u ∧ ∃ v, depends_on (s_graph env) v u)) ∧
    (∀ x, ¬ depends_on (s_graph env) u x) ∧ ¬ first_lesson_depends u.
  Proof using K.
    unfold s_graph. rewrite (k_sinks _ K). unfold first_lesson_depends. setoid_rewrite start_first. done.
  Qed.

  Lemma all_starting_spec fuel : ∃ s, all_starting_units env (2 + fuel) = Some s ∧ ∀ u, u ∈ s ↔ is_start u.
  Proof using K.
    unfold all_starting_units. rewrite starting_loop_eq. cbn [mbind option_bind]. eexists. split; [done|].
    intros u. rewrite elem_of_filter, replace_elem.
    assert (forallb (λ d, negb (unit_exists env d)) (elements (all_dependencies env u)) = true ↔
      ∀ d, depends_on (s_graph env) u d → missing env d) as ->.
    { rewrite forallb_forall. setoid_rewrite <-elem_of_list_In. setoid_rewrite elem_of_elements.
      setoid_rewrite dependency_elem. setoid_rewrite negb_true_iff.
      assert (Hx : ∀ d, unit_exists env d = false ↔ missing env d); [|by setoid_rewrite Hx].
      intros d. destruct (unit_exists env d) eqn:E.
      - apply (unit_exists_iff env K) in E. done.
      - split; [|done]. intros _. unfold missing. destruct (get_unit_type (s_graph env) d) eqn:Et; [|done].
        assert (unit_exists env d = true); [|congruence]. apply (unit_exists_iff env K). unfold missing. congruence. }
    setoid_rewrite sinks_elem. unfold is_start. split.
    - intros [Hm [[(H1 & H2 & H3) H4]|(d & (H1 & H2 & H3) & H4 & H5)]].
      + right. split; [done|]. destruct H1 as [H1|[H1 H1']]; [by left|]. 
        destruct (get_unit_type (s_graph env) u) as [[]|] eqn:Et; [|done|left|done]; [by right|]. done.
      + left. eauto.
    - intros [[[d Hd] Hm]|[Hn [[H1 H2]|[H1 H2]]]].
      + split; [done|]. right. exists d. pose proof (Hm d Hd) as Hmd. split; [|done]. clear Hm. split_and!.
        * right. split; [|eauto]. unfold is_lesson, missing in *. congruence.
        * intros x Hx. by apply dependent_exists in Hx.
        * intros (l & [Hl _] & _). apply (lesson_of_types env K) in Hl as [_ Hl]. unfold is_course, missing in *. congruence.
      + split; [intros d Hd; by destruct (Hn d)|]. left. unfold missing, is_course in *. rewrite H1. naive_solver.
      + split; [intros d Hd; by destruct (Hn d)|]. left. unfold missing, is_lesson. rewrite H1. split; [|done].
        split_and!; [right; done|done|]. intros (l & [Hl _] & _). apply (lesson_of_types env K) in Hl as [_ Hl].
        unfold is_course in Hl. congruence.
  Qed.

  Lemma is_start_starting u : is_start u → starting_unit env u ∨ get_unit_type (s_graph env) u = Some Exercise.
  Proof using K.
    unfold starting_unit. intros [[[d Hd] H]|[Hn [[H1 _]|[H1 _]]]].
    - left. split; [done|]. destruct (k_dep_type _ K _ _ Hd); [by left|right; eauto].
    - left. split; [|by left]. intros d Hd. by destruct (Hn d).
    - by right.
  Qed.

  Lemma initial_stack_spec o f fuel : orders_ok o → ∃ st, initial_stack env o f (2 + fuel) = Some st ∧
    ∀ it, it ∈ st ↔ it.2 = 0 ∧ ∃ c, is_start c ∧
      ((first_lesson env c it.1 ∧ all_satisfied env (o_set o 0) f it.1 = true) ∨
       (it.1 = c ∧ ∀ l, first_lesson env c l → all_satisfied env (o_set o 0) f l = false)).
  Proof using K.
    intros Ho. unfold initial_stack. destruct (all_starting_spec fuel) as (s & -> & Hs). cbn [mbind option_bind].
    eexists. split; [done|]. intros it. rewrite (o_stack_ok o Ho), elem_of_list_join.
    assert (Hv : ∀ c l, l ∈ valid_starting_lessons env (o_set o 0) f c ↔ first_lesson env c l ∧ all_satisfied env (o_set o 0) f l = true).
    { intros c l. unfold valid_starting_lessons. rewrite List_filter_filter, elem_of_list_filter, elem_of_elements, starting_elem by done. naive_solver. }
    split.
    - intros (l & Hl & Hc). apply elem_of_list_fmap in Hc as (c & -> & Hc). rewrite elem_of_elements, Hs in Hc.
      destruct (valid_starting_lessons env (o_set o 0) f c) as [|x ls] eqn:E.
      + apply elem_of_list_singleton in Hl as ->. split; [done|]. exists c. split; [done|]. right. split; [done|].
        intros l Hl. apply not_true_iff_false. intros Ha. 
        assert (l ∈ valid_starting_lessons env (o_set o 0) f c) as H' by by apply Hv. rewrite E in H'. by apply elem_of_nil in H'.
      + apply elem_of_list_fmap in Hl as (l' & -> & Hl'). rewrite <-E in Hl'. apply Hv in Hl'. split; [done|]. eauto.
    - destruct it as [u d]. simpl. intros (-> & c & Hc & H). eexists. split; [|apply elem_of_list_fmap; exists c; split; [done|by rewrite elem_of_elements, Hs]].
      destruct H as [[H1 H2]|[-> H]].
      + assert (u ∈ valid_starting_lessons env (o_set o 0) f c) as Hin by by apply Hv.
        destruct (valid_starting_lessons env (o_set o 0) f c) as [|x ls]; [by apply elem_of_nil in Hin|].
        apply (elem_of_list_fmap_1 (λ l, (l, 0)) (x :: ls) u), Hin.
      + destruct (valid_starting_lessons env (o_set o 0) f c) as [|x ls] eqn:E; [by left|].
        assert (x ∈ valid_starting_lessons env (o_set o 0) f c) as Hx by (rewrite E; left).
        apply Hv in Hx as [Hx Hx']. rewrite H in Hx' by done. done.
  Qed.

  (** A lesson that was reached is unlocked, if the units from where the search starts are. *)
  Lemma reachable_unlocked f (start : uid → Prop) l : (∀ u, start u → unlocked env f u) → is_lesson env l →
    reachable env f start l → unlocked env f l.
  Proof using K.
    intros Hs Hl Hr. revert Hl. destruct Hr as [u Hu _|c l' _ _ H|u v _ _ H|c l' Hlc _]; intros Hl; [by apply Hs|done..|].
    apply (lesson_of_types env K) in Hlc as [_ Hc]. unfold is_course, is_lesson in *. congruence.
  Qed.
End start.

(** Searches through courses and lessons. *)
Section graph.
  Context (env : senv) (K : LibOK (s_lib env)) (o : orders) (Ho : orders_ok o).
  Context (f : option kv_filter) (start : uid → Prop) (Hb : ""%string ∉ s_banned env).

  Definition reached (u : uid) : Prop := is_course env u ∨ is_lesson env u → reachable env f start u.

  Lemma graph_search_found fuel stack cs : (∀ it, it ∈ stack → reached it.1) →
    search env o f true [] fuel stack ∅ = Found cs →
    (∀ c, c ∈ cs → offered env f true [] reached c) ∧ NoDup (exercise_id <$> cs) ∧
    ∃ P : gset uid, size P ≤ max_lessons_in_progress (s_options env) ∧
      ∀ c, c ∈ cs → lesson_id c ∈ P ∨ beyond_target env (lesson_id c).
  Proof using K Ho Hb.
    intros Hst. apply search_found; try done.
    - intros _ i c l Hc Hl Hs _. eapply reach_first; [|done|].
      + apply Hc. left. apply (lesson_of_types env K l c), Hl.
      + eapply satisfied_unlocked; [done| |done|exact Hs]. apply (o_set_ok o Ho).
    - intros i u v Hu Hty Hd Hs _. eapply reach_next; [by apply Hu|done|].
      eapply satisfied_unlocked; [done| |done|exact Hs]. apply (o_set_ok o Ho).
    - intros _ c l Hl H _. eapply reach_course; [done|]. intros l' Hl'. apply H; [done|]. right. by apply (lesson_of_types env K l' c).
  Qed.
End graph.

(** A search of the whole graph. *)
Lemma everything_found env os f fuel cs : LibOK (s_lib env) → (∀ i, orders_ok (os i)) → ""%string ∉ s_banned env →
  from_everything env os fuel f = Found cs →
  (∀ c, c ∈ cs → offered env f true [] (reached env f (starting_unit env)) c) ∧ NoDup (exercise_id <$> cs) ∧
  ∃ P : gset uid, size P ≤ max_lessons_in_progress (s_options env) ∧
    ∀ c, c ∈ cs → lesson_id c ∈ P ∨ beyond_target env (lesson_id c).
Proof.
  intros K Ho Hb. unfold from_everything.
  destruct (initial_stack env (os 0) f fuel) as [st|] eqn:Est; [|done]. unfold from_graph.
  assert (∃ st', initial_stack env (os 0) f (2 + fuel) = Some st' ∧ st' = st) as (st' & Est' & ->).
  { eexists. split; [|done]. destruct fuel as [|[|fuel]]; [done| |].
    - revert Est. unfold initial_stack, all_starting_units. rewrite (starting_loop_eq env K). cbn [starting_loop].
      destruct (bool_decide_reflect (replace_missing env (get_dependency_sinks (s_graph env)) = get_dependency_sinks (s_graph env))) as [->|]; done.
    - revert Est. unfold initial_stack, all_starting_units.
      by rewrite (starting_loop_eq env K (2 + fuel)), (starting_loop_eq env K fuel). }
  apply graph_search_found; try done.
  intros it Hit Hty. destruct (initial_stack_spec env K (os 0) f fuel (Ho 0)) as (st2 & Hst2 & Hin).
  rewrite Est' in Hst2. injection Hst2 as <-. apply Hin in Hit as (_ & c & Hc & [[H1 H2]|[Heq H2]]).
  - assert (Hcc : is_course env c) by apply (lesson_of_types env K it.1 c), H1.
    eapply reach_first; [|exact H1|].
    + apply reach_start; [|by left]. destruct (is_start_starting env K c Hc) as [?|He]; [done|].
      unfold is_course in Hcc. congruence.
    + eapply satisfied_unlocked; [done| |done|exact H2]. apply (o_set_ok _ (Ho 0)).
  - rewrite Heq in *. apply reach_start; [|done]. destruct (is_start_starting env K c Hc) as [?|He]; [done|].
    unfold is_course, is_lesson in Hty. destruct Hty; congruence.
Qed.
