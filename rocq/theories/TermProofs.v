(** Every search ends. *)
From stdpp Require Import gmap strings list relations.
From Verif Require Import F32 Graph GraphSpec GraphProofs Library LibraryQueries
  Filters Options Batch BatchSpec KnockProofs Search SearchSpec LibFacts ResolveProofs CandidateProofs SearchProofs StartProofs.
Local Open Scope list_scope.

(** More fuel changes nothing. *)
Lemma loop_more env o f courses allowed fuel : ∀ i st r k, search_loop env o f courses allowed fuel i st = r → r ≠ NoFuel →
  search_loop env o f courses allowed (k + fuel) i st = r.
Proof.
  induction fuel as [|fuel IH]; intros i st r k H Hr; [by subst|].
  rewrite Nat.add_succ_r. revert H. cbn [search_loop].
  destruct (st_stack st); [done|]. destruct (search_step _ _ _ _ _ _ _ _); [|done..]. intros H. by apply IH.
Qed.

Definition weight (env : senv) (it : sitem) : nat :=
  match get_unit_type (s_graph env) it.1 with
  | Some Course => 1 + length (elements (starting_lessons env it.1))
  | _ => 1
  end.
Lemma weight_pos env it : 0 < weight env it.
Proof. unfold weight. destruct (get_unit_type _ _) as [[]|]; lia. Qed.
Definition weights (env : senv) (l : list sitem) : nat := sum_list_with (weight env) l.
Lemma weights_app env a b : weights env (a ++ b) = weights env a + weights env b.
Proof. apply sum_list_with_app. Qed.

Section term.
  Context (env : senv) (T : ∀ c l, l ∈ starting_lessons env c → is_lesson env l) (o : orders) (Ho : orders_ok o).
  Context (f : option kv_filter) (courses : bool) (allowed : list uid).

  Definition unvisited (st : sstate) : nat := size (dom (type_map (s_graph env)) ∖ st_visited st).
  Definition smaller (a b : sstate) : Prop :=
    unvisited a < unvisited b ∨ (unvisited a = unvisited b ∧ weights env (st_stack a) < weights env (st_stack b)).

  Lemma unvisited_lt u V : u ∈ dom (type_map (s_graph env)) → u ∉ V →
    size (dom (type_map (s_graph env)) ∖ ({[u]} ∪ V)) < size (dom (type_map (s_graph env)) ∖ V).
  Proof using. clear T Ho. intros H1 H2. apply subset_size. set_solver. Qed.

  Lemma typed_dom u t : get_unit_type (s_graph env) u = Some t → u ∈ dom (type_map (s_graph env)).
  Proof using. intros H. apply elem_of_dom. by exists t. Qed.

  Lemma extend_same env' st cs l s : st_visited (extend_candidates env' st cs l s) = st_visited st ∧
    st_stack (extend_candidates env' st cs l s) = st_stack st.
  Proof using. destruct (extend_spec env' st cs l s) as [->|(p & -> & _)]; done. Qed.

  Lemma lesson_visit_visited i it st st' : lesson_visit env o f i it st = Next st' → st_visited st' = st_visited st.
  Proof using.
    unfold lesson_visit. cbv zeta. destruct (skip_lesson env f it.1); [by intros [= <-]|].
    destruct (lesson_candidates env o i it) as [[cs avg]|]; [|done].
    destruct (passes_threshold _ _ _).
    { intros [= <-]. simpl. apply extend_same. }
    destruct (Nat.leb _ _); [done|]. intros [= <-]. simpl. apply extend_same.
  Qed.

  Lemma starting_weight c : ∀ (ls : list uid) i it, ls ⊆+ elements (starting_lessons env c) →
    weights env ((λ u, (u, it)) <$> o_units o i ls) ≤ length (elements (starting_lessons env c)).
  Proof using T Ho.
    intros ls i d Hls. 
    assert (weights env ((λ u, (u, d)) <$> o_units o i ls) = length ls) as ->.
    2: by apply submseteq_length.
    transitivity (length (o_units o i ls)); [|by rewrite (o_units_ok o Ho)].
    assert (Hl : ∀ l, l ∈ o_units o i ls → is_lesson env l).
    { intros l. rewrite (o_units_ok o Ho). intros H. eapply elem_of_submseteq in H; [|exact Hls].
      rewrite elem_of_elements in H. by apply (T c). }
    clear Hls. induction (o_units o i ls) as [|x xs IH]; [done|]. rewrite fmap_cons. unfold weights in *. cbn [sum_list_with length].
    rewrite IH by (intros l Hx; apply Hl; by right). unfold weight at 1. simpl. rewrite Hl by left. done.
  Qed.

  Lemma step_smaller i it st st' : search_step env o f courses allowed i it
      (SState (st_stack st) (st_visited st) (st_pending st) (st_found st) (st_progress st)) = Next st' →
    smaller st' (SState (it :: st_stack st) (st_visited st) (st_pending st) (st_found st) (st_progress st)).
  Proof using T Ho.
    unfold search_step, smaller, unvisited. simpl. pose proof (weight_pos env it) as Hw.
    assert (Hpop : ∀ l, weights env l < weights env (it :: l)) by (intros l; unfold weights; simpl; lia).
    destruct (bool_decide_reflect (it.1 ∈ st_visited st)) as [Hv|Hv].
    { intros [= <-]. right. simpl. split; [done|]. apply Hpop. }
    destruct (get_unit_type (s_graph env) it.1) as [[]|] eqn:Et.
    - intros [= <-]. right. simpl. split; [done|]. apply Hpop.
    - intros H. left. assert (Hvis : st_visited st' = {[it.1]} ∪ st_visited st).
      { revert H. unfold lesson_step. cbv zeta. destruct courses.
        - destruct (get_lesson_course _ _); [|done]. intros ->%lesson_visit_visited. done.
        - destruct (existsb _ _); [|by intros [= <-]]. intros ->%lesson_visit_visited. done. }
      rewrite Hvis. apply unvisited_lt; [by eapply typed_dom|done].
    - destruct courses; [|intros [= <-]; right; simpl; split; [done|apply Hpop]].
      unfold course_step. cbv zeta. destruct (skip_course _ _ _ _).
      + intros [= <-]. left. simpl. apply unvisited_lt; [by eapply typed_dom|done].
      + intros [= <-]. right. simpl. split; [done|]. unfold push_units. rewrite weights_app.
        unfold weights at 3. simpl. unfold weight at 1. rewrite Et.
        pose proof (starting_weight it.1 (valid_starting_lessons env (o_set o i) f it.1) (2 * i) (it.2 + 1)) as Hs.
        change (sum_list_with (weight env) (st_stack st)) with (weights env (st_stack st)).
        assert (valid_starting_lessons env (o_set o i) f it.1 ⊆+ elements (starting_lessons env it.1)) as Hsub.
        { unfold valid_starting_lessons. apply sublist_submseteq, sublist_List_filter. }
        specialize (Hs Hsub). cbn [Nat.mul Nat.add] in *. lia.
    - intros [= <-]. right. simpl. split; [done|]. apply Hpop.
  Qed.

  Lemma loop_ends n : ∀ w i st, unvisited st < n → weights env (st_stack st) < w →
    ∃ fuel, search_loop env o f courses allowed fuel i st ≠ NoFuel.
  Proof using T Ho.
    induction n as [|n IHn]; [lia|]. induction w as [|w IHw]; [lia|]. intros i st Hu Hw.
    destruct (st_stack st) as [|it stack] eqn:Es.
    { exists 1. cbn [search_loop]. by rewrite Es. }
    set (st0 := SState stack (st_visited st) (st_pending st) (st_found st) (st_progress st)).
    destruct (search_step env o f courses allowed i it st0) as [st'|st'|] eqn:E.
    - destruct (step_smaller i it st0 st' E) as [Hlt|[Heq Hlt]]; unfold unvisited in *; simpl in *.
      + destruct (IHn (S (weights env (st_stack st'))) (S i) st') as [fuel Hf]; [lia|lia|].
        exists (S fuel). cbn [search_loop]. rewrite Es. fold st0. by rewrite E.
      + destruct (IHw (S i) st') as [fuel Hf]; [lia|lia|].
        exists (S fuel). cbn [search_loop]. rewrite Es. fold st0. by rewrite E.
    - exists 1. cbn [search_loop]. rewrite Es. fold st0. by rewrite E.
    - exists 1. cbn [search_loop]. rewrite Es. fold st0. by rewrite E.
  Qed.
End term.

(** A result that no longer changes once there is enough fuel. *)
Definition settles (h : nat → sresult) : Prop :=
  ∃ n r, r ≠ NoFuel ∧ ∀ m, n ≤ m → h m = r.

Lemma typed_search_settles env o f courses allowed stack V : (∀ c l, l ∈ starting_lessons env c → is_lesson env l) → orders_ok o →
  settles (λ fuel, search env o f courses allowed fuel stack V).
Proof.
  intros T Ho. unfold search. set (st := SState _ _ _ _ _).
  destruct (loop_ends env T o Ho f courses allowed (S (unvisited env st)) (S (weights env (st_stack st))) 0 st) as [n Hn]; [lia..|].
  exists n, (search_loop env o f courses allowed n 0 st). split; [done|]. intros m Hm.
  replace m with ((m - n) + n) by lia. by apply loop_more.
Qed.
Lemma starting_typed env : LibOK (s_lib env) → ∀ c l, l ∈ starting_lessons env c → is_lesson env l.
Proof. intros K c l H. rewrite starting_elem in H by done. destruct H as [H _]. by apply (lesson_of_types env K l c). Qed.
Lemma search_settles env o f courses allowed stack V : LibOK (s_lib env) → orders_ok o →
  settles (λ fuel, search env o f courses allowed fuel stack V).
Proof. intros K. apply typed_search_settles. by apply starting_typed. Qed.
Lemma settles_const r : r ≠ NoFuel → settles (λ _, r).
Proof. intros H. exists 0, r. done. Qed.
Lemma settles_ext h h' n : (∀ m, n ≤ m → h m = h' m) → settles h → settles h'.
Proof.
  intros He (k & r & Hr & H). exists (k + n), r. split; [done|]. intros m Hm. rewrite <-He by lia. apply H. lia.
Qed.
Lemma collect_settles (hs : list (nat → sresult)) : Forall settles hs → settles (λ m, collect ((λ h, h m) <$> hs)).
Proof.
  induction 1 as [|h hs (n & r & Hr & H) _ (n' & r' & Hr' & H')]; [by apply (settles_const (Found []))|].
  exists (n + n'), (match r, r' with Found a, Found b => Found (a ++ b) | Found _, r => r | r, _ => r end).
  split; [by destruct r, r'|]. intros m Hm. rewrite fmap_cons. cbn [collect]. rewrite H, H' by lia. by destruct r, r'.
Qed.

Section all.
  Context (env : senv) (K : LibOK (s_lib env)) (os : nat → orders) (Ho : ∀ i, orders_ok (os i)).

  Lemma from_lesson_settles i l : settles (λ _, from_lesson env os i l).
  Proof using. apply settles_const. unfold from_lesson. by destruct (lesson_candidates _ _ _ _) as [[]|]. Qed.
  Lemma from_entry_settles i u : settles (λ fuel, from_entry env os fuel i u).
  Proof using K Ho.
    unfold from_entry. destruct (get_unit_type _ u) as [[]|].
    - apply settles_const. unfold from_exercise. cbv zeta. by destruct (lesson_candidate _ _ _ _ _).
    - apply from_lesson_settles.
    - by apply search_settles.
    - by apply settles_const.
  Qed.
  Lemma from_everything_settles f : settles (λ fuel, from_everything env os fuel f).
  Proof using K Ho.
    destruct (initial_stack_spec env K (os 0) f 0 (Ho 0)) as (st & Hst & _).
    apply (settles_ext (λ fuel, from_graph env os fuel st f) _ 2); [|by apply search_settles].
    intros m Hm. unfold from_everything. replace m with (2 + (m - 2)) by lia.
    assert (initial_stack env (os 0) f (2 + (m - 2)) = Some st) as ->; [|done].
    revert Hst. unfold initial_stack, all_starting_units. by rewrite (starting_loop_eq env K 0), (starting_loop_eq env K (m - 2)).
  Qed.
  Lemma unit_candidates_settle f : settles (λ fuel, unit_candidates env os fuel f).
  Proof using K Ho.
    assert (Himap : ∀ {A} (h : nat → A → nat → sresult) (l : list A), (∀ i x, settles (h i x)) →
      settles (λ fuel, collect (imap (λ i x, h i x fuel) l))).
    { intros A h l Hh. apply (settles_ext (λ m, collect ((λ h, h m) <$> imap h l)) _ 0).
      - intros m _. f_equal. apply (fmap_imap h (λ h, h m) l).
      - apply collect_settles, Forall_forall. intros x Hx. apply elem_of_lookup_imap in Hx as (i & y & -> & _). apply Hh. }
    destruct f as [[cs|ls|kv| |us|us d]|]; cbn [unit_candidates].
    - by apply search_settles.
    - apply (Himap _ (λ i l _, from_lesson env os i l)). intros. apply from_lesson_settles.
    - apply from_everything_settles.
    - apply (Himap _ (λ i l fuel, from_entry env os fuel i l)). intros. apply from_entry_settles.
    - by apply search_settles.
    - by apply search_settles.
    - apply from_everything_settles.
  Qed.
  Lemma initial_candidates_settle checks time f : settles (λ fuel, initial_candidates env os fuel checks time f).
  Proof using K Ho.
    destruct f as [[f|s]|]; cbn [initial_candidates]; try apply unit_candidates_settle.
    destruct (session_filter env checks s time); [apply unit_candidates_settle|by apply settles_const].
  Qed.
End all.
