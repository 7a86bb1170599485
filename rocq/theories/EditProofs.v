(** Requests for a batch after changes of the graph. *)
From stdpp Require Import gmap strings list relations.
From Verif Require Import F32 Graph GraphSpec GraphProofs GraphMore CycleProofs Library LibrarySpec LibraryQueries
  Filters Options Batch BatchSpec KnockProofs Search SearchSpec LibFacts ResolveProofs CandidateProofs SearchProofs StartProofs TermProofs
  SelectProofs FinishProofs CompleteProofs WholeProofs Edit EditSpec.
Local Open Scope list_scope.

(** ** What changes keep *)
Definition starts_typed (g : graph) : Prop := ∀ c l, l ∈ default ∅ (get_starting_lessons g c) → get_unit_type g l = Some Lesson.

Lemma edit_inv g o : GInv g → GInv (edit_step g o).1.
Proof. intros H. destruct o; try by apply gstep_inv. done. Qed.
Lemma edit_mono g o : type_map g ⊆ type_map (edit_step g o).1.
Proof. destruct o; try apply gstep_type_mono. done. Qed.

Lemma same_starts g o : o ≠ UpdateStartingLessons → starting_lessons_map (edit_step g o).1 = starting_lessons_map g.
Proof.
  assert (U : ∀ g u t, starting_lessons_map (update_unit_type g u t).1 = starting_lessons_map g).
  { intros g' u t. unfold update_unit_type. by destruct (type_map g' !! u). }
  intros Ho. destruct o as [c|l c|e l|u t ds|u ds enc|u sup| |]; cbn [edit_step gstep]; try done.
  - unfold add_course. destruct (type_map g !! c); [done|]. apply U.
  - unfold add_lesson. destruct (type_map g !! l); [done|]. pose proof (U g l Lesson) as U1.
    destruct (update_unit_type g l Lesson) as [g1 ok1]. simpl in U1. destruct ok1; [|done].
    pose proof (U g1 c Course) as U2. destruct (update_unit_type g1 c Course) as [g2 ok2]. simpl in U2.
    destruct ok2; simpl; congruence.
  - unfold add_exercise. destruct (type_map g !! e); [done|]. pose proof (U g e Exercise) as U1.
    destruct (update_unit_type g e Exercise) as [g1 ok1]. simpl in U1. destruct ok1; [|done].
    pose proof (U g1 l Lesson) as U2. destruct (update_unit_type g1 l Lesson) as [g2 ok2]. simpl in U2.
    destruct ok2; simpl; congruence.
  - unfold add_dependencies. destruct (verify_dependencies _ _ _ _); [|done]. simpl.
    unfold update_dependency_sinks.
    assert (S : ∀ g u b, starting_lessons_map (update_sink_unit g u b) = starting_lessons_map g).
    { intros g' u' b. unfold update_sink_unit. repeat case_match; done. }
    rewrite <-(S g u (match ds with [] => true | _ => false end)).
    generalize (update_sink_unit g u (match ds with [] => true | _ => false end)) as g0.
    induction ds as [|d ds IH]; intros g0; [done|]. simpl. by rewrite IH, S.
  - unfold add_encompassed. by destruct (forallb _ _).
  - unfold add_superseded. by destruct sup.
Qed.
Lemma edit_starts g o : GInv g → starts_typed g → starts_typed (edit_step g o).1.
Proof.
  intros I S c l. assert (o = UpdateStartingLessons ∨ o ≠ UpdateStartingLessons) as [->|Ho] by (destruct o; (by left) || (by right)).
  - cbn [edit_step gstep fst]. unfold get_starting_lessons. rewrite update_starting_lookup.
    assert (T : type_map (update_starting_lessons g) = type_map g).
    { destruct (update_starting_lessons_eq g) as (s & m & ->). done. }
    unfold get_unit_type. rewrite T. case_decide as Hc; [|apply S].
    simpl. unfold course_starting_lessons. rewrite elem_of_filter. intros [_ H].
    apply (i_lc_t _ I l c), (i_lc _ I). exact H.
  - unfold get_starting_lessons. rewrite same_starts by done. intros H. unfold get_unit_type.
    eapply lookup_weaken; [by apply (S c)|apply edit_mono].
Qed.
Lemma edits_inv ops : ∀ g, GInv g ∧ starts_typed g → GInv (edit_graph g ops) ∧ starts_typed (edit_graph g ops).
Proof.
  induction ops as [|o ops IH]; intros g [I S]; [done|]. cbn [edit_graph fold_left]. apply IH. split; [by apply edit_inv|by apply edit_starts].
Qed.
Lemma opened_inv lib : opened lib → GInv (lib_graph lib) ∧ starts_typed (lib_graph lib).
Proof.
  intros H%opened_ok. split; [apply H|]. intros c l Hl. rewrite answers_default in Hl. apply (k_start _ H) in Hl as [Hl _].
  by apply (i_lc_t _ (k_inv _ H)) in Hl as [Hl _].
Qed.

(** ** Every request returns *)
Section returns.
  Context (env : senv) (I : GInv (s_graph env)) (S : starts_typed (s_graph env)) (os : nat → orders) (Ho : ∀ i, orders_ok (os i)).

  Lemma dependents_of u d : u ∈ all_dependents env d ↔ depends_on (s_graph env) u d.
  Proof using I.
    unfold all_dependents, depends_on. rewrite answers_default. unfold get_dependents, get_dependencies.
    rewrite !answers_mget. symmetry. apply (i_dep _ I).
  Qed.
  Lemma replaced s u : u ∈ replace_missing env s ↔
    (u ∈ s ∧ unit_exists env u = true) ∨ ∃ d, d ∈ s ∧ unit_exists env d = false ∧ depends_on (s_graph env) u d.
  Proof using I.
    unfold replace_missing. rewrite elem_of_list_to_set, elem_of_list_join. split.
    - intros (l & Hu & Hl). apply elem_of_list_fmap in Hl as (d & -> & Hd). rewrite elem_of_elements in Hd.
      destruct (unit_exists env d) eqn:E; [apply elem_of_list_singleton in Hu as ->; by left|].
      right. exists d. rewrite elem_of_elements, dependents_of in Hu. done.
    - intros [[H1 H2]|(d & H1 & H2 & H3)].
      + exists [u]. split; [by apply elem_of_list_singleton|]. apply elem_of_list_fmap. exists u. rewrite elem_of_elements. by rewrite H2.
      + exists (elements (all_dependents env d)). rewrite elem_of_elements, dependents_of. split; [done|].
        apply elem_of_list_fmap. exists d. rewrite elem_of_elements. by rewrite H2.
  Qed.

  (** Chains of units without manifests, each depending on the one before, starting at a unit, are shorter than the number. *)
  Fixpoint short (n : nat) (u : uid) : Prop :=
    match n with 0 => False | Datatypes.S n => ∀ v, depends_on (s_graph env) v u → unit_exists env v = true ∨ short n v end.
  Lemma short_more n : ∀ k u, n ≤ k → short n u → short k u.
  Proof using.
    clear I S Ho. induction n as [|n IH]; intros [|k] u Hk; simpl; try done; try lia. intros H v Hv. destruct (H v Hv) as [?|H']; [by left|right]. apply IH; [lia|auto].
  Qed.
  Lemma short_list (l : list uid) : (∀ v, v ∈ l → ∃ n, short n v) → ∃ n, ∀ v, v ∈ l → short n v.
  Proof using.
    clear I S Ho. induction l as [|v l IH]; intros H; [exists 0; by intros v ?%elem_of_nil|].
    destruct IH as [n Hn]; [intros w Hw; apply H; by right|]. destruct (H v) as [k Hk]; [by left|].
    exists (Nat.max n k). intros w [->|Hw]%elem_of_cons; (eapply short_more; [|eauto]); lia.
  Qed.
  Lemma short_exists u : acyclic (depends_on (s_graph env)) → ∃ n, short n u.
  Proof using I.
    intros A. assert (Hsn : sn (λ a b, depends_on (s_graph env) b a) u).
    { apply tc_finite_sn.
      - assert (F : ∀ a b, tc (λ a b, depends_on (s_graph env) b a) a b → tc (depends_on (s_graph env)) b a).
        { clear. induction 1 as [a b H|a b c H _ IH]; [by constructor|]. eapply tc_r; [exact IH|exact H]. }
        intros x Hx. by apply (A x), F.
      - exists (elements (dom (type_map (s_graph env)))). intros v Hv.
        assert (∃ x, depends_on (s_graph env) v x) as (x & Hx).
        { clear -Hv. induction Hv as [a b H|a b c H Hbc IH]; [eauto|done]. }
        apply elem_of_elements, elem_of_dom. unfold depends_on, get_dependencies in Hx.
        destruct (dependency_graph (s_graph env) !! v) as [s|] eqn:Hs; [by eapply (i_dep_t _ I)|]. done. }
    induction Hsn as [u _ IH]. destruct (short_list (elements (all_dependents env u))) as [n Hn].
    { intros v Hv. apply IH. by apply dependents_of, elem_of_elements. }
    exists (Datatypes.S n). simpl. intros v Hv. right. apply Hn, elem_of_elements. by apply dependents_of.
  Qed.

  Lemma loop_more_units n : ∀ k s r, starting_loop env n s = Some r → starting_loop env (k + n) s = Some r.
  Proof using.
    clear I S Ho. induction n as [|n IH]; intros k s r; [done|]. rewrite Nat.add_succ_r. cbn [starting_loop].
    case_bool_decide; [done|]. apply IH.
  Qed.
  Lemma loop_short n : ∀ s, (∀ u, u ∈ s → unit_exists env u = true ∨ short n u) → ∃ r, starting_loop env (Datatypes.S n) s = Some r.
  Proof using I.
    induction n as [|n IH]; intros s H; cbn [starting_loop].
    - rewrite bool_decide_eq_true_2; [eauto|]. apply set_eq. intros u. rewrite replaced. split.
      + intros [[? _]|(d & Hd & E & _)]; [done|]. destruct (H d Hd) as [?|[]]. congruence.
      + intros Hu. left. split; [done|]. by destruct (H u Hu).
    - case_bool_decide; [eauto|]. apply IH. intros u [[_ ?]|(d & Hd & E & Hu)]%replaced; [by left|].
      destruct (H d Hd) as [?|Hs]; [congruence|]. by apply Hs.
  Qed.

  Lemma edited_typed c l : l ∈ starting_lessons env c → is_lesson env l.
  Proof using S. apply S. Qed.
  Lemma stack_settles f : (∀ u, ∃ n, short n u) →
    ∃ n st, ∀ m, n ≤ m → initial_stack env (os 0) f m = Some st.
  Proof using I.
    intros A. destruct (short_list (elements (get_dependency_sinks (s_graph env)))) as [n Hn]; [intros; apply A|].
    destruct (loop_short n (get_dependency_sinks (s_graph env))) as [r Hr].
    { intros u Hu. right. apply Hn. by apply elem_of_elements. }
    exists (Datatypes.S n). eexists. intros m Hm. unfold initial_stack, all_starting_units.
    replace m with ((m - Datatypes.S n) + Datatypes.S n) by lia.
    rewrite (loop_more_units _ _ _ r Hr). cbn [mbind option_bind]. reflexivity.
  Qed.
  Lemma edited_settles f : (∀ u, ∃ n, short n u) → settles (λ fuel, unit_candidates env os fuel f).
  Proof using I S Ho.
    intros A. assert (HS : ∀ o f courses allowed stack V, orders_ok o → settles (λ fuel, search env o f courses allowed fuel stack V)).
    { intros. apply typed_search_settles; [exact edited_typed|done]. }
    assert (HE : ∀ f, settles (λ fuel, from_everything env os fuel f)).
    { intros f'. destruct (stack_settles f' A) as (n & st & Hst).
      apply (settles_ext (λ fuel, from_graph env os fuel st f') _ n); [|by apply HS].
      intros m Hm. unfold from_everything. by rewrite Hst. }
    assert (Himap : ∀ {A} (h : nat → A → nat → sresult) (l : list A), (∀ i x, settles (h i x)) →
      settles (λ fuel, collect (imap (λ i x, h i x fuel) l))).
    { intros B h l Hh. apply (settles_ext (λ m, collect ((λ h, h m) <$> imap h l)) _ 0).
      - intros m _. f_equal. apply (fmap_imap h (λ h, h m) l).
      - apply collect_settles, Forall_forall. intros x Hx. apply elem_of_lookup_imap in Hx as (i & y & -> & _). apply Hh. }
    destruct f as [[cs|ls|kv| |us|us d]|]; cbn [unit_candidates].
    - by apply HS.
    - apply (Himap _ (λ i l _, from_lesson env os i l)). intros. apply from_lesson_settles.
    - apply HE.
    - apply (Himap _ (λ i l fuel, from_entry env os fuel i l)). intros i x. unfold from_entry. destruct (get_unit_type _ x) as [[]|].
      + apply settles_const. unfold from_exercise. cbv zeta. by destruct (lesson_candidate _ _ _ _ _).
      + apply from_lesson_settles.
      + by apply HS.
      + by apply settles_const.
    - by apply HS.
    - by apply HS.
    - apply HE.
  Qed.
  Lemma edited_returns checks time m r e oc rate pile f : (∀ u, ∃ n, short n u) →
    ∃ fuel b, b ≠ BatchNoFuel ∧ ∀ fuel', fuel ≤ fuel' → get_exercise_batch env os fuel' checks time m r e oc rate pile f = b.
  Proof using I S Ho.
    intros A. assert (settles (λ fuel, initial_candidates env os fuel checks time f)) as (n & s & Hs & H).
    { destruct f as [[f|s]|]; cbn [initial_candidates]; try by apply edited_settles.
      destruct (session_filter env checks s time); [by apply edited_settles|by apply settles_const]. }
    exists n, (finish_batch env m r e oc rate pile s). split.
    - destruct s as [cs| |]; [|done|done]. simpl. destruct (finish_candidates _ _ _ _ _ _ _); [|done]. by destruct (mapM _ _).
    - intros fuel' Hf. unfold get_exercise_batch. by rewrite H.
  Qed.
End returns.

(** Resolving a dependency returns in every graph. *)
Section resolve.
  Context (env : senv) (ord : gset uid → list uid) (f : option kv_filter) (Hord : ∀ s, ord s ≡ₚ elements s).
  Lemma resolve_total fuel : ∀ V u, size (typed env ∖ V) + 1 < fuel →
    ∃ T V', resolve env ord f fuel V u = Some (T, V') ∧ V ⊆ V'.
  Proof using Hord.
    induction fuel as [|fuel IH]; intros V u Hs; [lia|]. rewrite resolve_unfold.
    case_bool_decide as Hu; [eauto|]. case_decide; [|eexists _, _; split; [done|set_solver]].
    assert (G : ∀ l T V0, {[u]} ∪ V ⊆ V0 → (∀ d, d ∈ l → u ∈ typed env) →
      ∃ T' V', fold_left (λ acc d, '(T, V) ← acc; '(T', V) ← resolve env ord f fuel V d; Some (T ∪ T', V)) l (Some (T, V0)) = Some (T', V') ∧ V0 ⊆ V').
    { induction l as [|d l IHl]; intros T V0 HV Ht; [eauto|]. cbn [fold_left mbind option_bind].
      destruct (IH V0 d) as (T1 & V1 & -> & H1).
      { assert (size (typed env ∖ V0) < size (typed env ∖ V)); [|lia]. apply subset_size.
        pose proof (Ht d ltac:(left)). clear -Hu HV H0. set_solver. }
      cbn [mbind option_bind]. destruct (IHl (T ∪ T1) V1) as (T2 & V2 & E & H2); [set_solver|intros d' Hd'; apply (Ht d'); by right|].
      exists T2, V2. split; [exact E|set_solver]. }
    destruct (G (ord (bridges env u)) ∅ ({[u]} ∪ V)) as (T & V' & E & H').
    { done. }
    { intros d Hd. rewrite Hord, elem_of_elements in Hd. by eapply bridges_typed. }
    exists T, V'. split; [exact E|set_solver].
  Qed.
  Lemma resolve_returns u : resolve env ord f (resolve_fuel env) ∅ u ≠ None.
  Proof using Hord.
    destruct (resolve_total (resolve_fuel env) ∅ u) as (T & V & -> & _); [|done]. unfold resolve_fuel, typed.
    assert (size (dom (type_map (s_graph env)) ∖ (∅ : gset uid)) ≤ size (dom (type_map (s_graph env)))); [|lia].
    apply subseteq_size. set_solver.
  Qed.
End resolve.

Lemma edited_checked lib ops o : opened lib → order_ok o → check_cycles o (edit_graph (lib_graph lib) ops) = true →
  acyclic (depends_on (edit_graph (lib_graph lib) ops)).
Proof.
  intros Hl Ho H. destruct (edits_inv ops _ (opened_inv lib Hl)) as [I _]. by apply (check_cycles_iff o Ho _ I) in H as [H _].
Qed.

(** ** Every request gives a batch when no units were added *)
Section gives.
  Context (env : senv) (I : GInv (s_graph env)).
  Context (KL : ∀ l, get_unit_type (s_graph env) l = Some Lesson → ∃ c, get_lesson_course (s_graph env) l = Some c).
  Context (KE : ∀ e, get_unit_type (s_graph env) e = Some Exercise → ∃ l, get_exercise_lesson (s_graph env) e = Some l).
  Context (A : answers_exercises env).

  Definition exercises_only (cs : list candidate) : Prop := ∀ c, c ∈ cs → get_unit_type (s_graph env) (exercise_id c) = Some Exercise.
  Definition good (r : sresult) : Prop := match r with Found cs => exercises_only cs | Failed => False | NoFuel => True end.
  Definition good_state (st : sstate) : Prop := exercises_only (st_found st).
  Definition good_outcome (r : outcome) : Prop := match r with Next st | Stop st => good_state st | Fail => False end.

  Lemma only_app a b : exercises_only a → exercises_only b → exercises_only (a ++ b).
  Proof using. intros Ha Hb c [?|?]%elem_of_app; auto. Qed.
  Lemma valid_known ord l x : (∀ s, ord s ≡ₚ elements s) → x ∈ valid_exercises env ord l → exercise_of env x l.
  Proof using I.
    intros Hord. unfold valid_exercises. destruct (_ || _); [by intros ?%elem_of_nil|].
    rewrite List_filter_filter, elem_of_list_filter, Hord, elem_of_elements, answers_default. intros [_ H].
    unfold get_lesson_exercises in H. rewrite answers_mget in H. by apply (i_el _ I).
  Qed.
  Lemma candidate_some l c d x y : exercise_of env x y → is_Some (lesson_candidate env l c d x).
  Proof using A.
    intros H. destruct (A x y H) as ([s Hs] & [u Hu] & [v Hv]). unfold lesson_candidate. rewrite Hs. cbn [mbind option_bind].
    rewrite Hu. cbn [mbind option_bind]. rewrite Hv. eauto.
  Qed.
  Lemma lesson_gives o i it : orders_ok o → ∃ cs avg, lesson_candidates env o i it = Some (cs, avg) ∧ exercises_only cs.
  Proof using I A.
    intros Hok. assert (is_Some (lesson_candidates env o i it)) as [[cs avg] E].
    { unfold lesson_candidates. destruct (valid_exercises env (o_set o i) it.1) as [|e es] eqn:E; [eauto|].
      assert (is_Some (mapM (lesson_candidate env it.1 (lesson_course env it.1) it.2) (e :: es))) as [r Hr].
      { apply mapM_is_Some. rewrite <-E. apply Forall_forall. intros x Hx.
        eapply candidate_some, valid_known; [|exact Hx]. apply o_set_ok, Hok. }
      rewrite Hr. cbn [mbind option_bind]. eauto. }
    exists cs, avg. split; [done|]. apply lesson_candidates_full in E as (full & H & H0 & H1).
    intros c Hc. assert (Hin : c ∈ full).
    { destruct full as [|x full]; [rewrite (H0 eq_refl) in Hc; by apply elem_of_nil in Hc|].
      destruct (H1 ltac:(done)) as [_ ->]. eapply elem_of_submseteq; [exact Hc|]. apply select_sub. apply Hok. }
    unfold full_candidates in H. apply mapM_Some_1 in H. apply elem_of_list_lookup in Hin as [j Hj].
    destruct (Forall2_lookup_r _ _ _ _ _ H Hj) as (e & He & Hx). apply candidate_fields in Hx as (-> & _).
    apply elem_of_list_lookup_2 in He. apply valid_known in He; [|apply o_set_ok, Hok].
    by apply (i_el_t _ I) in He as [? _].
  Qed.
  Lemma extend_good st cs l s : good_state st → exercises_only cs → good_state (extend_candidates env st cs l s).
  Proof using.
    intros H1 H2. unfold extend_candidates. destruct cs as [|c cs]; [done|].
    destruct (_ && _); [destruct (Nat.leb _ _); [done|]|]; by apply only_app.
  Qed.
  Lemma visit_good o f i it st : orders_ok o → good_state st → good_outcome (lesson_visit env o f i it st).
  Proof using I A.
    intros Hok Hst. unfold lesson_visit. cbv zeta. destruct (skip_lesson _ _ _); [exact Hst|].
    destruct (lesson_gives o i it Hok) as (cs & avg & -> & Hcs). destruct (passes_threshold _ _ _).
    - exact (extend_good st cs it.1 _ Hst Hcs).
    - assert (G : good_state (extend_candidates env st (set_dead_end <$> cs) it.1 (match cs with [] => None | _ => Some avg end))).
      { apply extend_good; [done|]. intros c (d & -> & Hd)%elem_of_list_fmap. by apply (Hcs d). }
      destruct (Nat.leb _ _); exact G.
  Qed.
  Lemma loop_good o f courses allowed fuel : orders_ok o → ∀ i st, good_state st → good (search_loop env o f courses allowed fuel i st).
  Proof using I A KL.
    intros Hok. induction fuel as [|fuel IH]; intros i st Hst; cbn [search_loop]; [done|].
    destruct (st_stack st) as [|it stack]; [exact Hst|].
    set (st' := SState stack (st_visited st) (st_pending st) (st_found st) (st_progress st)).
    assert (Hst' : good_state st') by exact Hst. clearbody st'. clear Hst.
    assert (G : good_outcome (search_step env o f courses allowed i it st')).
    { unfold search_step. destruct (bool_decide _); [exact Hst'|].
      destruct (get_unit_type (s_graph env) it.1) as [[]|] eqn:Et; try exact Hst'.
      - unfold lesson_step. cbv zeta. destruct courses.
        + destruct (KL _ Et) as [c ->]. by apply visit_good.
        + destruct (existsb _ _); [by apply visit_good|exact Hst'].
      - destruct courses; [|exact Hst']. unfold course_step. cbv zeta. by destruct (skip_course _ _ _ _). }
    destruct (search_step _ _ _ _ _ _ _ _); [by apply IH|exact G|done].
  Qed.
  Lemma collect_good rs : (∀ r, r ∈ rs → good r) → good (collect rs).
  Proof using.
    induction rs as [|r rs IH]; intros H; cbn [collect]; [by intros c ?%elem_of_nil|].
    pose proof (H r ltac:(left)) as Hr. specialize (IH (λ x Hx, H x (elem_of_list_further _ _ _ Hx))).
    destruct r; [|done|done]. destruct (collect rs); [by apply only_app|done|done].
  Qed.
  Lemma unit_good os fuel f : (∀ i, orders_ok (os i)) →
    (f = Some FReviewList → ∀ u, u ∈ s_review env → get_unit_type (s_graph env) u ≠ None) → good (unit_candidates env os fuel f).
  Proof using I A KL KE.
    intros Ho Hrev.
    assert (HS : ∀ o f courses allowed stack V, orders_ok o → good (search env o f courses allowed fuel stack V)).
    { intros. apply loop_good; [done|]. by intros c ?%elem_of_nil. }
    assert (HE : ∀ f, good (from_everything env os fuel f)).
    { intros f'. unfold from_everything. destruct (initial_stack _ _ _ _); [|done]. by apply HS. }
    assert (HL : ∀ i l, good (from_lesson env os i l)).
    { intros i l. unfold from_lesson. by destruct (lesson_gives (os i) 0 (l, 0) (Ho i)) as (cs & avg & -> & Hcs). }
    destruct f as [[us|ls|kv| |us|us d]|]; cbn [unit_candidates]; try apply HE; try by apply HS.
    - apply collect_good. intros r Hr. by apply elem_of_lookup_imap in Hr as (i & y & -> & _).
    - apply collect_good. intros r Hr. apply elem_of_lookup_imap in Hr as (i & y & -> & Hy).
      apply elem_of_list_lookup_2 in Hy. unfold from_entry.
      destruct (get_unit_type (s_graph env) y) as [[]|] eqn:Et.
      + unfold from_exercise. cbv zeta. destruct (KE y Et) as [l Hl].
        destruct (candidate_some (default "" (get_exercise_lesson (s_graph env) y))
          (lesson_course env (default "" (get_exercise_lesson (s_graph env) y))) 0 y l Hl) as [x Hx]. rewrite Hx.
        apply candidate_fields in Hx as (E & _). intros c ->%elem_of_list_singleton. simpl. by rewrite E.
      + apply HL.
      + by apply HS.
      + by destruct (Hrev eq_refl y Hy).
  Qed.
End gives.

Record same_units (g g' : graph) : Prop := {
  su_type : type_map g' = type_map g;
  su_lesson : lesson_course_map g' = lesson_course_map g;
  su_exercise : exercise_lesson_map g' = exercise_lesson_map g }.
Lemma fold_same_units {B} (f : graph → B → graph) (l : list B) : (∀ g x, same_units g (f g x)) → ∀ g, same_units g (fold_left f l g).
Proof.
  intros H. induction l as [|x l IH]; intros g; [by constructor|]. cbn [fold_left].
  destruct (IH (f g x)), (H g x). constructor; congruence.
Qed.
Lemma no_unit_step g o : adds_no_unit o → same_units g (edit_step g o).1.
Proof.
  intros Ho. destruct o as [c|l c|e l|u t ds|u ds enc|u sup| |]; try done; cbn [edit_step gstep].
  - unfold add_dependencies. destruct (verify_dependencies _ _ _ _); [|done]. cbn [fst].
    unfold update_dependency_sinks.
    assert (S : ∀ g u b, same_units g (update_sink_unit g u b)).
    { intros g' u' b. unfold update_sink_unit. repeat case_match; done. }
    destruct (S g u (match ds with [] => true | _ => false end)) as [S1 S2 S3].
    destruct (fold_same_units (λ g d, update_sink_unit g d true) ds (λ g x, S g x true)
      (update_sink_unit g u (match ds with [] => true | _ => false end))) as [T1 T2 T3].
    constructor; simpl; congruence.
  - unfold add_encompassed. by destruct (forallb _ _).
  - unfold add_superseded. by destruct sup.
  - destruct (update_starting_lessons_eq g) as (s & m & E). cbn [fst]. rewrite E. done.
Qed.
Lemma no_unit_edits ops : Forall adds_no_unit ops → ∀ g, same_units g (edit_graph g ops).
Proof.
  induction 1 as [|o ops Ho _ IH]; intros g; [by constructor|]. unfold edit_graph in *. cbn [fold_left].
  destruct (IH (edit_step g o).1), (no_unit_step g o Ho). constructor; congruence.
Qed.

Section statements.
  Context (env : senv) (lib : library) (ops : list gop) (os : nat → orders).
  Context (Hlib : opened lib) (He : s_lib env = edit_library lib ops) (Ho : ∀ i, orders_ok (os i)).

  Lemma env_graph : s_graph env = edit_graph (lib_graph lib) ops.
  Proof using He. unfold s_graph. by rewrite He. Qed.
  Lemma env_inv : GInv (s_graph env) ∧ starts_typed (s_graph env).
  Proof using He Hlib. rewrite env_graph. by apply edits_inv, opened_inv. Qed.

  Lemma checked_returns o checks time m r e oc rate pile f : order_ok o → check_cycles o (edit_graph (lib_graph lib) ops) = true →
    ∃ fuel b, b ≠ BatchNoFuel ∧ ∀ fuel', fuel ≤ fuel' → get_exercise_batch env os fuel' checks time m r e oc rate pile f = b.
  Proof using Hlib He Ho.
    intros Hoo Hc. destruct env_inv as [I S]. apply edited_returns; [done..|]. intros u.
    apply short_exists; [done|]. rewrite env_graph. by eapply edited_checked.
  Qed.
  Lemma no_unit_returns checks time m r e oc rate pile f : Forall adds_no_unit ops →
    ∃ fuel b, b ≠ BatchNoFuel ∧ ∀ fuel', fuel ≤ fuel' → get_exercise_batch env os fuel' checks time m r e oc rate pile f = b.
  Proof using Hlib He Ho.
    intros Hops. destruct env_inv as [I S]. apply edited_returns; [done..|]. intros u. exists 1. simpl. intros v Hv. left.
    pose proof (opened_ok _ Hlib) as K. destruct (no_unit_edits ops Hops (lib_graph lib)) as [T1 _ _]. rewrite <-env_graph in T1.
    assert (is_Some (type_map (s_graph env) !! v)) as [t Ht].
    { unfold depends_on, get_dependencies in Hv. destruct (dependency_graph (s_graph env) !! v) as [s|] eqn:Hs; [by eapply (i_dep_t _ I)|done]. }
    unfold unit_exists, get_unit_type. rewrite Ht. rewrite T1 in Ht. rewrite He.
    destruct t; apply bool_decide_eq_true; [apply (k_emap _ K)|apply (k_lmap _ K)|apply (k_cmap _ K)]; exact Ht.
  Qed.
  Lemma edited_gives fuel checks time m r e oc rate pile f uf : Forall adds_no_unit ops → choices_ok r → uses env checks time f uf →
    answers_exercises env → edges_ok e → (uf = Some FReviewList → review_known env) →
    (∀ x, x ∈ pile → get_unit_type (s_graph env) x = Some Exercise) →
    get_exercise_batch env os fuel checks time m r e oc rate pile f = BatchNoFuel ∨
    ∃ es, get_exercise_batch env os fuel checks time m r e oc rate pile f = BatchOf es.
  Proof using Hlib He Ho.
    intros Hops Hr Hu A Hed Hrev Hp. destruct env_inv as [I _]. pose proof (opened_ok _ Hlib) as K.
    destruct (no_unit_edits ops Hops (lib_graph lib)) as [T1 T2 T3]. rewrite <-env_graph in T1, T2, T3.
    assert (G : good env (unit_candidates env os fuel uf)).
    { apply unit_good; try done.
      - intros l. unfold get_unit_type, get_lesson_course. rewrite T1, T2. apply (k_lesson _ K).
      - intros x. unfold get_unit_type, get_exercise_lesson. rewrite T1, T3. apply (k_exercise _ K). }
    unfold get_exercise_batch. rewrite (uses_initial _ _ _ _ _ _ _ Hu).
    destruct (unit_candidates env os fuel uf) as [cs| |]; [|done|by left]. right. unfold finish_batch.
    destruct (batch_total m r e oc rate (clean_pile (inside_blacklisted env) pile) cs Hr Hed) as [batch Hb]. rewrite Hb.
    assert (is_Some (mapM (λ c, exercise_map (s_lib env) !! exercise_id c) batch)) as [es ->]; [|eauto].
    apply mapM_is_Some, Forall_forall. intros c Hc. rewrite He. apply (k_emap _ K). unfold get_unit_type. rewrite <-T1.
    destruct (finish_members _ _ _ _ _ _ _ _ (exercise_id c) Hr Hb ltac:(by apply elem_of_list_fmap_1)) as [Hin|Hin].
    - apply elem_of_list_fmap in Hin as (c' & -> & Hc'). by apply G.
    - apply pile_clean in Hin as [Hin _]. by apply Hp.
  Qed.
End statements.
