(** Effective dependencies: the traversal ends and finds exactly what a dependency stands for. *)
From stdpp Require Import gmap strings list relations.
From Verif Require Import F32 Graph GraphSpec GraphProofs Library LibraryQueries
  Filters Options Batch Search SearchSpec LibFacts.

Section resolve.
  Context (env : senv) (K : LibOK (s_lib env)) (ord : gset uid → list uid) (f : option kv_filter).
  Context (Hord : ∀ s, ord s ≡ₚ elements s).

  Definition typed : gset uid := dom (type_map (s_graph env)).
  (** What the traversal finds at a unit, and where it goes on. *)
  Definition leaf (u : uid) : gset uid :=
    if default false (unit_passes env f u) then {[u]}
    else match get_unit_type (s_graph env) u with Some Course => last_matching env f u | _ => ∅ end.
  Definition succs (u : uid) : gset uid := if decide (leaf u = ∅) then bridges env u else ∅.

  Lemma bridges_typed u d : d ∈ bridges env u → u ∈ typed.
  Proof using.
    unfold bridges, typed, get_unit_type. intros H. apply elem_of_dom.
    destruct (type_map (s_graph env) !! u); [eauto|]. by apply elem_of_empty in H.
  Qed.

  Lemma resolve_unfold fuel V u : resolve env ord f (S fuel) V u =
    if bool_decide (u ∈ V) then Some (∅, V)
    else if decide (leaf u = ∅) then
      fold_left (λ acc d, '(T, V) ← acc; '(T', V) ← resolve env ord f fuel V d; Some (T ∪ T', V))
        (ord (bridges env u)) (Some (∅, {[u]} ∪ V))
    else Some (leaf u, {[u]} ∪ V).
  Proof using.
    cbn [resolve]. destruct (bool_decide (u ∈ V)); [done|]. cbv zeta. unfold leaf.
    destruct (default false (unit_passes env f u)).
    { case_decide as Hd; [|done]. exfalso. eapply (non_empty_singleton_L (C:=gset uid)). exact Hd. }
    destruct (decide _) as [->|Hne].
    - by rewrite bool_decide_eq_false_2 by (intros H; by apply H).
    - by rewrite bool_decide_eq_true_2 by done.
  Qed.

  (** ** What a unit stands for *)
  Lemma last_elem c l : l ∈ last_matching env f c ↔ last_lesson env f c l.
  Proof using K.
    unfold last_matching, last_lesson. rewrite !elem_of_filter, (course_lesson_elem env K), passes_iff by done.
    assert (Hd : ∀ M : gset uid, all_dependents env l ∩ M = ∅ ↔ ∀ x, depends_on (s_graph env) x l → x ∉ M).
    { intros M. split.
      - intros H x Hx Hm. apply (dependent_elem env K) in Hx. clear -H Hx Hm. set_solver.
      - intros H. apply set_eq. intros x. rewrite elem_of_intersection, (dependent_elem env K). split; [|by intros ?%elem_of_empty].
        intros [H1 H2]. by destruct (H x H1). }
    rewrite Hd. setoid_rewrite elem_of_filter. setoid_rewrite (course_lesson_elem env K). setoid_rewrite passes_iff; [|done].
    naive_solver.
  Qed.
  Lemma leaf_elem u t : t ∈ leaf u ↔
    (lets_through env f u ∧ t = u) ∨ (¬ lets_through env f u ∧ is_course env u ∧ last_lesson env f u t).
  Proof using K.
    unfold leaf. rewrite <-passes_iff by done. destruct (default false (unit_passes env f u)).
    { rewrite elem_of_singleton. naive_solver. }
    unfold is_course. destruct (get_unit_type (s_graph env) u) as [[]|]; rewrite ?last_elem, ?elem_of_empty; naive_solver.
  Qed.
  Lemma bridges_elem u d : d ∈ bridges env u ↔
    (is_course env u ∧ depends_on (s_graph env) u d) ∨
    (is_lesson env u ∧ (depends_on (s_graph env) u d ∨ ∃ c, first_lesson env c u ∧ depends_on (s_graph env) c d)).
  Proof using K.
    unfold bridges, is_course, is_lesson. destruct (get_unit_type (s_graph env) u) as [[]|] eqn:E.
    - rewrite elem_of_empty. naive_solver.
    - rewrite elem_of_union, dependency_elem.
      assert (Hc : d ∈ (if bool_decide (u ∈ starting_lessons env (lesson_course env u)) then all_dependencies env (lesson_course env u) else ∅)
        ↔ ∃ c, first_lesson env c u ∧ depends_on (s_graph env) c d).
      { case_bool_decide as Hs.
        - rewrite dependency_elem. split; [intros H; exists (lesson_course env u); split; [by apply (starting_elem env K)|done]|].
          intros (c & Hf & H). by rewrite (lesson_course_of env u c (proj1 Hf)).
        - rewrite elem_of_empty. split; [done|]. intros (c & Hf & _). apply Hs.
          apply (starting_elem env K). by rewrite (lesson_course_of env u c (proj1 Hf)). }
      rewrite Hc. naive_solver.
    - rewrite dependency_elem. naive_solver.
    - rewrite elem_of_empty. naive_solver.
  Qed.

  Lemma leaf_stands u t : t ∈ leaf u → stands_for env f u t.
  Proof using K. rewrite leaf_elem. intros [[H ->]|(H1 & H2 & H3)]; [by apply stands_itself|by apply stands_last]. Qed.
  Lemma bridge_stands u d t : leaf u = ∅ → d ∈ bridges env u → stands_for env f d t → stands_for env f u t.
  Proof using K.
    intros Hl Hb Hs. assert (Hn : ∀ x, ¬ x ∈ leaf u) by (intros x; rewrite Hl; apply not_elem_of_empty).
    assert (Hp : ¬ lets_through env f u) by (intros H; apply (Hn u), leaf_elem; auto).
    apply bridges_elem in Hb as [[H1 H2]|[H1 H2]].
    - eapply stands_course; eauto. intros l Hll. apply (Hn l), leaf_elem. auto.
    - eapply stands_lesson; eauto.
  Qed.

  (** ** The traversal *)
  Definition found (V V' T : gset uid) : Prop :=
    V ⊆ V' ∧ (∀ v, v ∈ V' → v ∉ V → leaf v ⊆ T ∧ succs v ⊆ V').

  Lemma fold_found fuel (IH : ∀ V u, size (typed ∖ V) + 1 ≤ fuel →
      ∃ T V', resolve env ord f fuel V u = Some (T, V') ∧ u ∈ V' ∧ found V V' T ∧ ∀ t, t ∈ T → stands_for env f u t) ds : ∀ T V,
    size (typed ∖ V) + 1 ≤ fuel →
    ∃ T' V', fold_left (λ acc d, '(T, V) ← acc; '(T', V) ← resolve env ord f fuel V d; Some (T ∪ T', V))
        ds (Some (T, V)) = Some (T', V') ∧ T ⊆ T' ∧ (∀ d, d ∈ ds → d ∈ V') ∧ V ⊆ V' ∧
      (∀ v, v ∈ V' → v ∉ V → leaf v ⊆ T' ∧ succs v ⊆ V') ∧ (∀ t, t ∈ T' → t ∈ T ∨ ∃ d, d ∈ ds ∧ stands_for env f d t).
  Proof using K.
    induction ds as [|d ds IHd]; intros T V Hf.
    - exists T, V. simpl. split_and!; try done; [by intros d ?%elem_of_nil|auto].
    - destruct (IH V d Hf) as (T1 & V1 & E & Hd & (H1 & H2) & H3). cbn [fold_left]. cbn [mbind option_bind].
      rewrite E. cbn [mbind option_bind].
      destruct (IHd (T ∪ T1) V1) as (T' & V' & E' & G1 & G2 & G3 & G4 & G5).
      { assert (size (typed ∖ V1) ≤ size (typed ∖ V)); [|lia]. apply subseteq_size. clear -H1. set_solver. }
      exists T', V'. rewrite E'. split; [done|]. split; [clear -G1; set_solver|]. split; [|split; [|split]].
      + intros x Hx. apply elem_of_cons in Hx as [->|Hx]; [by apply G3|by apply G2].
      + clear -H1 G3. set_solver.
      + intros v Hv Hn. destruct (decide (v ∈ V1)) as [Hv1|Hv1].
        * destruct (H2 v Hv1 Hn) as [L1 L2]. split; [clear -L1 G1; set_solver|clear -L2 G3; set_solver].
        * by apply G4.
      + intros t Ht. apply G5 in Ht as [Ht|(x & Hx & Ht)]; [|right; exists x; split; [by right|done]].
        apply elem_of_union in Ht as [Ht|Ht]; [by left|]. right. exists d. split; [left|by apply H3].
  Qed.

  Lemma resolve_found fuel : ∀ V u, size (typed ∖ V) + 1 ≤ fuel →
    ∃ T V', resolve env ord f fuel V u = Some (T, V') ∧ u ∈ V' ∧ found V V' T ∧ ∀ t, t ∈ T → stands_for env f u t.
  Proof using K Hord.
    induction fuel as [|fuel IH]; intros V u Hf; [lia|]. rewrite resolve_unfold.
    destruct (bool_decide_reflect (u ∈ V)) as [Hu|Hu].
    { exists ∅, V. split; [done|]. split; [done|]. split; [split; [done|]|].
      - intros v Hv Hn. by destruct Hn.
      - intros t Ht. by apply elem_of_empty in Ht. }
    destruct (decide (leaf u = ∅)) as [Hl|Hl].
    - destruct (decide (bridges env u = ∅)) as [Hb|Hb].
      + rewrite Hb. assert (ord ∅ = []) as ->.
        { apply Permutation_nil. rewrite Hord. by rewrite elements_empty. }
        exists ∅, ({[u]} ∪ V). simpl. split; [done|]. split; [set_solver|]. split; [split; [set_solver|]|].
        * intros v Hv Hn. assert (v = u) as -> by (clear -Hv Hn; set_solver). rewrite Hl. unfold succs. rewrite decide_True by done.
          rewrite Hb. set_solver.
        * intros t Ht. by apply elem_of_empty in Ht.
      + assert (Hty : u ∈ typed). { destruct (set_choose_L _ Hb) as [d Hd]. by eapply bridges_typed. }
        assert (Hs : size (typed ∖ ({[u]} ∪ V)) + 1 ≤ fuel).
        { assert (size (typed ∖ ({[u]} ∪ V)) < size (typed ∖ V)); [|lia]. apply subset_size. clear -Hu Hty. set_solver. }
        destruct (fold_found fuel IH (ord (bridges env u)) ∅ ({[u]} ∪ V) Hs) as (T & V' & E & _ & H1 & H2 & H3 & H4).
        exists T, V'. rewrite E. split; [done|]. split; [clear -H2; set_solver|]. split; [split; [clear -H2; set_solver|]|].
        * intros v Hv Hn. destruct (decide (v = u)) as [->|Hne].
          -- rewrite Hl. unfold succs. rewrite decide_True by done. split; [set_solver|]. intros d Hd. apply H1.
             rewrite Hord. by apply elem_of_elements.
          -- apply H3; [done|]. clear -Hn Hne. set_solver.
        * intros t Ht. apply H4 in Ht as [Ht|(d & Hd & Ht)]; [by apply elem_of_empty in Ht|].
          eapply bridge_stands; [exact Hl| |exact Ht]. rewrite Hord in Hd. by apply elem_of_elements.
    - exists (leaf u), ({[u]} ∪ V). split; [done|]. split; [set_solver|]. split; [split; [set_solver|]|].
      + intros v Hv Hn. assert (v = u) as -> by (clear -Hv Hn; set_solver). unfold succs. rewrite decide_False by done. set_solver.
      + intros t Ht. by apply leaf_stands.
  Qed.

  Lemma resolve_enough u : ∃ T V', resolve env ord f (resolve_fuel env) ∅ u = Some (T, V') ∧ u ∈ V' ∧ found ∅ V' T ∧ ∀ t, t ∈ T → stands_for env f u t.
  Proof using K Hord.
    apply resolve_found. unfold resolve_fuel, typed.
    assert (size (dom (type_map (s_graph env)) ∖ (∅ : gset uid)) ≤ size (dom (type_map (s_graph env)))); [|lia].
    apply subseteq_size. set_solver.
  Qed.

  Lemma found_all V T : found ∅ V T → ∀ u t, u ∈ V → stands_for env f u t → t ∈ T.
  Proof using K.
    intros (_ & H) u t Hu Hs. induction Hs as [d Hd|c l Hc Hn Hl|c d t Hc Hn Hl Hd Hs IH|l d t Hl Hn Hd Hs IH].
    - apply (H d Hu (not_elem_of_empty _)), leaf_elem. auto.
    - apply (H c Hu (not_elem_of_empty _)), leaf_elem. auto.
    - apply IH. apply (H c Hu (not_elem_of_empty _)). unfold succs. rewrite decide_True; [apply bridges_elem; auto|].
      apply set_eq. intros x. rewrite elem_of_empty, leaf_elem. naive_solver.
    - apply IH. apply (H l Hu (not_elem_of_empty _)). unfold succs. rewrite decide_True; [apply bridges_elem; auto|].
      apply set_eq. intros x. rewrite elem_of_empty, leaf_elem. unfold is_course, is_lesson in *. naive_solver.
  Qed.

  (** ** Satisfied dependencies *)
  Lemma effective_iff u : satisfied_effective env u = true ↔
    u ∈ s_banned env ∨ lesson_course env u ∈ s_banned env ∨ s_superseded env u = true ∨ passed env u.
  Proof using.
    unfold satisfied_effective, banned. rewrite !orb_true_iff, !bool_decide_eq_true.
    assert (passes_threshold env (default None (s_score env u)) (s_trials env u) = true ↔ passed env u) as ->; [|naive_solver].
    unfold passes_threshold, passed. destruct (s_score env u) as [[s|]|]; simpl; [|naive_solver..].
    destruct (s_trials env u) as [t|]; [|naive_solver]. rewrite andb_true_iff. naive_solver.
  Qed.
  Lemma dependency_iff d : satisfied_dependency env ord f d = true ↔
    ∀ t, stands_for env f d t → satisfied_effective env t = true.
  Proof using K Hord.
    unfold satisfied_dependency. destruct (resolve_enough d) as (T & V & -> & Hd & HF & HT).
    rewrite forallb_forall. split.
    - intros H t Ht. apply H, elem_of_list_In, elem_of_elements. by eapply found_all.
    - intros H t Ht. apply elem_of_list_In, elem_of_elements in Ht. by apply H, HT.
  Qed.
  Lemma all_satisfied_iff u : all_satisfied env ord f u = true ↔
    ∀ d t, depends_on (s_graph env) u d → stands_for env f d t → satisfied_effective env t = true.
  Proof using K Hord.
    unfold all_satisfied. rewrite forallb_forall. split.
    - intros H d t Hd. apply dependency_iff, H, elem_of_list_In, elem_of_elements. by apply dependency_elem.
    - intros H d Hd. apply elem_of_list_In, elem_of_elements, dependency_elem in Hd. apply dependency_iff. eauto.
  Qed.
End resolve.

Section unlocked.
  Context (env : senv) (K : LibOK (s_lib env)) (f : option kv_filter).

  (** Blacklisting the empty identifier counts as blacklisting the course of every unit that has
      none. *)
  Lemma effective_satisfied u : ""%string ∉ s_banned env → satisfied_effective env u = true → satisfied env u.
  Proof using K.
    intros He. rewrite effective_iff. unfold satisfied. intros [H|[H|[H|H]]]; [auto| |auto|auto].
    right. right. left. unfold lesson_course in H.
    destruct (get_lesson_course (s_graph env) u) as [c|] eqn:E; [|done]. exists c. done.
  Qed.
  Lemma satisfied_effectively u : ¬ missing env u → satisfied env u → satisfied_effective env u = true.
  Proof using.
    intros Hm [H|[H|[(c & Hl & Hc)|[H|H]]]]; [done|..]; apply effective_iff; auto.
    right. left. by rewrite (lesson_course_of env u c Hl).
  Qed.
  Lemma satisfied_unlocked ord u : (∀ s, ord s ≡ₚ elements s) → ""%string ∉ s_banned env →
    all_satisfied env ord f u = true → unlocked env f u.
  Proof using K.
    intros Ho He H d t Hd Ht. rewrite all_satisfied_iff in H by done. eapply effective_satisfied; eauto.
  Qed.
  (** A unit that depends only on missing units is unlocked. *)
  Lemma missing_unlocked u : (∀ d, depends_on (s_graph env) u d → missing env d) → unlocked env f u.
  Proof using.
    intros H d t Hd Ht. apply H in Hd. unfold missing in Hd. left.
    destruct Ht as [d _|c l Hc _ _|c d t Hc _ _ _ _|l d t Hl _ _ _]; [done|..]; unfold is_course, is_lesson in *; congruence.
  Qed.
End unlocked.

