(** Candidates of one lesson. *)
From stdpp Require Import gmap strings list relations.
From Verif Require Import F32 Graph GraphSpec GraphProofs Library LibraryQueries
  Filters Options Batch BatchSpec KnockProofs SelectProofs Search SearchSpec LibFacts.
Local Open Scope list_scope.

Lemma NoDup_ids_sub (cs ds : list candidate) : cs ⊆+ ds → NoDup (exercise_id <$> ds) → NoDup (exercise_id <$> cs).
Proof.
  intros [rest Hp]%submseteq_Permutation. rewrite Hp, fmap_app. by intros (? & _)%NoDup_app.
Qed.

Section candidates.
  Context (env : senv) (K : LibOK (s_lib env)).

  Lemma banned_false u : banned env u = false ↔ u ∉ s_banned env.
  Proof using. unfold banned. by rewrite bool_decide_eq_false. Qed.
  Lemma banned_true u : banned env u = true ↔ u ∈ s_banned env.
  Proof using. unfold banned. by rewrite bool_decide_eq_true. Qed.

  Lemma valid_open ord l : (∀ s, ord s ≡ₚ elements s) → open_exercises env l (valid_exercises env ord l).
  Proof using K.
    intros Ho. unfold open_exercises, valid_exercises, clean.
    assert (HL : ∀ e, exercise_of env e l → lesson_of env l (lesson_course env l)).
    { intros e He. apply lesson_has_course; [done|]. by apply (exercise_of_types env K e). }
    destruct (banned env l || banned env (lesson_course env l)) eqn:E.
    - split; [constructor|]. intros e. split; [by intros ?%elem_of_nil|]. intros (He & _ & Hc).
      exfalso. destruct (Hc l He) as [H1 H2]. specialize (H2 _ (HL e He)).
      apply banned_false in H1, H2. by rewrite H1, H2 in E.
    - apply orb_false_iff in E as [E1 E2]. apply banned_false in E1, E2.
      rewrite List_filter_filter. split; [apply NoDup_filter; rewrite Ho; apply NoDup_elements|].
      intros e. rewrite elem_of_list_filter, Ho, elem_of_elements, (exercise_elem env K).
      split.
      + intros [Hb He]. apply negb_true_iff, banned_false in Hb. split_and!; try done.
        intros l' He'. unfold exercise_of in *. simplify_eq. split; [done|]. intros c Hc.
        by rewrite <-(lesson_course_of env _ c Hc).
      + intros (He & Hb & _). split; [|done]. apply negb_true_iff. by apply banned_false.
  Qed.

  Lemma candidate_fields l c d e x : lesson_candidate env l c d e = Some x →
    exercise_id x = e ∧ lesson_id x = l ∧ course_id x = c ∧ dead_end x = false ∧
    ∃ s, s_score env e = Some s ∧ exercise_score x = default fzero s.
  Proof using.
    unfold lesson_candidate. destruct (s_score env e) as [s|]; cbn [mbind option_bind]; [|done].
    destruct (s_urgency env e); cbn [mbind option_bind]; [|done].
    destruct (s_velocity env e); cbn [mbind option_bind]; [|done]. intros [= <-]. simpl. eauto 10.
  Qed.

  Lemma select_sub pick cs s : (∀ l, pick l ≡ₚ l) → select_lesson_candidates env pick cs s ⊆+ cs.
  Proof using.
    intros Hp. unfold select_lesson_candidates. destruct cs as [|c cs]; [done|]. destruct (_ || _); [done|].
    etrans; [apply sublist_submseteq, sublist_take|]. by rewrite Hp.
  Qed.

  (** All candidates of a lesson, before some are selected. *)
  Definition full_candidates (ord : gset uid → list uid) (it : sitem) (cs : list candidate) : Prop :=
    mapM (lesson_candidate env it.1 (lesson_course env it.1) it.2) (valid_exercises env ord it.1) = Some cs.
  Lemma lesson_candidates_full o i it cs avg : lesson_candidates env o i it = Some (cs, avg) →
    ∃ full, full_candidates (o_set o i) it full ∧
      (full = [] → cs = []) ∧
      (full ≠ [] → avg = average (exercise_score <$> full) ∧ cs = select_lesson_candidates env (o_pick o i) full avg).
  Proof using.
    unfold lesson_candidates, full_candidates. destruct (valid_exercises env (o_set o i) it.1) as [|e es].
    - intros [= <- <-]. exists []. done.
    - destruct (mapM _ (e :: es)) as [full|] eqn:E; cbn [mbind option_bind]; [|done]. cbv zeta. intros [= <- <-].
      exists full. split; [done|]. split; [|done]. intros ->. apply mapM_Some_1 in E. inversion E.
  Qed.
  Lemma full_fields ord it full : (∀ s, ord s ≡ₚ elements s) → full_candidates ord it full →
    exercise_id <$> full = valid_exercises env ord it.1 ∧
    (∀ c, c ∈ full → in_place env c ∧ clean env (exercise_id c) ∧ lesson_id c = it.1 ∧ dead_end c = false ∧ scored_by env c) ∧
    (full ≠ [] → lesson_score env it.1 (average (exercise_score <$> full))).
  Proof using K.
    intros Ho H. unfold full_candidates in H. apply mapM_Some_1 in H.
    pose proof (valid_open ord it.1 Ho) as Hv. set (es := valid_exercises env ord it.1) in *.
    split; [|split].
    - clear -H. induction H as [|e x es full He H IH]; [done|]. rewrite fmap_cons, IH. f_equal.
      by apply candidate_fields in He as (-> & _).
    - intros c Hc. apply elem_of_list_lookup in Hc as [i Hi]. destruct (Forall2_lookup_r _ _ _ _ _ H Hi) as (e & He & Hx).
      apply elem_of_list_lookup_2, Hv in He as [He Hcl]. apply candidate_fields in Hx as (<- & Hl & Hcc & Hde & Hsc).
      unfold in_place. rewrite Hl, Hcc. split_and!; try done. apply lesson_has_course; [done|].
      by apply (exercise_of_types env K (exercise_id c)).
    - intros Hne. exists es, (exercise_score <$> full). split; [done|]. split.
      { intros Hes. rewrite Hes in H. inversion H. by subst. }
      split; [|done]. clear -H. induction H as [|e x es full He H IH]; [constructor|]. rewrite fmap_cons. constructor; [|done].
      apply candidate_fields in He as (_ & _ & _ & _ & s & Hs & ->). eauto.
  Qed.

  Lemma lesson_candidates_spec o i it cs avg : orders_ok o → lesson_candidates env o i it = Some (cs, avg) →
    NoDup (exercise_id <$> cs) ∧
    (∀ c, c ∈ cs → in_place env c ∧ clean env (exercise_id c) ∧ lesson_id c = it.1 ∧ dead_end c = false ∧ scored_by env c) ∧
    (cs ≠ [] → lesson_score env it.1 avg).
  Proof using K.
    intros Ho H. apply lesson_candidates_full in H as (full & Hf & He & Hn).
    destruct (full_fields _ _ _ (o_set_ok o Ho i) Hf) as (F1 & F2 & F3).
    assert (Hsub : cs ⊆+ full).
    { destruct full as [|x full]; [by rewrite (He eq_refl)|]. destruct (Hn ltac:(done)) as [_ ->].
      apply select_sub, o_pick_ok, Ho. }
    split_and!.
    - eapply NoDup_ids_sub; [exact Hsub|]. rewrite F1. apply (valid_open _ it.1 (o_set_ok o Ho i)).
    - intros c Hc. apply F2. by eapply elem_of_submseteq.
    - intros Hc. assert (Hd : full ≠ []). { intros ->. by rewrite He in Hc. }
      destruct (Hn Hd) as [-> _]. by apply F3.
  Qed.
End candidates.
