(** Whole lifetimes: what every batch is like. *)
From stdpp Require Import gmap strings list.
From Coq Require Import ZArith Lia.
From Verif Require Import F32 Graph GraphSpec Library LibrarySpec LibFacts Filters Options OptionsSpec Batch BatchSpec Search SearchSpec SearchProofs WholeProofs SelectProofs SizeProofs FinishProofs
  Facade Sql Stores StoresSpec StoresProofs Scorer ScorerSpec ScoreProofs Propagate PropagateSpec PropagateMore UnitScorer UnitProofs UnitPure Practice PracticeProofs PracticeMore RangeSpec RangeProofs RangeMore CallSpec CallProofs
  AskSpec AskProofs Session SessionSpec SessionProofs SessionMore.

Lemma copies_size m r e p d rate pile cs batch : choices_ok r → (Z.of_nat (batch_size_of p) <= 1000000)%Z →
  finish_candidates m r e (OptionCopies (create_scheduler_options p) (create_scheduler_options p) d) rate pile cs = Some batch →
  length batch ≤ Nat.max 5 (batch_size_of p) + batch_size_of p / 10.
Proof.
  intros Hr Hb H. assert (E : create_scheduler_options p = set_batch_size (batch_size_of p) default_options) by (destruct p; reflexivity).
  rewrite E in H. set (b := batch_size_of p) in *. clearbody b. clear E p.
  destruct (finish_split _ _ _ _ _ _ _ _ Hr H) as (k & final & extra & Ek & Ef & Hp & _ & _ & Hlen).
  destruct (relearn_default b Hb) as (n & En & Hn). specialize (Hlen n En).
  apply filter_default_size in Ef; [|done|done]. rewrite Hp, app_length, fmap_length. lia.
Qed.

Section session.
  Context (s : setting) (Hs : setting_ok s).
  Let g := lib_graph (g_lib s).

  (** ** The copies of the options *)
  Definition copies_of (p : option nat) (z : session) : Prop :=
    oc_filter (z_copies z) = create_scheduler_options p ∧ oc_relearn (z_copies z) = create_scheduler_options p.
  Lemma copies_step fuel search now z op z' ev p : copies_of p z → session_step s fuel search now z op = Some (z', ev) →
    copies_of match op with ZReopen p' => p' | _ => p end z'.
  Proof using.
    intros Hz. destruct op as [c|m|v|c|q|p']; cbn [session_step].
    - destruct (call_step s fuel now (z_practice z) c) as [p1|]; [|done].
      destruct c as [f e sc ts| | | | | | |]; try (by intros [= <- <-]). destruct (stored_more _ _); by intros [= <- <-].
    - by intros [= <- <-].
    - by intros [= <- <-].
    - by intros [= <- <-].
    - unfold batch_step. destruct (request_batch _ _ _ _ _ _ _ _ _ _ _ _) as [es| | |]; [| |done|done].
      + by intros [= <- <-].
      + destruct (initial_candidates _ _ _ _ _ _); by intros [= <- <-].
    - by intros [= <- <-].
  Qed.
  Lemma copies_run ops : ∀ z z' evs p, copies_of p z → session_run s z ops = Some (z', evs) → copies_of (last_opening p ops) z'.
  Proof using.
    induction ops as [|t ops IH]; intros z z' evs p Hz H; cbn [session_run] in H; [by injection H as <- <-|].
    destruct (session_step s (t_fuel t) (t_search t) (t_now t) z (t_op t)) as [[z1 ev]|] eqn:E; [|done].
    destruct (session_run s z1 ops) as [[z2 evs2]|] eqn:E2; [|done]. injection H as <- <-. unfold last_opening. cbn [fold_left].
    eapply IH; [|exact E2]. by eapply copies_step.
  Qed.

  (** ** Batches *)
  Definition env_of_request (fuel : nat) (now : Z) (z : session) (q : request) : senv :=
    with_options (oc_data (z_copies z)) (env_of s fuel now z (q_saved q)).
  Lemma stands_uses fuel now z q uf : stands_for q uf ↔ uses (env_of_request fuel now z q) (q_checks q) (q_time q) (q_filter q) uf.
  Proof using. done. Qed.
  Lemma uses_found fuel now z q search cs : initial_candidates (env_of_request fuel now z q) (q_orders q) search (q_checks q) (q_time q) (q_filter q) = Found cs →
    ∃ uf, stands_for q uf.
  Proof using. intros H. apply uses_candidates in H as (uf & H & _). by exists uf. Qed.
  Lemma told_some {A} (r : outcome A) a : told r = Some a ↔ r = Val a.
  Proof using. destruct r; cbn; naive_solver. Qed.
  Lemma clean_free fuel now z q e : clean (env_of_request fuel now z q) e ↔ free g (p_banned (z_practice z)) e.
  Proof using. done. Qed.

  Lemma batch_event fuel search now z q z' ev : batch_step s fuel search now z q = Some (z', ev) → ∀ banned es, ev = EBatch banned es →
    banned = p_banned (z_practice z) ∧
    get_exercise_batch (env_of_request fuel now z q) (q_orders q) search (q_checks q) (q_time q) (q_libm q) (q_choices q) (q_edges q) (z_copies z)
      (success_rate (z_counts z)) (z_pile z) (q_filter q) = BatchOf es.
  Proof using.
    intros H banned es ->. unfold batch_step in H. unfold env_of_request.
    change (request_batch (env_of s fuel now z (q_saved q)) (z_copies z) (q_orders q) search (q_checks q) (q_time q) (q_libm q) (q_choices q) (q_edges q)
            (success_rate (z_counts z)) (z_pile z) (q_filter q)) with
      (get_exercise_batch (with_options (oc_data (z_copies z)) (env_of s fuel now z (q_saved q))) (q_orders q) search (q_checks q) (q_time q) (q_libm q) (q_choices q) (q_edges q) (z_copies z)
      (success_rate (z_counts z)) (z_pile z) (q_filter q)) in H.
    destruct (get_exercise_batch _ _ _ _ _ _ _ _ _ _ _ _) as [es'| | |]; [| |done|done].
    - by injection H as _ <- <-.
    - destruct (initial_candidates _ _ _ _ _ _); done.
  Qed.

  Lemma batch_safe preferred ops z evs : session_run s (new_session preferred) ops = Some (z, evs) →
    ∀ fuel search now q z' banned es, request_ok g q → session_step s fuel search now z (ZBatch q) = Some (z', EBatch banned es) →
    ∃ uf, stands_for q uf ∧ banned = p_banned (z_practice z) ∧
      (∀ em, em ∈ es → exercise_map (g_lib s) !! em_id em = Some em ∧
         (free g banned (em_id em) ∨ (uf = Some FReviewList ∧ em_id em ∈ z_review z))) ∧
      (lists_once uf → Forall proper ops → NoDup (em_id <$> es)) ∧
      (""%string ∉ banned → ∀ em, em ∈ es →
         exercise_asked (env_of s fuel now z (q_saved q)) uf (em_id em) ∨ to_relearn g (since_opening evs) (em_id em)) ∧
      (let b := batch_size_of (last_opening preferred ops) in (Z.of_nat b <= 1000000)%Z → length es ≤ Nat.max 5 b + b / 10).
  Proof using Hs.
    intros H fuel search now q z' banned es (Hr & Ho & He) E.
    pose proof (copies_run ops (new_session preferred) z evs preferred (conj eq_refl eq_refl) H) as [Cf Cr].
    cbn [session_step] in E. destruct (batch_event _ _ _ _ _ _ _ E banned es eq_refl) as [-> Eb]. clear E.
    set (env := env_of_request fuel now z q) in *.
    assert (Hlib : opened (s_lib env)) by apply (ok_lib s Hs).
    pose proof (opened_ok _ Hlib) as K.
    assert (Hu : ∃ uf, uses env (q_checks q) (q_time q) (q_filter q) uf).
    { unfold get_exercise_batch in Eb. destruct (initial_candidates _ _ _ _ _ _) as [cs| |] eqn:Ei; [|done|done]. by eapply uses_found. }
    destruct Hu as [uf Hu]. exists uf. split; [done|]. split; [done|].
    assert (Hmap : ∀ em, em ∈ es → exercise_map (g_lib s) !! em_id em = Some em).
    { intros em Hem. unfold get_exercise_batch, finish_batch in Eb. destruct (initial_candidates _ _ _ _ _ _) as [cs| |]; [|done|done].
      destruct (finish_candidates _ _ _ _ _ _ _) as [batch|]; [|done]. destruct (mapM _ batch) as [l|] eqn:Em; [|done]. injection Eb as <-.
      apply mapM_Some_1 in Em. apply elem_of_list_lookup in Hem as [i Hi]. destruct (Forall2_lookup_r _ _ _ _ _ Em Hi) as (c & _ & Hc).
      by rewrite (k_emap_id _ K _ _ Hc). }
    split; [|split; [|split]].
    - intros em Hem. split; [by apply Hmap|].
      apply (batch_clean env (q_orders q) search (q_checks q) (q_time q) (q_libm q) (q_choices q) (q_edges q) (z_copies z) _ (z_pile z) (q_filter q) uf Hlib Ho Hr Hu es em Eb Hem).
    - intros Hl Hops. pose proof (ranged_run s Hs _ _ _ _ H Hops) as Hran. eapply (batch_no_repeats_defaults env (q_orders q) search (q_checks q) (q_time q) (q_libm q) (q_choices q) (q_edges q) (z_copies z) _ (z_pile z) (q_filter q) uf Hlib Ho Hr Hu es _ He Hl Cf); [|exact Eb].
      intros x v Hx. cbn [env env_of_request with_options env_of s_score] in Hx. apply told_some in Hx.
      destruct (ok_unit (world_of s now (z_practice z)) (world_ok s Hs now _ Hran) (ok_ord s Hs) (ok_modest s Hs) fuel x _ (rn_caches _ Hran)) as [_ Hv].
      by apply (Hv _ Hx).
    - intros Hb em Hem.
      destruct (batch_asked env (q_orders q) search (q_checks q) (q_time q) (q_libm q) (q_choices q) (q_edges q) (z_copies z) _ (z_pile z) (q_filter q) uf Hlib Ho Hr Hu es em Hb Eb Hem) as [Ha|Hp].
      + by left.
      + right. apply (pile_right s Hs preferred ops z evs H); [|done]. apply (k_emap _ K). eexists. by apply Hmap.
    - intros b Hb. unfold get_exercise_batch in Eb. apply (batch_ids_of env K) in Eb as (cs & batch & _ & Hf & Hids).
      apply (f_equal length) in Hids. rewrite !fmap_length in Hids. rewrite Hids.
      destruct (z_copies z) as [o1 o2 o3]. cbn [oc_filter oc_relearn] in Cf, Cr. subst o1 o2. by eapply copies_size.
  Qed.
End session.
