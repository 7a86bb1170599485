(** Each call changes only what it is about, and the lists are what was put on them. *)
From stdpp Require Import gmap strings list.
From Coq Require Import ZArith Lia.
From Verif Require Import F32 Graph Library Filters Options Batch Search Facade Sql Stores Propagate UnitScorer Practice AskSpec Session SessionSpec.
Local Open Scope list_scope.

Section kept.
  Context (s : setting).

  Lemma run_kept {A} (m : prog A) p : ∃ c, snd (run m p) = with_caches (λ _, c) p.
  Proof using. unfold run. destruct (m (p_caches p)) as [r c]. by exists c. Qed.
  Lemma score_kept fuel now f e sc ts p p' b : score_call s fuel now f e sc ts p = Some (p', b) → p_banned p' = p_banned p.
  Proof using.
    unfold score_call. pose proof (run_kept (or_default None (unit_score (world_of s now p) fuel e)) p) as [c1 E1].
    destruct (run (or_default None (unit_score (world_of s now p) fuel e)) p) as [[x| | |] p1]; try done. cbn [snd] in E1. subst p1.
    set (p1 := with_caches (λ _, c1) p).
    pose proof (run_kept (or_default 0 (exercise_num_trials (world_of s now p) e)) p1) as [c2 E2].
    destruct (run (or_default 0 (exercise_num_trials (world_of s now p) e)) p1) as [[n| | |] p2]; try done. cbn [snd] in E2. subst p2.
    set (p2 := with_caches (λ _, c2) p1). assert (Hb : p_banned p2 = p_banned p) by done. rewrite <- Hb. clearbody p2. clear.
    destruct (if Nat.ltb 0 n then _ else _) as [deltas ok]. destruct ok; [|by intros [= <- _]].
    destruct (record_entries _ _ _ _) as [trials ok]. destruct ok; [|by intros [= <- _]].
    destruct (propagate_rewards _ _ _ _ _ _) as [rewards|]; [|done]. destruct (record_unit_rewards _ _ _ _) as [store [us|]]; by intros [= <- _].
  Qed.
  Lemma call_kept fuel now p c p' x z z' : call_step s fuel now p c = Some p' → z_practice z = p → z_practice z' = p' →
    z_review z' = z_review z → z_copies z' = z_copies z → concerns (ZCall c) x = false → same_part x z z'.
  Proof using.
    intros H E1 E2 E3 E4 Hc. destruct x; try done; unfold same_part; rewrite E1, E2;
      (destruct c; try discriminate Hc; cbn [call_step] in H;
       [..|destruct (run_kept (unit_score (world_of s now p) fuel u) p) as [k Ek]; rewrite Ek in H
          |destruct (run_kept (avg_trials (world_of s now p) fuel u) p) as [k Ek]; rewrite Ek in H
          |destruct (run_kept (exercise_entry (world_of s now p) e) p) as [k Ek]; rewrite Ek in H]);
      try (injection H as <-; reflexivity).
    apply fmap_Some in H as ([q b] & H & ->). by eapply score_kept.
  Qed.
  Lemma batch_kept fuel search now z q z' ev x : batch_step s fuel search now z q = Some (z', ev) → same_part x z z'.
  Proof using.
    unfold batch_step. intros H. destruct (request_batch _ _ _ _ _ _ _ _ _ _ _ _); [injection H as <- _; by destruct x| |done..].
    destruct (initial_candidates _ _ _ _ _ _); injection H as <- _; by destruct x.
  Qed.
  Lemma step_kept fuel search now z op z' ev : session_step s fuel search now z op = Some (z', ev) →
    ∀ x, concerns op x = false → same_part x z z'.
  Proof using.
    intros H x Hc. destruct op as [c|m|v|c|q|p]; cbn [session_step] in H.
    - destruct (call_step s fuel now (z_practice z) c) as [p|] eqn:E; [|done].
      destruct c; try (injection H as <- _; by eapply call_kept).
      destruct (stored_more _ _); injection H as <- _; by eapply call_kept.
    - injection H as <- _. destruct x, m; done.
    - injection H as <- _. by destruct x.
    - injection H as <- _. by destruct x.
    - by eapply batch_kept.
    - injection H as <- _. by destruct x.
  Qed.

  (** ** The lists *)
  Lemma step_banned fuel search now z op z' ev u : session_step s fuel search now z op = Some (z', ev) → ∀ a b k,
    u ∈ p_banned (z_practice z') ↔ bans u (Timed a b k op) ∨ (u ∈ p_banned (z_practice z) ∧ ¬ unbans u (Timed a b k op)).
  Proof using.
    intros H a b k. unfold bans, unbans. cbn [t_op]. destruct (concerns op InBlacklist) eqn:Ec.
    2: { pose proof (step_kept _ _ _ _ _ _ _ H InBlacklist Ec) as E. cbn [same_part] in E. rewrite E. split.
      - intros Hu. right. split; [done|]. intros [->|(pre & -> & _)]; discriminate Ec.
      - intros [->|[Hu _]]; [discriminate Ec|done]. }
    destruct op as [c|m|v|c|q|p]; [|by destruct m|discriminate Ec..]. destruct c; try discriminate Ec; cbn [session_step call_step] in H; injection H as <- _.
    - cbn [with_practice z_practice ban p_banned]. destruct fails.
      + split; [intros Hu; right; split; [done|]; by intros [|(pre & ? & _)]|]. by intros [[=]|[? _]].
      + rewrite elem_of_union, elem_of_singleton. split.
        * intros [->|Hu]; [by left|]. right. split; [done|]. by intros [|(pre & ? & _)].
        * intros [[= ->]|[Hu _]]; auto.
    - cbn [with_practice z_practice unban p_banned]. destruct fails.
      + split; [intros Hu; right; split; [done|]; by intros [[=]|(pre & [=] & _)]|]. by intros [[=]|[? _]].
      + rewrite elem_of_difference, elem_of_singleton. split.
        * intros [Hu Hne]. right. split; [done|]. intros [[= ->]|(pre & [=] & _)]. done.
        * intros [[=]|[Hu Hn]]. split; [done|]. intros ->. apply Hn. by left.
    - cbn [with_practice z_practice unban_prefix p_banned]. rewrite elem_of_filter. split.
      + intros [Hl Hu]. right. split; [done|]. intros [[=]|(pre' & [= ->] & Hp)]. congruence.
      + intros [[=]|[Hu Hn]]. split; [|done]. destruct (like_prefix pre u) eqn:E; [|done]. destruct Hn. right. by exists pre.
  Qed.
  Lemma step_review fuel search now z op z' ev u : session_step s fuel search now z op = Some (z', ev) →
    u ∈ z_review z' ↔ op = ZReview (VAdd u) ∨ (u ∈ z_review z ∧ op ≠ ZReview (VRemove u)).
  Proof using.
    intros H. destruct (concerns op InReview) eqn:Ec.
    2: { pose proof (step_kept _ _ _ _ _ _ _ H InReview Ec) as E. cbn [same_part] in E. rewrite E. split.
      - intros Hu. right. split; [done|]. intros ->. discriminate Ec.
      - intros [->|[Hu _]]; [discriminate Ec|done]. }
    destruct op as [c|m|v|c|q|p]; [by destruct c|by destruct m| |discriminate Ec..]. cbn [session_step] in H. injection H as <- _. cbn [z_review].
    destruct v as [v|v]; cbn [review_step].
    - destruct (bool_decide (v ∈ z_review z)) eqn:Ed; [apply bool_decide_eq_true in Ed|].
      + split; [intros Hu; by right|]. intros [[= ->]|[Hu _]]; done.
      + rewrite elem_of_app, elem_of_list_singleton. split; [intros [Hu| ->]; [by right|by left]|]. intros [[= ->]|[Hu _]]; auto.
    - rewrite elem_of_list_filter. split; [intros [Hne Hu]; right; split; [done|]; by intros [= ->]|].
      intros [[=]|[Hu Hne]]. split; [|done]. intros ->. done.
  Qed.
  Lemma step_options fuel search now z op z' ev : session_step s fuel search now z op = Some (z', ev) →
    oc_data (z_copies z') = match op with
                            | ZReopen p => create_scheduler_options p
                            | ZOptions (SetOptions o') => o'
                            | ZOptions ResetOptions => default_options
                            | _ => oc_data (z_copies z)
                            end.
  Proof using.
    intros H. destruct (concerns op InOptions) eqn:Ec.
    2: { pose proof (step_kept _ _ _ _ _ _ _ H InOptions Ec) as E. cbn [same_part] in E. rewrite E. by destruct op as [c|m|v|[]|q|p]. }
    destruct op as [c|m|v|c|q|p]; [by destruct c|by destruct m|done| |done|]; cbn [session_step] in H; injection H as <- _.
    - by destruct c.
    - done.
  Qed.
  Lemma lists_from ops : ∀ z z' evs, session_run s z ops = Some (z', evs) →
    (∀ u, u ∈ p_banned (z_practice z') ↔ blacklisted_by ops u ∨ (u ∈ p_banned (z_practice z) ∧ Forall (λ t, ¬ unbans u t) ops)) ∧
    (∀ u, u ∈ z_review z' ↔ reviewed_by ops u ∨ (u ∈ z_review z ∧ Forall (λ t, t_op t ≠ ZReview (VRemove u)) ops)).
  Proof using.
    induction ops as [|t ops IH]; intros z z' evs H; cbn [session_run] in H.
    { injection H as <- _. split; intros u; (split; [by right|]); intros [(b & t & a & E & _)|[Hu _]]; try done; by destruct b. }
    destruct (session_step s (t_fuel t) (t_search t) (t_now t) z (t_op t)) as [[z1 ev]|] eqn:E; [|done].
    destruct (session_run s z1 ops) as [[z2 evs2]|] eqn:E2; [|done]. injection H as <- _. destruct (IH _ _ _ E2) as [H1 H2]. split; intros u.
    - rewrite H1, (step_banned _ _ _ _ _ _ _ u E (t_fuel t) (t_search t) (t_now t)). destruct t as [a b k op]. cbn [t_op t_fuel t_search t_now] in *. split.
      + intros [(bf & t & af & -> & Hb & Hf)|[[Hb|[Hu Hn]] Hf]].
        * left. by exists (Timed a b k op :: bf), t, af.
        * left. by exists [], (Timed a b k op), ops.
        * right. split; [done|]. by constructor.
      + intros [(bf & t & af & Eo & Hb & Hf)|[Hu Hf]].
        * destruct bf as [|t' bf]; injection Eo as <- ->; [right; split; [by left|done]|]. left. by exists bf, t, af.
        * inversion Hf; subst. right. split; [|done]. right. done.
    - rewrite H2, (step_review _ _ _ _ _ _ _ u E). split.
      + intros [(bf & t' & af & -> & Hb & Hf)|[[Hb|[Hu Hn]] Hf]].
        * left. by exists (t :: bf), t', af.
        * left. by exists [], t, ops.
        * right. split; [done|]. by constructor.
      + intros [(bf & t' & af & Eo & Hb & Hf)|[Hu Hf]].
        * destruct bf as [|t'' bf]; injection Eo as <- ->; [right; split; [by left|done]|]. left. by exists bf, t', af.
        * inversion Hf; subst. right. split; [|done]. right. done.
  Qed.
  Lemma options_from ops : ∀ z z' evs o, session_run s z ops = Some (z', evs) → oc_data (z_copies z) = o →
    oc_data (z_copies z') = fold_left (λ o t, match t_op t with
                    | ZReopen p => create_scheduler_options p
                    | ZOptions (SetOptions o') => o'
                    | ZOptions ResetOptions => default_options
                    | _ => o
                    end) ops o.
  Proof using.
    induction ops as [|t ops IH]; intros z z' evs o H Ho; cbn [session_run] in H; [by injection H as <- _|].
    destruct (session_step s (t_fuel t) (t_search t) (t_now t) z (t_op t)) as [[z1 ev]|] eqn:E; [|done].
    destruct (session_run s z1 ops) as [[z2 evs2]|] eqn:E2; [|done]. injection H as <- _. cbn [fold_left]. apply (IH _ _ _ _ E2).
    rewrite (step_options _ _ _ _ _ _ _ E), Ho. done.
  Qed.
End kept.

Lemma lists_kept s preferred ops z evs : session_run s (new_session preferred) ops = Some (z, evs) →
  (∀ u, u ∈ p_banned (z_practice z) ↔ blacklisted_by ops u) ∧ (∀ u, u ∈ z_review z ↔ reviewed_by ops u) ∧
  get_scheduler_options (z_copies z) = options_by preferred ops.
Proof.
  intros H. destruct (lists_from s ops _ _ _ H) as [H1 H2]. split; [|split].
  - intros u. rewrite H1. split; [|by left]. intros [?|[Hu _]]; [done|]. by apply elem_of_empty in Hu.
  - intros u. rewrite H2. split; [|by left]. intros [?|[Hu _]]; [done|]. by apply elem_of_nil in Hu.
  - by apply (options_from s ops _ _ _ _ H).
Qed.
