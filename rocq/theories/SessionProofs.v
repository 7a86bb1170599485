(** Whole lifetimes: what is kept in memory is what happened since the library was opened. *)
From stdpp Require Import gmap strings list.
From Coq Require Import ZArith Lia.
From Verif Require Import F32 Graph GraphSpec Library LibrarySpec Filters Options Batch BatchSpec Search SearchSpec SearchProofs WholeProofs FinishProofs Facade Sql Stores Propagate UnitScorer Practice
  AskSpec Session SessionSpec.

Lemma since_snoc evs ev : since_opening (evs ++ [ev]) = match ev with EOpened => [] | _ => since_opening evs ++ [ev] end.
Proof. unfold since_opening. by rewrite fold_left_app. Qed.
Lemma grades_snoc evs ev : grades (evs ++ [ev]) = grades evs ++ match ev with EGraded _ sc => [sc] | _ => [] end.
Proof. unfold grades. rewrite omap_app. f_equal. by destruct ev. Qed.
Lemma offered_snoc evs ev : offered (evs ++ [ev]) = offered evs ++ match ev with EBatch _ es => em_id <$> es | _ => [] end.
Proof. unfold offered. rewrite bind_app. cbn. by rewrite app_nil_r. Qed.
Lemma times_app e l l' : times e (l ++ l') = times e l + times e l'.
Proof. unfold times. by rewrite filter_app, app_length. Qed.
Lemma successes_app l l' : successes (l ++ l') = successes l + successes l'.
Proof. unfold successes. by rewrite List.filter_app, app_length. Qed.
Lemma successes_le l : successes l ≤ length l.
Proof. unfold successes. induction l as [|x l IH]; cbn; [done|]. destruct (success x); cbn; lia. Qed.

Lemma increments l : ∀ m e, default 0 (fold_left increment l m !! e) = default 0 (m !! e) + times e l.
Proof.
  induction l as [|x l IH]; intros m e; cbn [fold_left]; [unfold times; cbn; lia|]. rewrite IH. unfold increment, times. rewrite filter_cons.
  destruct (decide (x = e)) as [-> | Hne].
  - rewrite lookup_insert. cbn. lia.
  - rewrite lookup_insert_ne by done. done.
Qed.

Section session.
  Context (s : setting).
  Let g := lib_graph (g_lib s).
  (** [inside_blacklisted], from the graph and the blacklist. *)
  Definition inside (banned : gset uid) (e : uid) : bool :=
    let l := default "" (get_exercise_lesson g e) in
    bool_decide (e ∈ banned) || (bool_decide (l ∈ banned) || bool_decide (default "" (get_lesson_course g l) ∈ banned)).
  Definition pile_op_of (ev : event) : option pile_op :=
    match ev with
    | EGraded e sc => Some (PScore e sc)
    | EBatch banned _ | EFailed banned => Some (PBatch (inside banned))
    | _ => None
    end.
  Record book (z : session) (evs : list event) : Prop := {
    bk_counts : z_counts z = (successes (grades (since_opening evs)), length (grades (since_opening evs)) - successes (grades (since_opening evs)));
    bk_freq : ∀ e, default 0 (z_freq z !! e) = times e (offered (since_opening evs));
    bk_pile : z_pile z = pile_after (omap pile_op_of (since_opening evs)) }.

  Lemma book_other z z' evs ev : book z evs → ev = EOther ∨ ev = ERefused → z_counts z' = z_counts z → z_pile z' = z_pile z → z_freq z' = z_freq z →
    book z' (evs ++ [ev]).
  Proof using.
    intros [H1 H2 H3] Hev Ec Ep Ef.
    assert (E : since_opening (evs ++ [ev]) = since_opening evs ++ [ev]) by (rewrite since_snoc; by destruct Hev as [-> | ->]).
    split; rewrite E.
    - rewrite grades_snoc, Ec, H1. by destruct Hev as [-> | ->]; rewrite app_nil_r.
    - intros e. rewrite offered_snoc, Ef, H2. by destruct Hev as [-> | ->]; rewrite app_nil_r.
    - rewrite omap_app, Ep, H3. by destruct Hev as [-> | ->]; cbn; rewrite app_nil_r.
  Qed.
  Lemma pile_snoc ops op : pile_after (ops ++ [op]) = pile_step (pile_after ops) op.
  Proof using. unfold pile_after. by rewrite fold_left_app. Qed.
  Lemma book_step fuel search now z op z' ev evs : book z evs → session_step s fuel search now z op = Some (z', ev) → book z' (evs ++ [ev]).
  Proof using.
    intros Hb. destruct op as [c|m|v|c|q|preferred]; cbn [session_step].
    - destruct (call_step s fuel now (z_practice z) c) as [p|]; [|done].
      destruct c as [f e sc ts| | | | | | |]; try (intros [= <- <-]; apply (book_other z); by auto).
      destruct (stored_more (z_practice z) p); intros [= <- <-]; [|apply (book_other z); by auto].
      destruct Hb as [H1 H2 H3]. split; rewrite since_snoc; cbn [z_counts z_freq z_pile].
      + rewrite grades_snoc, successes_app, app_length, H1. pose proof (successes_le (grades (since_opening evs))).
        destruct sc; cbn; f_equal; lia.
      + intros e'. by rewrite offered_snoc, app_nil_r, H2.
      + rewrite omap_app. cbn [omap list_omap pile_op_of]. by rewrite pile_snoc, H3.
    - intros [= <- <-]. apply (book_other z); by auto.
    - intros [= <- <-]. apply (book_other z); by auto.
    - intros [= <- <-]. apply (book_other z); by auto.
    - unfold batch_step. destruct (request_batch _ _ _ _ _ _ _ _ _ _ _ _) as [es| | |]; [| |done|done].
      + intros [= <- <-]. destruct Hb as [H1 H2 H3]. split; rewrite since_snoc; cbn [z_counts z_freq z_pile].
        * by rewrite grades_snoc, app_nil_r.
        * intros e. by rewrite offered_snoc, increments, times_app, H2.
        * rewrite omap_app. cbn [omap list_omap pile_op_of]. by rewrite pile_snoc, <- H3.
      + destruct (initial_candidates _ _ _ _ _ _); intros [= <- <-]; [|apply (book_other z); by auto..].
        destruct Hb as [H1 H2 H3]. split; rewrite since_snoc; cbn [z_counts z_freq z_pile].
        * by rewrite grades_snoc, app_nil_r.
        * intros e. by rewrite offered_snoc, app_nil_r.
        * rewrite omap_app. cbn [omap list_omap pile_op_of]. by rewrite pile_snoc, <- H3.
    - intros [= <- <-]. split; rewrite since_snoc; done.
  Qed.
  Lemma run_invariant (I : session → list event → Prop) (P : timed → Prop) :
    (∀ z evs t z' ev, I z evs → P t → session_step s (t_fuel t) (t_search t) (t_now t) z (t_op t) = Some (z', ev) → I z' (evs ++ [ev])) →
    ∀ ops z evs z' evs', I z evs → Forall P ops → session_run s z ops = Some (z', evs') → I z' (evs ++ evs').
  Proof using.
    intros HI. induction ops as [|t ops IH]; intros z evs z' evs' Hz Hops H; cbn [session_run] in H.
    - injection H as <- <-. by rewrite app_nil_r.
    - apply Forall_cons in Hops as [Ht Hops].
      destruct (session_step s (t_fuel t) (t_search t) (t_now t) z (t_op t)) as [[z1 ev]|] eqn:E; [|done].
      destruct (session_run s z1 ops) as [[z2 evs2]|] eqn:E2; [|done]. injection H as <- <-.
      rewrite (assoc_L (++) evs [ev] evs2 : evs ++ ev :: evs2 = (evs ++ [ev]) ++ evs2). eapply IH; [|done|exact E2]. by eapply HI.
  Qed.
  Lemma book_run preferred ops z evs : session_run s (new_session preferred) ops = Some (z, evs) → book z evs.
  Proof using.
    intros H. apply (run_invariant book (λ _, True) (λ z evs t z' ev Hz _ E, book_step _ _ _ z _ z' ev evs Hz E) ops (new_session preferred) []); [|by apply Forall_true|done].
    split; done.
  Qed.

  (** ** The statements *)
  Lemma rate_right preferred ops z evs : session_run s (new_session preferred) ops = Some (z, evs) →
    let gs := grades (since_opening evs) in
    success_rate (z_counts z) = if decide (gs = []) then f_1 else fdiv (f_of_nat (successes gs)) (f_of_nat (length gs)).
  Proof using.
    intros H gs. apply book_run in H as [H _ _]. rewrite H. fold gs. unfold success_rate. cbn [fst snd].
    pose proof (successes_le gs). replace (successes gs + (length gs - successes gs)) with (length gs) by lia.
    destruct (decide (gs = [])) as [->|Hne]; [done|]. destruct (Nat.eqb (length gs) 0) eqn:E; [|done].
    apply Nat.eqb_eq in E. by destruct gs.
  Qed.
  Lemma frequency_right preferred ops z evs : session_run s (new_session preferred) ops = Some (z, evs) →
    ∀ fuel now saved e, s_freq (env_of s fuel now z saved) e = times e (offered (since_opening evs)).
  Proof using. intros H fuel now saved e. apply book_run in H as [_ H _]. apply H. Qed.
End session.
