(** No trial is lost, and questions do not disturb each other. *)
From stdpp Require Import gmap strings list.
From Coq Require Import ZArith.
From Verif Require Import F32 Graph Library Options Stores Scorer UnitScorer Practice Threads ThreadsSpec ThreadsProofs.

Definition trials (s : shared) : table f32 := p_trials (s_practice s).

(** ** Steps that leave the trials alone *)
Inductive keeps {A} (Q : A → Prop) : act A → Prop :=
| keeps_ret a : Q a → keeps Q (Ret a)
| keeps_act f : (∀ s s' m, f s = Some (s', m) → trials s' = trials s) → (∀ s s' m, f s = Some (s', m) → keeps Q m) → keeps Q (Act f).
Lemma keeps_step {A} (Q : A → Prop) f : (∀ s s' m, f s = Some (s', m) → trials s' = trials s ∧ keeps Q m) → keeps Q (Act f).
Proof. intros H. constructor; intros s s' m E; by apply (H _ _ _ E). Qed.
Definition quiet {A} (m : act A) : Prop := keeps (λ _, True) m.
Lemma quiet_ret {A} (a : A) : quiet (Ret a). Proof. by constructor. Qed.
Lemma keeps_then {A B} (Q : A → Prop) (R : B → Prop) (m : act A) (k : A → act B) :
  keeps Q m → (∀ a, Q a → keeps R (k a)) → keeps R (and_then m k).
Proof.
  intros Hm Hk. induction Hm as [a Ha|f Hf _ IH]; [by apply Hk|]. cbn [and_then]. apply keeps_step. intros s s' m H.
  destruct (f s) as [[s1 m1]|] eqn:E; [|done]. injection H as <- <-. split; [by eapply Hf|]. by eapply IH.
Qed.
Lemma quiet_then {A B} (m : act A) (k : A → act B) : quiet m → (∀ a, quiet (k a)) → quiet (and_then m k).
Proof. intros Hm Hk. eapply keeps_then; [done|]. intros a _. apply Hk. Qed.
Lemma quiet_look {A} (f : practice → A) : quiet (look f).
Proof. apply keeps_step. intros s s' m [= <- <-]. split; [done|apply quiet_ret]. Qed.
Lemma quiet_change {A} (f : practice → practice * A) : (∀ p, p_trials (f p).1 = p_trials p) → quiet (change f).
Proof.
  intros Hf. apply keeps_step. intros s s' m H. specialize (Hf (s_practice s)). destruct (f (s_practice s)) as [p a].
  injection H as <- <-. split; [done|apply quiet_ret].
Qed.
Lemma quiet_change_rewards {A} (f : practice → practice * A) : (∀ p, p_trials (f p).1 = p_trials p) → quiet (change_rewards f).
Proof.
  intros Hf. apply keeps_step. intros s s' m H. specialize (Hf (s_practice s)). destruct (Nat.eqb _ _); [|done].
  destruct (f (s_practice s)) as [p a]. injection H as <- <-. split; [done|apply quiet_ret].
Qed.
Lemma quiet_lock {A} (f : practice → A) : quiet (lock_rewards f).
Proof. apply keeps_step. intros s s' m [= <- <-]. split; [done|apply quiet_ret]. Qed.
Lemma quiet_unlock f : (∀ p, p_trials (f p) = p_trials p) → quiet (unlock_rewards f).
Proof. intros Hf. apply keeps_step. intros s s' m [= <- <-]. split; [apply Hf|apply quiet_ret]. Qed.

Section steps.
  Context (s : setting).
  Lemma quiet_entry now e : quiet (entry_steps s now e).
  Proof.
    apply quiet_then; [apply quiet_look|]. intros [x|]; [apply quiet_ret|].
    apply quiet_then; [apply quiet_look|]. intros scores. apply quiet_then; [apply quiet_look|]. intros deltas.
    destruct (score_exercise _ _ _ _ _); [|apply quiet_ret]. cbv zeta. apply quiet_then; [apply quiet_lock|]. intros reward.
    destruct (apply_reward _ _ _); (apply quiet_then; [by apply quiet_unlock|intros _; apply quiet_ret]).
  Qed.
  Lemma quiet_trials now e : quiet (trials_steps s now e).
  Proof.
    apply quiet_then; [apply quiet_look|]. intros [x|]; [apply quiet_ret|].
    apply quiet_then; [apply quiet_entry|]. intros [x| | |]; try apply quiet_ret.
    apply quiet_then; [apply quiet_look|]. intros h. apply quiet_ret.
  Qed.
  Lemma quiet_score fuel now u : quiet (score_steps s fuel now u).
  Proof.
    unfold score_steps.
    assert (C : quiet (change (λ p, let '(r, p) := run (unit_score (world_of s now p) fuel u) p in (p, r)))).
    { apply quiet_change. intros p. unfold run. by destruct (unit_score _ _ _ _). }
    destruct (get_unit_type _ u) as [[| |]|]; try exact C.
    apply quiet_then; [apply quiet_entry|intros r; apply quiet_ret].
  Qed.
  Lemma quiet_invalidate us : quiet (invalidate_steps s us).
  Proof. induction us as [|u us IH]; [apply quiet_ret|]. apply quiet_then; [by apply quiet_change|done]. Qed.

  (** ** The trial of a score *)
  (** A thread that still has to write the trial [x], and accepts the score only after that. *)
  Inductive owes (x : entry f32) : act result → Prop :=
  | owes_ret r : r ≠ Accepted true → owes x (Ret r)
  | owes_act f : (∀ s s' m, f s = Some (s', m) → trials s' = trials s) → (∀ s s' m, f s = Some (s', m) → owes x m) → owes x (Act f)
  | owes_pay f :
      (∀ s s' m, f s = Some (s', m) → trials s' = trials s ∧ m = Ret (Accepted false) ∨ insert_entries bind_f32 (trials s) [x] = Some (trials s') ∧ quiet m) →
      owes x (Act f).
  Lemma owes_then {A} x (m : act A) k : quiet m → (∀ a, owes x (k a)) → owes x (and_then m k).
  Proof.
    intros Hm Hk. induction Hm as [a Ha|f Hf _ IH]; [by apply Hk|]. cbn [and_then]. constructor; intros s0 s' m H;
      (destruct (f s0) as [[s1 m1]|] eqn:E; [|done]); injection H as <- <-; [by eapply Hf|by eapply IH].
  Qed.
  Lemma owes_write x (h : practice → practice * bool) k :
    (∀ p, p_trials (h p).1 = p_trials p ∧ (h p).2 = false ∨ insert_entries bind_f32 (p_trials p) [x] = Some (p_trials (h p).1) ∧ (h p).2 = true) →
    k false = Ret (Accepted false) → quiet (k true) → owes x (and_then (change h) k).
  Proof.
    intros Hh Hf Ht. apply owes_pay. intros s0 s' m H. specialize (Hh (s_practice s0)). destruct (h (s_practice s0)) as [p b].
    injection H as <- <-. cbn [fst snd] in Hh. destruct Hh as [[E ->]|[E ->]]; [by left|by right].
  Qed.
  Lemma owes_record fuel f e sc ts existing n :
    owes (Entry e (float_score sc) ts) (record_steps s fuel f e sc ts existing n).
  Proof.
    unfold record_steps. cbv zeta. apply owes_then.
    { destruct (Nat.ltb 0 n); [|apply quiet_ret]. apply quiet_change. intros p. by destruct (record_entries _ _ _ _). }
    intros [|]; [|by constructor]. apply owes_write; [|done|].
    { intros p. unfold record_entries. destruct (f_score f); [by left|]. destruct (insert_entries _ _ _) as [t|]; [by right|by left]. }
    apply quiet_then; [apply quiet_invalidate|]. intros _.
    destruct (Propagate.propagate_rewards _ _ _ _ _ _); [|apply quiet_ret]. apply quiet_then.
    - apply quiet_change_rewards. intros p. by destruct (record_unit_rewards _ _ _ _).
    - intros [us|]; [|apply quiet_ret]. apply quiet_then; [apply quiet_invalidate|intros _; apply quiet_ret].
  Qed.
  Lemma owes_give fuel now f e sc ts : owes (Entry e (float_score sc) ts) (give_steps s fuel now f e sc ts).
  Proof.
    unfold give_steps. cbv zeta. apply owes_then; [apply quiet_score|].
    intros [existing| | |]; try (by constructor);
      (apply owes_then; [apply quiet_trials|]; intros [n| | |]; try (by constructor); apply owes_record).
  Qed.

  (** ** All threads *)
  (** Whether the trial of a request is stored, and what its thread still does. *)
  Definition fits (r : request) (x : bool * act result) : Prop :=
    if x.1 then quiet x.2 else match trial_of r with None => quiet x.2 | Some t => owes t x.2 end.
  Definition stored (rs : list request) (l : list (bool * act result)) : list (entry f32) :=
    omap (λ x : request * (bool * act result), if (x.2).1 then trial_of x.1 else None) (zip rs l).

  Lemma omap_insert_Some {A B} (f : A → option B) (l : list A) i y y' z :
    l !! i = Some y → f y = None → f y' = Some z → omap f (<[i := y']> l) ≡ₚ z :: omap f l.
  Proof.
    intros Hl Hy Hz. rewrite insert_take_drop by by eapply lookup_lt_Some.
    rewrite <- (take_drop_middle l i y) at 3 by done. rewrite !omap_app. cbn. rewrite Hy, Hz.
    by rewrite Permutation_middle.
  Qed.
  Lemma omap_insert_same {A B} (f : A → option B) (l : list A) i y y' :
    l !! i = Some y → f y' = f y → omap f (<[i := y']> l) = omap f l.
  Proof.
    intros Hl Hy. rewrite insert_take_drop by by eapply lookup_lt_Some.
    rewrite <- (take_drop_middle l i y) at 3 by done. rewrite !omap_app. cbn. by rewrite Hy.
  Qed.
  Lemma zip_insert {A B} (l : list A) (k : list B) i a b :
    l !! i = Some a → i < length k → zip l (<[i := b]> k) = <[i := (a, b)]> (zip l k).
  Proof.
    revert k i. induction l as [|x l IH]; intros [|y k] [|i] Hl Hk; try done; try (cbn in *; lia).
    - cbn in Hl. by injection Hl as ->.
    - cbn. f_equal. apply IH; [done|]. cbn in Hk. lia.
  Qed.
  Lemma insert_app (t t' : table f32) es x : insert_entries bind_f32 t es = Some t' →
    insert_entries bind_f32 t (es ++ [x]) = insert_entries bind_f32 t' [x].
  Proof.
    revert t. induction es as [|y es IH]; intros t; cbn [insert_entries app]; [by intros [= ->]|].
    destruct (insert_entry _ _ _); [|done]. apply IH.
  Qed.

  Lemma moves_fits fuel p rs s' l' : moves (Shared p 0) (request_steps s fuel <$> rs) s' l' →
    ∃ bs es, l' = snd <$> bs ∧ Forall2 fits rs bs ∧ stored rs bs ≡ₚ es ∧ insert_entries bind_f32 (p_trials p) es = Some (trials s').
  Proof.
    induction 1 as [|s1 l1 i f s2 m H (bs & es & -> & Hf & Hes & Ht) Hl Hm].
    - exists ((λ r, (false, request_steps s fuel r)) <$> rs), []. split; [by rewrite <- list_fmap_compose|]. split; [|split; [|done]].
      + clear. induction rs as [|r rs IH]; constructor; [|done]. unfold fits. cbn [fst snd].
        destruct r as [now e|now f e sc ts]; cbn [trial_of request_steps]; [|apply owes_give].
        apply quiet_then; [apply quiet_entry|intros r; apply quiet_ret].
      + clear. induction rs as [|r rs IH]; [done|]. cbn. unfold stored in IH. by rewrite IH.
    - rewrite list_lookup_fmap in Hl. destruct (bs !! i) as [[b a]|] eqn:Hb; [|done]. injection Hl as ->.
      destruct (Forall2_lookup_r _ _ _ _ _ Hf Hb) as (r & Hr & Hfit).
      assert (Hi : i < length bs) by by eapply lookup_lt_Some.
      assert (Hz : zip rs bs !! i = Some (r, (b, Act f))). { rewrite lookup_zip_with, Hr. cbn. by rewrite Hb. }
      (* The step changes nothing. *)
      assert (K : trials s2 = trials s1 → fits r (b, m) →
        ∃ bs0 es0, <[i:=m]> (bs.*2) = bs0.*2 ∧ Forall2 fits rs bs0 ∧ stored rs bs0 ≡ₚ es0 ∧ insert_entries bind_f32 (p_trials p) es0 = Some (trials s2)).
      { intros E Hm'. exists (<[i := (b, m)]> bs), es. split; [by rewrite list_fmap_insert|]. split; [|split; [|by rewrite E]].
        - rewrite <- (list_insert_id rs i r) by done. by apply Forall2_insert.
        - unfold stored. rewrite (zip_insert rs bs i r) by done. by rewrite (omap_insert_same _ _ _ (r, (b, Act f))). }
      unfold fits in Hfit. cbn [fst snd] in Hfit.
      assert (Q : ∀ m', quiet (Act f) → m' = m → trials s2 = trials s1 ∧ quiet m).
      { intros m' Hq _. inversion_clear Hq as [|? Hq1 Hq2]. split; [by eapply Hq1|by eapply Hq2]. }
      destruct b; [by destruct (Q m) as [E Hq]; [| |apply K]|].
      destruct (trial_of r) as [t|] eqn:Et; [|by destruct (Q m) as [E Hq]; [| |apply K; [done|unfold fits; cbn; by rewrite Et]]].
      inversion_clear Hfit as [|? Ho1 Ho2|? Ho];
        [apply K; [by eapply Ho1|unfold fits; cbn; rewrite Et; by eapply Ho2]|]. destruct (Ho _ _ _ Hm) as [[E Ho']|[E Hq]].
      + apply K; [done|]. unfold fits. cbn. rewrite Et, Ho'. by constructor.
      + exists (<[i := (true, m)]> bs), (es ++ [t]). split; [by rewrite list_fmap_insert|]. split; [|split].
        * rewrite <- (list_insert_id rs i r) by done. by apply Forall2_insert.
        * unfold stored. rewrite (zip_insert rs bs i r) by done.
          rewrite (omap_insert_Some _ _ _ (r, (false, Act f)) _ t) by done. rewrite <- Hes. by rewrite Permutation_cons_append.
        * by rewrite (insert_app _ _ _ _ Ht).
  Qed.

  Lemma no_trial_lost fuel p rs p' out : at_once s fuel p rs p' out →
    ∃ es, accepted rs out ⊆+ es ∧ es ⊆+ given rs ∧ insert_entries bind_f32 (p_trials p) es = Some (p_trials p').
  Proof.
    intros H. apply moves_fits in H as (bs & es & E & Hf & Hes & Ht). exists es. split; [|split; [|done]].
    - rewrite <- Hes. clear Hes Ht. unfold accepted, stored. revert out E.
      induction Hf as [|r [b m] rs bs Hr Hf IH]; intros [|o out] E; try done. cbn in E. injection E as <- E.
      specialize (IH out E). cbn. unfold fits in Hr. cbn [fst snd] in Hr. destruct b.
      + destruct o as [|[|]|]; destruct (trial_of r); try done; try (by apply submseteq_skip); by apply submseteq_cons.
      + destruct o as [|[|]|]; try done. destruct (trial_of r); [|done]. by inversion Hr.
    - rewrite <- Hes. clear. unfold stored, given. revert bs. induction rs as [|r rs IH]; intros [|[b m] bs]; cbn; try done.
      { apply submseteq_nil_l. }
      destruct b; destruct (trial_of r); try apply IH; [by apply submseteq_skip|by apply submseteq_cons].
  Qed.
End steps.

(** ** Threads that only ask *)
Section asking.
  Context (s : setting) (now : Z) (p : practice).
  (** Nothing but right entries are added to the cache of exercises. *)
  Definition good (st : shared) : Prop :=
    let q := s_practice st in
    p_trials q = p_trials p ∧ p_deltas q = p_deltas p ∧ p_rewards q = p_rewards p ∧
    (∀ e x, c_exercise (p_caches q) !! e = Some x → shown s now p e = Val x) ∧
    (∀ e, c_exercise (p_caches q) !! e = None → c_exercise (p_caches p) !! e = None).
  Inductive tells {A} (Q : A → Prop) : act A → Prop :=
  | tells_ret a : Q a → tells Q (Ret a)
  | tells_act f : (∀ st st' m, good st → f st = Some (st', m) → good st') → (∀ st st' m, good st → f st = Some (st', m) → tells Q m) → tells Q (Act f).
  Lemma tells_then {A B} (Q : A → Prop) (R : B → Prop) (m : act A) (k : A → act B) :
    tells Q m → (∀ a, Q a → tells R (k a)) → tells R (and_then m k).
  Proof using.
    intros Hm Hk. induction Hm as [a Ha|f Hf _ IH]; [by apply Hk|]. cbn [and_then]. constructor; intros st st' m Hg H;
      (destruct (f st) as [[s1 m1]|] eqn:E; [|done]); injection H as <- <-; [by eapply Hf|by eapply IH].
  Qed.
  Lemma tells_look {A} (f : practice → A) (Q : A → Prop) : (∀ st, good st → Q (f (s_practice st))) → tells Q (look f).
  Proof using. intros Hf. constructor; intros st st' m Hg [= <- <-]; [done|]. constructor. by apply Hf. Qed.

  Lemma tells_entry e : tells (λ r, r = shown s now p e) (entry_steps s now e).
  Proof using.
    eapply tells_then; [apply (tells_look _ (λ hit, match hit with Some x => shown s now p e = Val x | None => c_exercise (p_caches p) !! e = None end))|].
    { intros st (_ & _ & _ & H1 & H2). destruct (c_exercise _ !! e) as [x|] eqn:E; [by apply H1|by apply H2]. }
    intros [x|] He; [by constructor|].
    assert (Hs : shown s now p e = compute_exercise s now p e).
    { unfold shown, exercise_entry. rewrite He. cbn [world_of w_exercise]. by destruct (compute_exercise _ _ _ _). }
    unfold compute_exercise in Hs.
    eapply tells_then; [apply (tells_look _ (λ l, l = default [] (get_entries (g_order s) (p_trials p) e (g_num_trials s))))|].
    { intros st (-> & _). done. }
    intros scores ->.
    eapply tells_then; [apply (tells_look _ (λ l, l = default [] (get_entries (g_order s) (p_deltas p) e (g_num_trials s))))|].
    { intros st (_ & -> & _). done. }
    intros deltas ->. destruct (score_exercise _ _ _ _ _) as [sc|]; [|by constructor]. cbv zeta in Hs |- *.
    eapply (tells_then (λ x, x = _)).
    { constructor; intros st st' m Hg [= <- <-]; [done|]. constructor. destruct Hg as (_ & _ & -> & _). reflexivity. }
    intros reward ->. destruct (apply_reward _ _ _) as [b|].
    - eapply (tells_then (λ _, True)); [|intros _ _; by constructor].
      constructor; intros st st' m Hg [= <- <-]; [|by constructor].
      destruct Hg as (E1 & E2 & E3 & H1 & H2). split; [done|]. split; [done|]. split; [done|].
      cbn [s_practice with_caches p_caches set_exercise c_exercise]. split.
      + intros e' x'. destruct (decide (e = e')) as [->|Hne]; [rewrite lookup_insert; by intros [= <-]|rewrite lookup_insert_ne by done; apply H1].
      + intros e'. destruct (decide (e = e')) as [->|Hne]; [by rewrite lookup_insert|rewrite lookup_insert_ne by done; apply H2].
    - eapply (tells_then (λ _, True)); [|intros _ _; by constructor].
      constructor; intros st st' m Hg [= <- <-]; [done|by constructor].
  Qed.

  Lemma good_shown st e : good st → shown s now (s_practice st) e = shown s now p e.
  Proof using.
    intros (E1 & E2 & E3 & H1 & H2). unfold shown at 1, exercise_entry.
    destruct (c_exercise (p_caches (s_practice st)) !! e) as [x|] eqn:E; [by rewrite (H1 _ _ E)|].
    unfold shown, exercise_entry. rewrite (H2 _ E). cbn [world_of w_exercise].
    assert (compute_exercise s now (s_practice st) e = compute_exercise s now p e) as ->.
    { unfold compute_exercise. by rewrite E1, E2, E3. }
    by destruct (compute_exercise _ _ _ _).
  Qed.
  Lemma only_asking fuel es p' out : at_once s fuel p (Ask now <$> es) p' out →
    out = (λ e, Answer (shown s now p e)) <$> es ∧ (∀ e, shown s now p' e = shown s now p e) ∧
    p_trials p' = p_trials p ∧ p_deltas p' = p_deltas p ∧ p_rewards p' = p_rewards p.
  Proof using.
    unfold at_once. intros H.
    assert (I : good (Shared p' 0) ∧ Forall2 (λ e m, tells (λ r, r = Answer (shown s now p e)) m) es (Ret <$> out)).
    { remember (Shared p' 0) as st eqn:Est. remember (Ret <$> out) as l eqn:El. clear Est El.
      induction H as [|s1 l1 i f s2 m H (Hg & Hf) Hl Hm].
      - split.
        { split; [done|]. split; [done|]. split; [done|]. split; [|done]. intros e x E. unfold shown, exercise_entry.
          cbn [s_practice] in E. by rewrite E. }
        clear. induction es as [|e es IH]; constructor; [|done]. cbn [request_steps]. eapply tells_then; [apply tells_entry|].
        intros r ->. by constructor.
      - destruct (Forall2_lookup_r _ _ _ _ _ Hf Hl) as (e & He & Ht). inversion_clear Ht as [|? H1 H2]. split; [by eapply H1|].
        rewrite <- (list_insert_id es i e) by done. apply Forall2_insert; [done|]. by eapply H2. }
    destruct I as [Hg Hf]. split; [|split].
    - clear -Hf. revert out Hf. induction es as [|e es IH]; intros [|o out] Hf; inversion_clear Hf as [|???? Ht Hf']; [done|].
      cbn. f_equal; [by inversion_clear Ht|by apply IH].
    - intros e. apply (good_shown _ e Hg).
    - by destruct Hg as (? & ? & ? & _).
  Qed.
End asking.
