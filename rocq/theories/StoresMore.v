(** Proofs about the reward store, the blacklist and the review list. *)
From stdpp Require Import gmap strings list sorting.
From Coq Require Import ZArith Lia.
From Verif Require Import F32 Graph Sql Stores StoresSpec StoresProofs.
From Flocq Require Import IEEE754.BinarySingleNaN.

(** * Keeping the newest items *)
Lemma keeps_newest_length {A} n (X Y : list (item A)) : keeps_newest n X Y → length Y = min n (length X).
Proof. intros (l & Hp & _ & _ & Hl & _). by rewrite Hp. Qed.
Lemma keeps_newest_step {A} n (X Y W : list (item A)) z :
  keeps_newest n X Y → keeps_newest n (Y ++ [z]) W → keeps_newest n (X ++ [z]) W.
Proof.
  intros HY HW. pose proof (keeps_newest_length _ _ _ HY) as HlY.
  destruct HY as (Y' & HYp & rest & HX & HYl & HYs & HYr).
  destruct HW as (W' & HWp & rest2 & HYz & HWl & HWs & HWr).
  assert (HXY : X ≡ₚ Y ++ rest) by (rewrite HX; by rewrite HYp).
  exists W'. split; [done|]. exists (rest2 ++ rest).
  assert (HXz : X ++ [z] ≡ₚ W' ++ rest2 ++ rest).
  { rewrite HXY. rewrite app_assoc. rewrite <-HYz. rewrite <-!app_assoc. f_equiv. apply Permutation_app_comm. }
  split; [done|]. split.
  { rewrite HWl, !app_length, HlY. simpl. lia. }
  split; [done|]. intros x y Hx [Hy|Hy]%elem_of_app; [by apply HWr|].
  assert (HlX : length X = length Y + length rest) by (by rewrite HXY, app_length).
  assert (0 < length rest) by (destruct rest; [by apply elem_of_nil in Hy|simpl; lia]).
  assert (Hl2 : length (Y ++ [z]) = length W' + length rest2) by (by rewrite HYz, app_length).
  rewrite app_length in Hl2, HWl. simpl in Hl2, HWl.
  assert (length rest2 = 1) as Hone by lia. destruct rest2 as [|y2 [|]]; try done. clear Hone.
  assert (Hy2 : y2 ∈ Y ++ [z]) by (rewrite HYz; apply elem_of_app; right; by left).
  apply elem_of_app in Hy2 as [Hy2|Hy2%elem_of_list_singleton]; [|subst y2].
  - trans (y2.2); [|apply HWr; [done|by left]]. apply HYr; [by rewrite <-HYp|done].
  - assert (HWY : W' ≡ₚ Y) by (eapply Permutation_app_inv_r; by symmetry).
    apply HYr; [|done]. by rewrite <-HYp, <-HWY.
Qed.
Definition later {A} (a b : item A) : Prop := (b.2 <= a.2)%Z.
Global Instance later_dec {A} (a b : item A) : Decision (later a b).
Proof. unfold later. apply _. Defined.
Global Instance later_total {A} : Total (@later A).
Proof. intros a b. unfold later. lia. Qed.
Global Instance later_trans {A} : Transitive (@later A).
Proof. intros a b c. unfold later. lia. Qed.
Lemma sorted_exists {A} (X : list (item A)) : ∃ l, l ≡ₚ X ∧ StronglySorted (λ a b, (b.2 <= a.2)%Z) l.
Proof.
  exists (merge_sort later X). split; [apply merge_sort_Permutation|].
  apply (StronglySorted_merge_sort later).
Qed.
Lemma keeps_newest_all {A} n (X : list (item A)) : length X <= n → keeps_newest n X X.
Proof.
  intros Hl. destruct (sorted_exists X) as (l & Hp & Hs). exists l. split; [done|]. exists [].
  split; [by rewrite app_nil_r|]. split; [rewrite Hp; lia|]. split; [done|]. by intros ? ? ? ?%elem_of_nil.
Qed.

(** * The reward store *)
Local Arguments record_unit_rewards : simpl never.
Definition good_cache (c : gmap string (list unit_reward)) : Prop :=
  ∀ u l, c !! u = Some l → length l <= max_cache_size ∧ Forall (λ r, e_unit r = u) l.
Definition bounded (t : table reward) : Prop := ∀ u, length (stored t u) <= max_rewards.
Lemma of_unit_snoc u rs r : of_unit u (rs ++ [r]) = of_unit u rs ++ if bool_decide (e_unit r = u) then [reward_item r] else [].
Proof.
  unfold of_unit. rewrite filter_app, fmap_app. f_equal. case_bool_decide as H.
  - by rewrite filter_cons_True.
  - by rewrite filter_cons_False.
Qed.

Lemma evict_spec q k (t : table reward) : sorts_newest_first q → good t →
  let t' := Table (t_uids t) (trim_unit_by_id q max_rewards k (t_rows t)) in
  good t' ∧ ∀ u, (uid_of (t_uids t) u = Some k → keeps_newest max_rewards (stored t u) (stored t' u)) ∧
                 (uid_of (t_uids t) u ≠ Some k → stored t' u = stored t u).
Proof.
  intros Hq (Hn & Hg & Hb). cbv zeta. split.
  - split; [done|]. split; [by apply good_rows_filter|]. simpl. rewrite Forall_forall in *.
    intros r [_ Hr]%elem_of_list_filter. by apply Hb.
  - intros u. unfold stored. cbn [t_uids t_rows]. split; intros H.
    + rewrite H. exists (item_row <$> take max_rewards (q (rows_of (t_rows t) k))). split.
      * apply fmap_Permutation. by apply trim_unit_by_id_same.
      * destruct (Hq (rows_of (t_rows t) k)) as [Hp Hs].
        eapply newest_perm; [|by apply newest_take]. apply fmap_Permutation. exact Hp.
    + destruct (uid_of (t_uids t) u) as [k'|]; [|done]. f_equal.
      apply (trim_unit_by_id_other q max_rewards k (t_rows t) k'); [done..|]. congruence.
Qed.

Lemma reward_body_spec q t c upd r : sorts_newest_first q → good t → bounded t →
  if has_similar_reward c r then reward_body q (t, c, upd) r = Some (t, c, upd)
  else ∃ t', reward_body q (t, c, upd) r = Some (t', add_new_reward c r, upd ++ [e_unit r]) ∧ good t' ∧ bounded t' ∧
    ∀ u, if bool_decide (e_unit r = u) then keeps_newest max_rewards (stored t u ++ [reward_item r]) (stored t' u)
         else stored t' u = stored t u.
Proof.
  intros Hq Hg Hbd. unfold reward_body. destruct (has_similar_reward c r); [done|].
  destruct (insert_entry_spec bind_reward t r Hg) as (t1 & k & -> & Hg1 & Hk & _ & Hs). rewrite Hk.
  destruct (evict_spec q k t1 Hq Hg1) as [Hg2 He]. eexists. split; [done|]. split; [done|].
  set (t2 := Table _ _) in *.
  assert (Hall : ∀ u, if bool_decide (e_unit r = u) then keeps_newest max_rewards (stored t u ++ [reward_item r]) (stored t2 u)
         else stored t2 u = stored t u).
  { intros u. destruct (He u) as [He1 He2]. specialize (Hs u). case_bool_decide as Hu.
    - subst u. change (stored t1 (e_unit r) = stored t (e_unit r) ++ [reward_item r]) in Hs. rewrite <-Hs. by apply He1.
    - rewrite app_nil_r in Hs. rewrite <-Hs. apply He2. intros Hk'. apply Hu.
      apply uid_of_Some in Hk. apply uid_of_Some in Hk'. congruence. }
  split; [|done]. intros u. specialize (Hall u). case_bool_decide.
  - apply keeps_newest_length in Hall. rewrite Hall. lia.
  - rewrite Hall. apply Hbd.
Qed.

(** The rewards of [rs] that are written, starting from cache [c]. *)
Fixpoint written (c : gmap string (list unit_reward)) (rs : list unit_reward) : list unit_reward :=
  match rs with
  | [] => []
  | r :: rs => if has_similar_reward c r then written c rs else r :: written (add_new_reward c r) rs
  end.
Fixpoint cache_after (c : gmap string (list unit_reward)) (rs : list unit_reward) :=
  match rs with
  | [] => c
  | r :: rs => if has_similar_reward c r then cache_after c rs else cache_after (add_new_reward c r) rs
  end.
Lemma of_unit_cons u r rs : of_unit u (r :: rs) = (if bool_decide (e_unit r = u) then [reward_item r] else []) ++ of_unit u rs.
Proof.
  unfold of_unit. case_bool_decide as H.
  - by rewrite filter_cons_True.
  - by rewrite filter_cons_False.
Qed.
Lemma reward_loop_spec q rs : sorts_newest_first q → ∀ t c upd, good t → bounded t →
  ∃ t', reward_loop q (t, c, upd) rs = Some (t', cache_after c rs, upd ++ (e_unit <$> written c rs)) ∧
    good t' ∧ bounded t' ∧
    ∀ X u, keeps_newest max_rewards X (stored t u) → keeps_newest max_rewards (X ++ of_unit u (written c rs)) (stored t' u).
Proof.
  intros Hq. induction rs as [|r rs IH]; intros t c upd Hg Hb.
  - exists t. simpl. rewrite app_nil_r. split; [done|]. split; [done|]. split; [done|]. intros X u.
    by rewrite app_nil_r.
  - pose proof (reward_body_spec q t c upd r Hq Hg Hb) as H. cbn [reward_loop written cache_after].
    destruct (has_similar_reward c r).
    + rewrite H. apply IH; done.
    + destruct H as (t1 & -> & Hg1 & Hb1 & H1).
      destruct (IH t1 (add_new_reward c r) (upd ++ [e_unit r]) Hg1 Hb1) as (t' & -> & Hg' & Hb' & H').
      exists t'. split; [by rewrite <-app_assoc|]. split; [done|]. split; [done|].
      intros X u HX. rewrite of_unit_cons. rewrite app_assoc. apply H'. specialize (H1 u).
      case_bool_decide as Hu.
      * by eapply keeps_newest_step.
      * rewrite app_nil_r. by rewrite H1.
Qed.
Lemma written_sublist c rs : written c rs `sublist_of` rs.
Proof.
  revert c. induction rs as [|r rs IH]; intros c; simpl; [done|].
  destruct (has_similar_reward c r); [apply sublist_cons|apply sublist_skip]; apply IH.
Qed.

(** One call. *)
Definition reward_inv (s : reward_store) : Prop := good (rs_table s) ∧ bounded (rs_table s).
Lemma record_rewards_spec q s rs : sorts_newest_first q → reward_inv s →
  ∃ s', record_unit_rewards q None s rs = (s', Some (e_unit <$> written (rs_cache s) rs)) ∧ reward_inv s' ∧
    rs_cache s' = cache_after (rs_cache s) rs ∧
    ∀ X u, keeps_newest max_rewards X (stored (rs_table s) u) →
       keeps_newest max_rewards (X ++ of_unit u (written (rs_cache s) rs)) (stored (rs_table s') u).
Proof.
  intros Hq [Hg Hb]. destruct (reward_loop_spec q rs Hq (rs_table s) (rs_cache s) [] Hg Hb) as (t' & E & Hg' & Hb' & H).
  unfold record_unit_rewards. rewrite E. eexists. split; [done|]. split; [done|]. split; [done|]. exact H.
Qed.
Lemma record_rewards_fault q i s rs : sorts_newest_first q → reward_inv s →
  record_unit_rewards q (Some i) s rs = (RewardStore (rs_table s) (cache_after (rs_cache s) (take i rs)), None).
Proof.
  intros Hq [Hg Hb]. destruct (reward_loop_spec q (take i rs) Hq (rs_table s) (rs_cache s) [] Hg Hb) as (t' & E & _).
  unfold record_unit_rewards. by rewrite E.
Qed.
Lemma reward_step_inv s op : reward_op_ok op → reward_inv s → reward_inv (reward_step s op).
Proof.
  intros Hop Hi. destruct op as [q [i|] rs|q stop n|stop p|]; simpl in *.
  - rewrite record_rewards_fault by done. exact Hi.
  - destruct (record_rewards_spec q s rs Hop Hi) as (s' & -> & H & _). exact H.
  - destruct Hi as [Hg Hb]. destruct (trim_by_id_spec q stop n (rs_table s) Hop Hg) as [H1 H2].
    split; [done|]. intros u. simpl. destruct (H2 u) as [H|[_ H]].
    + apply keeps_newest_length in H. specialize (Hb u). rewrite H. lia.
    + rewrite H. apply Hb.
  - destruct Hi as [Hg Hb]. destruct (remove_prefix_spec stop p (rs_table s) Hg) as [H1 H2].
    split; [done|]. intros u. simpl. specialize (H2 u). destruct (like_prefix p u); [destruct H2 as [H|[_ H]]|].
    + rewrite H. simpl. lia.
    + rewrite H. apply Hb.
    + rewrite H2. apply Hb.
  - exact Hi.
Qed.
Lemma reward_inv_init : reward_inv empty_reward_store.
Proof. split; [apply good_empty|]. intros u. simpl. lia. Qed.
Lemma reward_run_inv ops : Forall reward_op_ok ops → reward_inv (reward_run ops).
Proof.
  induction ops as [|op ops IH] using rev_ind; intros Hok; [apply reward_inv_init|].
  apply Forall_app in Hok as [Hok Hop]. rewrite Forall_singleton in Hop.
  unfold reward_run. rewrite fold_left_app. apply reward_step_inv; [done|]. by apply IH.
Qed.

Lemma rewards_bounded ops q u n : Forall reward_op_ok ops → sorts_newest_first q →
  length (stored (rs_table (reward_run ops)) u) <= 20 ∧
  match get_entries q (rs_table (reward_run ops)) u n with
  | Some l => Forall (λ x, e_unit x = u) l ∧ newest n (stored (rs_table (reward_run ops)) u) (item_of <$> l)
  | None => ∃ x, x ∈ stored (rs_table (reward_run ops)) u ∧ x.1 = None
  end.
Proof.
  intros Hok Hq. split; [|by apply get_entries_spec].
  destruct (reward_run_inv ops Hok) as [_ Hb]. apply Hb.
Qed.

(** What a call does. *)
Lemma record_rewards_call ops q rs : Forall reward_op_ok ops → sorts_newest_first q →
  let s := reward_run ops in
  ∃ s' ws, record_unit_rewards q None s rs = (s', Some (e_unit <$> ws)) ∧ ws `sublist_of` rs ∧
    ∀ u, keeps_newest 20 (stored (rs_table s) u ++ of_unit u ws) (stored (rs_table s') u).
Proof.
  intros Hok Hq. destruct (reward_run_inv ops Hok) as [Hg Hb].
  destruct (record_rewards_spec q (reward_run ops) rs Hq (conj Hg Hb)) as (s' & E & _ & _ & H).
  exists s', (written (rs_cache (reward_run ops)) rs). split; [done|]. split; [apply written_sublist|].
  intros u. apply H. apply keeps_newest_all. apply Hb.
Qed.
Lemma record_rewards_failed ops q i rs : Forall reward_op_ok ops → sorts_newest_first q →
  let s := reward_run ops in
  ∃ s', record_unit_rewards q (Some i) s rs = (s', None) ∧ rs_table s' = rs_table s.
Proof.
  intros Hok Hq. eexists. split; [apply record_rewards_fault; [done|by apply reward_run_inv]|]. done.
Qed.
Lemma trim_rewards_call ops q n : Forall reward_op_ok ops → sorts_newest_first q →
  ∀ u, keeps_newest n (stored (rs_table (reward_run ops)) u)
         (stored (rs_table (reward_step (reward_run ops) (RTrim q None n))) u).
Proof.
  intros Hok Hq u. destruct (reward_run_inv ops Hok) as [Hg _].
  destruct (trim_by_id_spec q None n (rs_table (reward_run ops)) Hq Hg) as [_ H].
  by destruct (H u) as [?|[? _]].
Qed.
Lemma prefix_rewards_call ops p : Forall reward_op_ok ops →
  ∀ u, stored (rs_table (reward_step (reward_run ops) (RRemovePrefix None p))) u =
       if like_prefix p u then [] else stored (rs_table (reward_run ops)) u.
Proof.
  intros Hok u. destruct (reward_run_inv ops Hok) as [Hg _].
  destruct (remove_prefix_spec None p (rs_table (reward_run ops)) Hg) as [_ H]. specialize (H u).
  simpl. destruct (like_prefix p u); [|done]. by destruct H as [?|[? _]].
Qed.

(** Histories without trims and prefix removals: the store holds the newest 20 of all rewards
    written. *)
Lemma mjoin_app {B} (a b : list (list B)) : mjoin (a ++ b) = mjoin a ++ mjoin b.
Proof. induction a as [|x a IH]; [done|]. simpl. rewrite IH. by rewrite app_assoc. Qed.
Lemma only_records_ok op : only_records op → reward_op_ok op.
Proof. by destruct op. Qed.
Lemma reward_history ops : Forall only_records ops →
  ∃ ws, ws `sublist_of` mjoin (op_rewards <$> ops) ∧
    ∀ u, keeps_newest 20 (of_unit u ws) (stored (rs_table (reward_run ops)) u).
Proof.
  induction ops as [|op ops IH] using rev_ind; intros Hok.
  - exists []. split; [done|]. intros u. apply keeps_newest_all. simpl. lia.
  - apply Forall_app in Hok as [Hok Hop]. rewrite Forall_singleton in Hop.
    destruct (IH Hok) as (ws & Hsub & H).
    assert (Hinv : reward_inv (reward_run ops)).
    { apply reward_run_inv. eapply Forall_impl; [exact Hok|]. apply only_records_ok. }
    unfold reward_run. rewrite fold_left_app. simpl. fold (reward_run ops).
    rewrite fmap_app, mjoin_app. simpl. rewrite app_nil_r.
    destruct op as [q [i|] rs| | |]; simpl in *; [|..|done|done|].
    + rewrite record_rewards_fault by done. exists ws. split; [by apply sublist_inserts_r|]. exact H.
    + destruct (record_rewards_spec q (reward_run ops) rs Hop Hinv) as (s' & -> & _ & _ & H').
      exists (ws ++ written (rs_cache (reward_run ops)) rs). split.
      * apply sublist_app; [done|]. apply written_sublist.
      * intros u. unfold of_unit at 1. rewrite filter_app, fmap_app. apply (H' (of_unit u ws) u). apply H.
    + exists ws. split; [by rewrite app_nil_r|]. exact H.
Qed.

(** Calls with several rewards are a sequence of calls with one. *)
Lemma reward_loop_app q a : ∀ st b, reward_loop q st (a ++ b) =
  match reward_loop q st a with Some st => reward_loop q st b | None => None end.
Proof. induction a as [|r a IH]; intros st b; [done|]. simpl. destruct (reward_body q st r); [apply IH|done]. Qed.
Lemma reward_loop_upd q rs : sorts_newest_first q → ∀ t c upd, good t → bounded t →
  reward_loop q (t, c, upd) rs =
  match reward_loop q (t, c, []) rs with Some (t', c', u') => Some (t', c', upd ++ u') | None => None end.
Proof.
  intros Hq. induction rs as [|r rs IH]; intros t c upd Hg Hb.
  - simpl. by rewrite app_nil_r.
  - cbn [reward_loop]. pose proof (reward_body_spec q t c upd r Hq Hg Hb) as H.
    pose proof (reward_body_spec q t c [] r Hq Hg Hb) as H0.
    destruct (has_similar_reward c r).
    + rewrite H, H0. by apply IH.
    + destruct H as (t1 & E & Hg1 & Hb1 & _). destruct H0 as (t2 & E2 & _).
      rewrite E, E2. assert (t1 = t2) as <-.
      { unfold reward_body in E, E2. destruct (has_similar_reward c r); [simplify_eq; congruence|].
        destruct (insert_entry bind_reward t r); [|done]. destruct (uid_of _ _); [|done]. simplify_eq. done. }
      rewrite (IH t1 (add_new_reward c r) (upd ++ [e_unit r]) Hg1 Hb1).
      rewrite (IH t1 (add_new_reward c r) ([] ++ [e_unit r]) Hg1 Hb1).
      destruct (reward_loop q (t1, add_new_reward c r, []) rs) as [[[? ?] ?]|]; [|done].
      simpl. by rewrite <-app_assoc.
Qed.
Lemma record_rewards_split ops q a b : Forall reward_op_ok ops → sorts_newest_first q →
  let s := reward_run ops in
  let '(s1, u1) := record_unit_rewards q None s a in
  let '(s2, u2) := record_unit_rewards q None s1 b in
  ∃ l1 l2, u1 = Some l1 ∧ u2 = Some l2 ∧ record_unit_rewards q None s (a ++ b) = (s2, Some (l1 ++ l2)).
Proof.
  intros Hok Hq. cbv zeta. destruct (reward_run_inv ops Hok) as [Hg Hb].
  destruct (reward_loop_spec q a Hq (rs_table (reward_run ops)) (rs_cache (reward_run ops)) [] Hg Hb) as (t1 & E1 & Hg1 & Hb1 & _).
  destruct (reward_loop_spec q b Hq t1 (cache_after (rs_cache (reward_run ops)) a) [] Hg1 Hb1) as (t2 & E2 & _).
  unfold record_unit_rewards. rewrite reward_loop_app, E1. cbn [rs_table rs_cache].
  rewrite E2. eexists _, _. split; [reflexivity|]. split; [reflexivity|].
  rewrite (reward_loop_upd q b Hq t1 _ ([] ++ _) Hg1 Hb1), E2. reflexivity.
Qed.


(** The cache of a unit holds the last rewards written for it. *)
Definition cache_suffix (c : gmap string (list unit_reward)) (ws : list unit_reward) : Prop :=
  ∀ u l, c !! u = Some l → length l <= max_cache_size ∧ ∃ pre, filter (λ r, e_unit r = u) ws = pre ++ l.
Lemma cache_suffix_add c ws r : cache_suffix c ws → cache_suffix (add_new_reward c r) (ws ++ [r]).
Proof.
  intros H u l. unfold add_new_reward. rewrite filter_app.
  destruct (decide (e_unit r = u)) as [<-|Hu].
  - rewrite lookup_insert. intros [= <-]. rewrite (filter_cons_True _ r) by done. simpl.
    destruct (c !! e_unit r) as [l|] eqn:E; simpl.
    + destruct (H _ _ E) as (Hl & pre & Hpre). unfold max_cache_size in *.
      destruct (decide (10 <= length l)) as [Hd|Hd].
      * destruct l as [|x l]; [simpl in Hd; lia|]. cbn [tail]. simpl in Hl. rewrite app_length. cbn [length]. split; [lia|].
        exists (pre ++ [x]). trans ((pre ++ x :: l) ++ [r]); [f_equal; exact Hpre|]. by rewrite <-!app_assoc.
      * rewrite app_length. simpl. split; [lia|]. exists pre. trans ((pre ++ l) ++ [r]); [f_equal; exact Hpre|]. by rewrite <-!app_assoc.
    + unfold max_cache_size. simpl. split; [lia|]. by eexists.
  - rewrite lookup_insert_ne by done. intros E. destruct (H _ _ E) as (Hl & pre & Hpre). split; [done|].
    exists pre. rewrite (filter_cons_False _ r) by done. by rewrite app_nil_r.
Qed.
Lemma cache_suffix_written rs : ∀ c ws, cache_suffix c ws → cache_suffix (cache_after c rs) (ws ++ written c rs).
Proof.
  induction rs as [|r rs IH]; intros c ws H; simpl; [by rewrite app_nil_r|].
  destruct (has_similar_reward c r); [by apply IH|].
  replace (ws ++ r :: written (add_new_reward c r) rs) with ((ws ++ [r]) ++ written (add_new_reward c r) rs) by (by rewrite <-app_assoc).
  apply IH. by apply cache_suffix_add.
Qed.
Lemma reward_history_cache ops : Forall only_records ops → Forall never_fails ops →
  ∃ ws, ws `sublist_of` mjoin (op_rewards <$> ops) ∧ cache_suffix (rs_cache (reward_run ops)) ws ∧
    ∀ u, keeps_newest 20 (of_unit u ws) (stored (rs_table (reward_run ops)) u).
Proof.
  induction ops as [|op ops IH] using rev_ind; intros Hok Hnf.
  - exists []. split; [done|]. split; [intros u l; cbn; by rewrite lookup_empty|]. intros u. apply keeps_newest_all. simpl. lia.
  - apply Forall_app in Hok as [Hok Hop]. rewrite Forall_singleton in Hop.
    apply Forall_app in Hnf as [Hnf Hf]. rewrite Forall_singleton in Hf.
    destruct (IH Hok Hnf) as (ws & Hsub & Hc & H).
    assert (Hinv : reward_inv (reward_run ops)).
    { apply reward_run_inv. eapply Forall_impl; [exact Hok|]. apply only_records_ok. }
    unfold reward_run. rewrite fold_left_app. simpl. fold (reward_run ops).
    rewrite fmap_app, mjoin_app. simpl. rewrite app_nil_r.
    destruct op as [q [i|] rs| | |]; simpl in *; [done|..|done|done|].
    + destruct (record_rewards_spec q (reward_run ops) rs Hop Hinv) as (s' & -> & _ & Hcache & H'). simpl.
      exists (ws ++ written (rs_cache (reward_run ops)) rs). split; [|split].
      * apply sublist_app; [done|]. apply written_sublist.
      * rewrite Hcache. by apply cache_suffix_written.
      * intros u. unfold of_unit at 1. rewrite filter_app, fmap_app. apply (H' (of_unit u ws) u). apply H.
    + exists ws. split; [by rewrite app_nil_r|]. split; [|exact H]. intros u l. cbn. by rewrite lookup_empty.
Qed.
Lemma in_order_sublist ws rs : ws `sublist_of` rs → in_order rs → in_order ws.
Proof.
  induction 1 as [|x l k H IH|x l k H IH]; intros Ho; [done|..].
  - assert (Hk : in_order k). { intros i j a b Hij Ha Hb. apply (Ho (S i) (S j)); [lia|done..]. }
    intros [|i] [|j] a b Hij Ha Hb Hu; try lia.
    + simplify_eq/=. assert (b ∈ k).
      { apply elem_of_list_lookup_2 in Hb. clear -H Hb. induction H as [|y l k H IH|y l k H IH]; [done|..].
        - apply elem_of_cons in Hb as [->|Hin]; [by left|right; by apply IH].
        - right. by apply IH. }
      apply elem_of_list_lookup in H0 as [j' Hj']. by apply (Ho 0 (S j')); [lia|..].
    + simplify_eq/=. apply (IH Hk i j); [lia|done..].
  - apply IH. intros i j a b Hij Ha Hb. apply (Ho (S i) (S j)); [lia|done..].
Qed.
Lemma in_order_filter ws u : in_order ws →
  ∀ pre l a b, filter (λ r, e_unit r = u) ws = pre ++ l → a ∈ pre → b ∈ l → (e_ts a < e_ts b)%Z.
Proof.
  intros Ho pre l a b Hf Ha Hb.
  assert (Hs : in_order (filter (λ r, e_unit r = u) ws)).
  { eapply in_order_sublist; [|exact Ho].
    clear. induction ws as [|r l IH]; [done|]. rewrite filter_cons. destruct (decide _); [by apply sublist_skip|by apply sublist_cons]. }
  assert (Hu : ∀ x, x ∈ pre ++ l → e_unit x = u). { intros x. rewrite <-Hf. by intros [? _]%elem_of_list_filter. }
  rewrite Hf in Hs. apply elem_of_list_lookup in Ha as [i Hi]. apply elem_of_list_lookup in Hb as [j Hj].
  pose proof (lookup_lt_Some _ _ _ Hi) as Hlt.
  apply (Hs i (length pre + j) a b); [lia|by rewrite lookup_app_l|..].
  - rewrite lookup_app_r by lia. by replace (length pre + j - length pre) with j by lia.
  - rewrite (Hu a), (Hu b); [done|..]; apply elem_of_app; [right|left]; by eapply elem_of_list_lookup_2.
Qed.

Lemma fsub_nan_l b : fis_nan (fsub B754_nan b) = true.
Proof. by destruct b. Qed.
Lemma similar_not_nan a b : flt (fabs (fsub a b)) f_0_1 = true → fis_nan a = false ∧ fis_nan b = false.
Proof. destruct a, b; try done; vm_compute; intros H; by try destruct H. Qed.
Lemma feq_not_nan a b : feq a b = true → fis_nan a = false ∧ fis_nan b = false.
Proof. destruct a, b; done. Qed.
Lemma similar_reward_similar a b : similar_reward a b = true → similar (reward_item a) (reward_item b).
Proof.
  unfold similar_reward, similar, reward_item, bind_reward. intros [[H1 H2]%andb_true_iff H3]%andb_true_iff.
  destruct (feq_not_nan _ _ H1) as [-> ->]. destruct (similar_not_nan _ _ H3) as [-> ->]. simpl.
  destruct (e_val a) as [va wa], (e_val b) as [vb wb]. exists va, wa, vb, wb. simpl in *.
  repeat split; try done. unfold seconds_in_day in H2. lia.
Qed.

Lemma skipped_similar ops r : Forall only_records ops → Forall never_fails ops →
  in_order (mjoin (op_rewards <$> ops) ++ [r]) → ∀ q s', sorts_newest_first q →
  record_unit_rewards q None (reward_run ops) [r] = (s', Some []) →
  ∃ x, x ∈ stored (rs_table (reward_run ops)) (e_unit r) ∧ similar x (reward_item r).
Proof.
  intros Hok Hnf Ho q s' Hq Hrec.
  destruct (reward_history_cache ops Hok Hnf) as (ws & Hsub & Hc & Hk).
  assert (Hinv : reward_inv (reward_run ops)).
  { apply reward_run_inv. eapply Forall_impl; [exact Hok|]. apply only_records_ok. }
  destruct (record_rewards_spec q (reward_run ops) [r] Hq Hinv) as (s'' & E & _).
  rewrite E in Hrec. simpl in Hrec. destruct (has_similar_reward (rs_cache (reward_run ops)) r) eqn:Esim; [|done].
  clear E Hrec s' s''. unfold has_similar_reward in Esim.
  destruct (rs_cache (reward_run ops) !! e_unit r) as [l|] eqn:El; [|done].
  apply existsb_exists in Esim as (a & Ha & Hsim). apply elem_of_list_In in Ha.
  exists (reward_item a). split; [|by apply similar_reward_similar].
  destruct (Hc _ _ El) as (Hlen & pre & Hpre). specialize (Hk (e_unit r)).
  pose proof (keeps_newest_length _ _ _ Hk) as HL. destruct Hk as (L & HLp & rest & Hperm & _ & _ & Hrest).
  assert (Hin : reward_item a ∈ of_unit (e_unit r) ws).
  { unfold of_unit. rewrite Hpre, fmap_app. apply elem_of_app. right. by apply elem_of_list_fmap_1. }
  rewrite Hperm in Hin. apply elem_of_app in Hin as [Hin|Hin]; [by rewrite HLp|]. exfalso.
  assert (Hord : in_order ws).
  { eapply in_order_sublist; [exact Hsub|]. intros i j x y Hij Hx Hy. apply (Ho i j); [done|by apply lookup_app_l_Some..]. }
  assert (Hlen2 : 20 = length L).
  { assert (length (of_unit (e_unit r) ws) = length L + length rest) by (by rewrite Hperm, app_length).
    rewrite HLp in HL. assert (0 < length rest) by (destruct rest; [by apply elem_of_nil in Hin|cbn [length]; lia]).
    lia. }
  (* all of L is at least as new as [a], so L fits in the cache *)
  assert (Hsub2 : L ⊆+ reward_item <$> l).
  { assert (HLf : L = filter (λ x, ((reward_item a).2 <= x.2)%Z) L).
    { clear -Hrest Hin. induction L as [|x L IH]; [done|]. rewrite filter_cons_True.
      - f_equal. apply IH. intros y z Hy. apply Hrest. by right.
      - apply Hrest; [by left|done]. }
    rewrite HLf. trans (filter (λ x, ((reward_item a).2 <= x.2)%Z) (of_unit (e_unit r) ws)).
    - rewrite Hperm, filter_app. by apply submseteq_inserts_r.
    - unfold of_unit. rewrite Hpre, fmap_app, filter_app.
      assert (Hnone : filter (λ x, ((reward_item a).2 <= x.2)%Z) (reward_item <$> pre) = []).
      { assert (Hlt : ∀ x, x ∈ pre → (e_ts x < e_ts a)%Z) by (intros x Hx; by eapply in_order_filter).
        clear -Hlt. induction pre as [|x pre IH]; [done|]. rewrite fmap_cons, filter_cons_False.
        - apply IH. intros y Hy. apply Hlt. by right.
        - simpl. assert (e_ts x < e_ts a)%Z by (apply Hlt; by left). lia. }
      rewrite Hnone. simpl. apply sublist_submseteq.
      generalize (reward_item <$> l). clear. intros l. induction l as [|x l IH]; [done|].
      rewrite filter_cons. destruct (decide _); [by apply sublist_skip|by apply sublist_cons]. }
  apply submseteq_length in Hsub2. rewrite fmap_length in Hsub2. unfold max_cache_size in Hlen. lia.
Qed.

(** * The blacklist *)
Definition bl_inv (b : blacklist) : Prop :=
  NoDup (bl_rows b) ∧ (∀ u v, bl_cache b !! u = Some v → v = bool_decide (u ∈ bl_rows b)) ∧
  (∀ u, u ∈ bl_rows b → bl_cache b !! u = Some true).
Lemma open_blacklist_inv rows : NoDup rows → bl_inv (open_blacklist rows).
Proof.
  intros Hn. unfold open_blacklist, bl_inv. simpl.
  assert (H : ∀ rows (c : gmap string bool) u, fold_left (λ c u, <[u := true]> c) rows c !! u =
    if bool_decide (u ∈ rows) then Some true else c !! u).
  { clear. induction rows as [|x rows IH]; intros c u; [done|]. simpl. rewrite IH.
    destruct (decide (u ∈ rows)) as [Hin|Hin].
    - rewrite !bool_decide_eq_true_2; [done|by right|done].
    - rewrite (bool_decide_eq_false_2 (u ∈ rows)) by done. destruct (decide (u = x)) as [->|Hx].
      + rewrite lookup_insert. rewrite bool_decide_eq_true_2; [done|by left].
      + rewrite lookup_insert_ne by done. rewrite bool_decide_eq_false_2; [done|]. by intros [?|?]%elem_of_cons. }
  split; [done|]. split; intros u; rewrite H; case_bool_decide; try done. by intros v [= <-].
Qed.
Lemma has_entry_spec b u : bl_inv b → snd (has_entry b u) = bool_decide (u ∈ bl_rows b) ∧
  bl_rows (fst (has_entry b u)) = bl_rows b ∧ bl_inv (fst (has_entry b u)).
Proof.
  intros (Hn & H1 & H2). unfold has_entry. destruct (bl_cache b !! u) as [v|] eqn:E; simpl.
  - split; [by apply H1|]. done.
  - assert (Hu : u ∉ bl_rows b) by (intros Hu; apply H2 in Hu; congruence).
    split; [by rewrite bool_decide_eq_false_2|]. split; [done|]. split; [done|]. simpl. split.
    + intros x v. destruct (decide (x = u)) as [->|Hx].
      * rewrite lookup_insert. intros [= <-]. by rewrite bool_decide_eq_false_2.
      * rewrite lookup_insert_ne by done. apply H1.
    + intros x Hx. rewrite lookup_insert_ne by congruence. by apply H2.
Qed.
Lemma bl_delete_inv b u : bl_inv b →
  bl_inv (Blacklist (filter (λ x, x ≠ u) (bl_rows b)) (<[u := false]> (bl_cache b))).
Proof.
  intros (Hn & H1 & H2). split; [by apply NoDup_filter|]. simpl. split.
  - intros x v. destruct (decide (x = u)) as [->|Hx].
    + rewrite lookup_insert. intros [= <-]. rewrite bool_decide_eq_false_2; [done|]. by intros [? _]%elem_of_list_filter.
    + rewrite lookup_insert_ne by done. intros ->%H1. apply bool_decide_ext. rewrite elem_of_list_filter. tauto.
  - intros x [Hx Hin]%elem_of_list_filter. rewrite lookup_insert_ne by done. by apply H2.
Qed.
Lemma bl_fold_inv us : ∀ b, bl_inv b →
  let b' := fold_left (λ b u, Blacklist (filter (λ x, x ≠ u) (bl_rows b)) (<[u := false]> (bl_cache b))) us b in
  bl_inv b' ∧ ∀ x, x ∈ bl_rows b' ↔ x ∈ bl_rows b ∧ x ∉ us.
Proof.
  induction us as [|u us IH]; intros b Hb; cbv zeta in *.
  - split; [done|]. intros x. simpl. split; [intros H; split; [done|by intros ?%elem_of_nil]|by intros [? _]].
  - simpl. destruct (IH _ (bl_delete_inv b u Hb)) as [H1 H2]. split; [exact H1|]. intros x. rewrite H2. simpl.
    rewrite elem_of_list_filter, elem_of_cons. tauto.
Qed.

(** The effect of a call on the set of entries. *)
Lemma bl_step_spec b op : bl_inv b → bl_inv (fst (blacklist_step b op)) ∧
  bl_effect op (bl_rows b) (bl_rows (fst (blacklist_step b op))) ∧
  (bl_faultless op = true → snd (blacklist_step b op) = true).
Proof.
  intros Hb. destruct op as [f u|f u|stop p|u|]; simpl.
  - destruct (has_entry_spec b u Hb) as (Hv & Hr & Hi). unfold add_to_blacklist.
    destruct (has_entry b u) as [b' has]. simpl in *. subst has.
    destruct (decide (u ∈ bl_rows b)) as [Hin|Hin].
    + rewrite bool_decide_eq_true_2 by done. simpl. split; [done|]. split; [|done].
      destruct f; [done|]. intros x. rewrite Hr. split; [by left|]. by intros [?| ->].
    + rewrite bool_decide_eq_false_2 by done. rewrite Hr. rewrite bool_decide_eq_false_2 by done.
      destruct f; simpl; [done|]. split.
      * destruct Hi as (Hn & H1 & H2). rewrite Hr in Hn, H1, H2. split; simpl.
        { apply NoDup_app. split; [done|]. split; [|apply NoDup_singleton]. intros x Hx ->%elem_of_list_singleton. done. }
        split.
        { intros x v. destruct (decide (x = u)) as [->|Hx].
          - rewrite lookup_insert. intros [= <-]. rewrite bool_decide_eq_true_2; [done|]. apply elem_of_app. right. by left.
          - rewrite lookup_insert_ne by done. intros ->%H1. apply bool_decide_ext. rewrite elem_of_app, elem_of_list_singleton. tauto. }
        { intros x [Hx|Hx%elem_of_list_singleton]%elem_of_app; [|subst; by rewrite lookup_insert].
          destruct (decide (x = u)) as [->|Hxu]; [by rewrite lookup_insert|].
          rewrite lookup_insert_ne by done. by apply H2. }
      * split; [|done]. intros x. rewrite elem_of_app, elem_of_list_singleton. done.
  - unfold remove_from_blacklist. destruct f; simpl; [done|]. split; [by apply bl_delete_inv|]. split; [|done].
    intros x. rewrite elem_of_list_filter. tauto.
  - destruct stop as [i|]; simpl.
    + destruct (bl_fold_inv (take i (filter (λ u, like_prefix p u = true) (bl_rows b))) b Hb) as [H1 H2].
      split; [done|]. split; [|done]. split.
      * intros x Hx. by apply H2 in Hx as [? _].
      * intros x Hx Hl. apply H2. split; [done|]. intros Hin.
        assert (Hin' : x ∈ filter (λ u, like_prefix p u = true) (bl_rows b)).
        { rewrite <-(take_drop i (filter _ _)). apply elem_of_app. by left. }
        apply elem_of_list_filter in Hin' as [? _]. congruence.
    + destruct (bl_fold_inv (filter (λ u, like_prefix p u = true) (bl_rows b)) b Hb) as [H1 H2].
      split; [done|]. split; [|done]. intros x. rewrite H2, elem_of_list_filter.
      destruct (like_prefix p x); intuition congruence.
  - destruct (has_entry_spec b u Hb) as (_ & Hr & Hi). done.
  - split; [|done]. apply open_blacklist_inv. by destruct Hb.
Qed.
Lemma bl_run_inv ops : bl_inv (blacklist_run ops).
Proof.
  induction ops as [|op ops IH] using rev_ind.
  - apply open_blacklist_inv. constructor.
  - unfold blacklist_run. rewrite fold_left_app. simpl. by apply bl_step_spec.
Qed.
Lemma blacklist_coherent ops : let b := blacklist_run ops in
  NoDup (get_blacklist_entries b) ∧
  (∀ u, snd (has_entry b u) = true ↔ u ∈ get_blacklist_entries b) ∧
  (∀ u, snd (has_entry (open_blacklist (get_blacklist_entries b)) u) = snd (has_entry b u)) ∧
  (∀ op, bl_effect op (get_blacklist_entries b) (get_blacklist_entries (fst (blacklist_step b op))) ∧
         (bl_faultless op = true → snd (blacklist_step b op) = true)).
Proof.
  cbv zeta. pose proof (bl_run_inv ops) as Hb. set (b := blacklist_run ops) in *. clearbody b.
  split; [apply Hb|]. split; [|split].
  - intros u. destruct (has_entry_spec b u Hb) as [-> _]. by rewrite bool_decide_eq_true.
  - intros u. destruct (has_entry_spec b u Hb) as [-> _].
    unfold get_blacklist_entries. destruct (has_entry_spec (open_blacklist (bl_rows b)) u) as [-> _]; [|done]. apply open_blacklist_inv, Hb.
  - intros op. by apply bl_step_spec.
Qed.

(** * The review list *)
Global Instance review_op_eq_dec : EqDecision review_op.
Proof. solve_decision. Defined.
Lemma review_snoc ops op : review_run (ops ++ [op]) = review_step (review_run ops) op.
Proof. unfold review_run. by rewrite fold_left_app. Qed.
Lemma lookup_snoc_cases {B} (l : list B) x i y : (l ++ [x]) !! i = Some y →
  l !! i = Some y ∨ (i = length l ∧ y = x).
Proof.
  destruct (decide (i < length l)) as [H|H].
  - rewrite lookup_app_l by done. by left.
  - rewrite lookup_app_r by lia. destruct (i - length l) eqn:E; [|done]. simpl. intros [= <-]. right. split; [lia|done].
Qed.
Lemma review_member ops : NoDup (review_run ops) ∧
  (∀ u, u ∈ review_run ops ↔ ∃ i, added_at ops u i).
Proof.
  induction ops as [|op ops [IHn IH]] using rev_ind.
  - split; [constructor|]. intros u. split; [by intros ?%elem_of_nil|]. by intros (i & H & _).
  - rewrite review_snoc. destruct op as [v|v]; simpl.
    + case_bool_decide as Hv.
      * split; [done|]. intros u. rewrite IH. split.
        { intros (i & H1 & H2 & H3). exists i. split; [by apply lookup_app_l_Some|].
          pose proof (lookup_lt_Some _ _ _ H1) as Hlt. split.
          - intros j Hj Hc. apply lookup_snoc_cases in Hc as [Hc|[_ Hc]]; [|done]. by apply (H2 j).
          - intros j Hj Hc. apply lookup_snoc_cases in Hc as [Hc|[-> _]]; [|lia].
            destruct (H3 j Hj Hc) as (k & Hk & Hck). exists k. split; [done|]. by apply lookup_app_l_Some. }
        { intros (i & H1 & H2 & H3). apply lookup_snoc_cases in H1 as [H1|[-> [= <-]]].
          - pose proof (lookup_lt_Some _ _ _ H1) as Hlt. exists i. split; [done|]. split.
            + intros j Hj Hc. apply (H2 j Hj). by apply lookup_app_l_Some.
            + intros j Hj Hc. destruct (H3 j Hj) as (k & Hk & Hck); [by apply lookup_app_l_Some|].
              apply lookup_snoc_cases in Hck as [Hck|[-> _]]; [|lia]. by exists k.
          - by apply IH. }
      * split.
        { apply NoDup_app. split; [done|]. split; [|apply NoDup_singleton]. intros x Hx ->%elem_of_list_singleton. done. }
        intros u. rewrite elem_of_app, elem_of_list_singleton. split.
        { intros [Hu| ->].
          - apply IH in Hu as (i & H1 & H2 & H3). exists i. split; [by apply lookup_app_l_Some|].
            pose proof (lookup_lt_Some _ _ _ H1) as Hlt. split.
            + intros j Hj Hc. apply lookup_snoc_cases in Hc as [Hc|[_ Hc]]; [|done]. by apply (H2 j).
            + intros j Hj Hc. apply lookup_snoc_cases in Hc as [Hc|[-> _]]; [|lia].
              destruct (H3 j Hj Hc) as (k & Hk & Hck). exists k. split; [done|]. by apply lookup_app_l_Some.
          - exists (length ops). split; [by rewrite list_lookup_middle|]. split.
            + intros j Hj Hc. apply lookup_snoc_cases in Hc as [Hc|[_ Hc]]; [|done]. apply lookup_lt_Some in Hc. lia.
            + intros j Hj Hc. apply lookup_snoc_cases in Hc as [Hc|[-> _]]; [|lia].
              (* otherwise [v] is in the list: take the first addition after the last removal *)
              destruct (decide (Exists (λ k, j < k ∧ ops !! k = Some (VRemove v)) (seq 0 (length ops)))) as [He|He].
              * apply Exists_exists in He as (k & Hk & Hjk & Hck). exists k. apply elem_of_seq in Hk.
                split; [lia|]. by apply lookup_app_l_Some.
              * exfalso. apply Hv. apply IH.
                assert (Hnr : ∀ k, j < k → ops !! k ≠ Some (VRemove v)).
                { intros k Hk Hck. apply He. apply Exists_exists. exists k. split; [|done]. apply elem_of_seq.
                  apply lookup_lt_Some in Hck. lia. }
                clear -Hc Hnr. induction j as [j IHj] using lt_wf_ind.
                destruct (decide (Exists (λ i, i < j ∧ ops !! i = Some (VAdd v) ∧ Forall (λ k, ¬ (i < k < j ∧ ops !! k = Some (VRemove v))) (seq 0 j)) (seq 0 j))) as [Hex|Hex].
                { apply Exists_exists in Hex as (i & _ & Hi & Hai & Hf). apply (IHj i Hi Hai).
                  intros k Hk Hck. destruct (decide (k < j)) as [Hkj|Hkj].
                  - rewrite Forall_forall in Hf. apply (Hf k); [apply elem_of_seq; lia|]. done.
                  - destruct (decide (k = j)) as [->|]; [congruence|]. apply (Hnr k); [lia|done]. }
                { exists j. split; [done|]. split; [done|]. intros i Hi Hai.
                  destruct (decide (Exists (λ k, i < k < j ∧ ops !! k = Some (VRemove v)) (seq 0 j))) as [H|H].
                  - apply Exists_exists in H as (k & _ & H). by exists k.
                  - exfalso. apply Hex. apply Exists_exists. exists i. split; [apply elem_of_seq; lia|].
                    split; [done|]. split; [done|]. apply Forall_forall. intros k Hk Hc'. apply H.
                    apply Exists_exists. by exists k. } }
        { intros (i & H1 & H2 & H3). apply lookup_snoc_cases in H1 as [H1|[-> [= <-]]]; [|by right]. left.
          apply IH. pose proof (lookup_lt_Some _ _ _ H1) as Hlt. exists i. split; [done|]. split.
          - intros j Hj Hc. apply (H2 j Hj). by apply lookup_app_l_Some.
          - intros j Hj Hc. destruct (H3 j Hj) as (k & Hk & Hck); [by apply lookup_app_l_Some|].
            apply lookup_snoc_cases in Hck as [Hck|[-> _]]; [|lia]. by exists k. }
    + split; [by apply NoDup_filter|]. intros u. rewrite elem_of_list_filter, IH. split.
      * intros (Hu & i & H1 & H2 & H3). exists i. split; [by apply lookup_app_l_Some|].
        pose proof (lookup_lt_Some _ _ _ H1) as Hlt. split.
        { intros j Hj Hc. apply lookup_snoc_cases in Hc as [Hc|[_ [= ->]]]; [|done]. by apply (H2 j). }
        { intros j Hj Hc. apply lookup_snoc_cases in Hc as [Hc|[-> _]]; [|lia].
          destruct (H3 j Hj Hc) as (k & Hk & Hck). exists k. split; [done|]. by apply lookup_app_l_Some. }
      * intros (i & H1 & H2 & H3). apply lookup_snoc_cases in H1 as [H1|[_ ?]]; [|done].
        pose proof (lookup_lt_Some _ _ _ H1) as Hlt. split.
        { intros ->. apply (H2 (length ops) Hlt). by rewrite list_lookup_middle. }
        exists i. split; [done|]. split.
        { intros j Hj Hc. apply (H2 j Hj). by apply lookup_app_l_Some. }
        { intros j Hj Hc. destruct (H3 j Hj) as (k & Hk & Hck); [by apply lookup_app_l_Some|].
          apply lookup_snoc_cases in Hck as [Hck|[-> _]]; [|lia]. by exists k. }
Qed.
Lemma added_at_old ops op u i : added_at (ops ++ [op]) u i → i < length ops → added_at ops u i.
Proof.
  intros (H1 & H2 & H3) Hlt. apply lookup_snoc_cases in H1 as [H1|[-> _]]; [|lia]. split; [done|]. split.
  - intros j Hj Hc. apply (H2 j Hj). by apply lookup_app_l_Some.
  - intros j Hj Hc. destruct (H3 j Hj) as (k & Hk & Hck); [by apply lookup_app_l_Some|].
    apply lookup_snoc_cases in Hck as [Hck|[-> _]]; [|lia]. by exists k.
Qed.
Lemma added_at_unique ops u i j : added_at ops u i → added_at ops u j → i = j.
Proof.
  intros (H1 & H2 & H3) (G1 & G2 & G3). destruct (decide (i < j)) as [H|H].
  - destruct (G3 i H H1) as (k & Hk & Hc). exfalso. apply (H2 k); [lia|done].
  - destruct (decide (j < i)) as [H'|H']; [|lia].
    destruct (H3 j H' G1) as (k & Hk & Hc). exfalso. apply (G2 k); [lia|done].
Qed.
Lemma sublist_order {B} (l k : list B) : l `sublist_of` k → ∀ i j x y, i < j → l !! i = Some x → l !! j = Some y →
  ∃ i' j', i' < j' ∧ k !! i' = Some x ∧ k !! j' = Some y.
Proof.
  induction 1 as [|z l k H IH|z l k H IH]; intros i j x y Hij Hi Hj; [done|..].
  - destruct i as [|i], j as [|j]; try lia; simplify_eq/=.
    + assert (Hin : y ∈ k).
      { apply elem_of_list_lookup_2 in Hj. clear -H Hj. induction H as [|w l k H IH|w l k H IH]; [done|..].
        - apply elem_of_cons in Hj as [->|Hin]; [by left|right; by apply IH].
        - right. by apply IH. }
      apply elem_of_list_lookup in Hin as [j' Hj']. exists 0, (S j'). split; [lia|done].
    + destruct (IH i j x y) as (i' & j' & ? & ? & ?); [lia|done..|]. exists (S i'), (S j'). split; [lia|done].
  - destruct (IH i j x y) as (i' & j' & ? & ? & ?); [done..|]. exists (S i'), (S j'). split; [lia|done].
Qed.
Lemma review_order ops : ∀ i j u v a b, i < j → review_run ops !! i = Some u → review_run ops !! j = Some v →
  added_at ops u a → added_at ops v b → a < b.
Proof.
  induction ops as [|op ops IH] using rev_ind; intros i j u v a b Hij Hi Hj Ha Hb; [done|].
  rewrite review_snoc in Hi, Hj.
  destruct (review_member ops) as [Hnd Hmem].
  assert (Hold : ∀ w c, w ∈ review_run ops → added_at (ops ++ [op]) w c → c < length ops ∧ added_at ops w c).
  { intros w c Hw Hc. destruct (decide (c < length ops)) as [Hlt|Hge].
    - split; [done|]. by eapply added_at_old.
    - exfalso. apply Hmem in Hw as (d & D1 & D2 & D3). destruct Hc as (C1 & C2 & C3).
      pose proof (lookup_lt_Some _ _ _ D1). apply lookup_lt_Some in C1 as Hcl. rewrite app_length in Hcl. simpl in Hcl.
      assert (c = length ops) as -> by lia.
      destruct (C3 d) as (k & Hk & Hck); [lia|by apply lookup_app_l_Some|].
      apply lookup_snoc_cases in Hck as [Hck|[-> _]]; [|lia]. apply (D2 k); [lia|done]. }
  assert (Hcase : ∀ i j, i < j → review_run ops !! i = Some u → review_run ops !! j = Some v → a < b).
  { intros i' j' Hij' Hi' Hj'. apply (IH i' j' u v); try done.
    - apply (Hold u); [by eapply elem_of_list_lookup_2|done].
    - apply (Hold v); [by eapply elem_of_list_lookup_2|done]. }
  destruct op as [w|w]; simpl in Hi, Hj.
  - case_bool_decide as Hw; [by apply (Hcase i j)|].
    apply lookup_snoc_cases in Hj as [Hj|[-> ->]].
    + apply lookup_snoc_cases in Hi as [Hi|[-> _]]; [by apply (Hcase i j)|]. apply lookup_lt_Some in Hj. lia.
    + apply lookup_snoc_cases in Hi as [Hi|[-> _]]; [|lia].
      destruct (Hold u a) as [Hlt _]; [by eapply elem_of_list_lookup_2|done|].
      destruct (decide (b < length ops)) as [Hb'|]; [|lia]. exfalso. apply Hw. apply Hmem. exists b. by eapply added_at_old.
  - destruct (sublist_order (filter (λ x, x ≠ w) (review_run ops)) (review_run ops)) with (i := i) (j := j) (x := u) (y := v)
      as (i' & j' & ? & ? & ?); [|done..|by apply (Hcase i' j')].
    clear. induction (review_run ops) as [|x l IH]; [done|]. rewrite filter_cons.
    destruct (decide _); [by apply sublist_skip|by apply sublist_cons].
Qed.
Lemma review_list_set ops : NoDup (review_run ops) ∧
  (∀ u, u ∈ review_run ops ↔ ∃ i, added_at ops u i) ∧
  (∀ i j u v a b, i < j → review_run ops !! i = Some u → review_run ops !! j = Some v →
     added_at ops u a → added_at ops v b → a < b).
Proof. destruct (review_member ops) as [H1 H2]. split; [done|]. split; [done|]. apply review_order. Qed.
