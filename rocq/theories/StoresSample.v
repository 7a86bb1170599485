(** Consequences of the store proofs in the form of the properties, and concrete cases. *)
From stdpp Require Import gmap strings list sorting.
From Coq Require Import ZArith Lia.
From Verif Require Import F32 Graph Sql Stores StoresSpec StoresProofs StoresMore Compute.
Local Open Scope string_scope.
Local Open Scope list_scope.

(** An order that sorts. *)
Global Instance later_first_dec {A} (a b : row A) : Decision (later_first a b).
Proof. unfold later_first. apply _. Defined.
Global Instance later_first_total {A} : Total (@later_first A).
Proof. intros a b. unfold later_first. lia. Qed.
Global Instance later_first_trans {A} : Transitive (@later_first A).
Proof. intros a b c. unfold later_first. lia. Qed.
Definition by_time {A} : order A := merge_sort later_first.
Lemma by_time_ok {A} : sorts_newest_first (@by_time A).
Proof. intros l. split; [apply merge_sort_Permutation|]. apply (StronglySorted_merge_sort later_first). Qed.

Lemma store_run_snoc {A} (bind : A → option A) ops op :
  store_run bind (ops ++ [op]) = store_step bind (store_run bind ops) op.
Proof. unfold store_run. by rewrite fold_left_app. Qed.
(** Trimming scores and deltas. *)
Lemma trim_newest {A} n (es : list (item A)) : ∃ l ties, newest n es l ∧
  filter (λ x, newer es.*2 x.2 < n) es ≡ₚ l ++ ties ∧ (∀ x, x ∈ ties → ∃ y, y ∈ l ∧ y.2 = x.2).
Proof.
  destruct (sorted_exists es) as (s & Hp & Hs).
  assert (Hs2 : StronglySorted (λ a b : Z, (b <= a)%Z) s.*2) by by apply (sorted_map snd).
  assert (Hk : ∀ x, x ∈ s → newer es.*2 x.2 < n ↔ x.2 ∈ (take n s).*2).
  { intros x Hx. rewrite (newer_perm _ s.*2) by (by rewrite Hp). rewrite fmap_take.
    symmetry. apply tops_newer; [done|]. by apply elem_of_list_fmap_1. }
  exists (take n s), (filter (λ x, x.2 ∈ (take n s).*2) (drop n s)). split; [|split].
  - exists (drop n s). split; [by rewrite take_drop|]. split; [by rewrite take_length, Hp|].
    split; [by apply (sorted_take snd)|]. intros x y Hx Hy. by apply (sorted_split snd n s).
  - trans (filter (λ x, newer es.*2 x.2 < n) s); [by apply filter_Permutation|].
    rewrite (filter_ext_in _ (λ x, x.2 ∈ (take n s).*2) s Hk).
    assert (Heq : filter (λ x, x.2 ∈ (take n s).*2) s =
      filter (λ x, x.2 ∈ (take n s).*2) (take n s) ++ filter (λ x, x.2 ∈ (take n s).*2) (drop n s)).
    { rewrite <-filter_app. by rewrite take_drop. }
    rewrite Heq. f_equiv. clear. assert (H : ∀ x, x ∈ take n s → x.2 ∈ (take n s).*2) by (intros; by apply elem_of_list_fmap_1).
    revert H. generalize (take n s).*2. generalize (take n s). clear. intros l ts H.
    induction l as [|x l IH]; [done|]. rewrite filter_cons_True by (apply H; by left). f_equiv.
    apply IH. intros y Hy. apply H. by right.
  - intros x [Hx _]%elem_of_list_filter. apply elem_of_list_fmap in Hx as (y & -> & Hy). by exists y.
Qed.
Lemma newest_NoDup_ties {A} n (es l ties : list (item A)) : NoDup es.*2 → newest n es l →
  filter (λ x, newer es.*2 x.2 < n) es ≡ₚ l ++ ties → (∀ x, x ∈ ties → ∃ y, y ∈ l ∧ y.2 = x.2) → ties = [].
Proof.
  intros Hn (rest & Hp & _) Hf Ht. destruct ties as [|x ties]; [done|]. exfalso.
  destruct (Ht x) as (y & Hy & Heq); [by left|].
  assert (Hnf : NoDup (filter (λ x, newer es.*2 x.2 < n) es).*2).
  { eapply sublist_NoDup; [exact Hn|]. apply fmap_sublist.
    generalize (newer es.*2). clear. intros f. induction es as [|x es IH]; [done|]. rewrite filter_cons.
    destruct (decide _); [by apply sublist_skip|by apply sublist_cons]. }
  rewrite Hf in Hnf. rewrite fmap_app, fmap_cons in Hnf. apply NoDup_app in Hnf as (_ & Hd & _).
  apply (Hd x.2); [|by left]. rewrite <-Heq. by apply elem_of_list_fmap_1.
Qed.
Lemma trim_call {A} (bind : A → option A) ops q n : Forall op_ok ops → sorts_newest_first q → ∀ u,
  let before := stored (store_run bind ops) u in
  let after := stored (store_run bind (ops ++ [STrim q None n])) u in
  (∃ l ties, newest n before l ∧ after ≡ₚ l ++ ties ∧ ∀ x, x ∈ ties → ∃ y, y ∈ l ∧ y.2 = x.2) ∧
  (NoDup before.*2 → keeps_newest n before after).
Proof.
  intros Hok Hq u. cbv zeta. destruct (store_run_spec bind ops Hok) as [Hg _].
  rewrite !store_run_snoc. cbn [store_step].
  destruct (trim_entries_spec q None n (store_run bind ops) Hq Hg) as [_ H].
  destruct (H u) as [Heq|[? _]]; [|done]. rewrite Heq.
  set (es := stored (store_run bind ops) u). destruct (trim_newest n es) as (l & ties & H1 & H2 & H3). split.
  - by exists l, ties.
  - intros Hn. exists l. split; [|done]. trans (l ++ ties); [exact H2|]. rewrite (newest_NoDup_ties n es l ties Hn H1 H2 H3).
    by rewrite app_nil_r.
Qed.
Definition tied : list (entry f32) := [Entry "e" f_0_1 7; Entry "e" f_0_2 7; Entry "e" f_0_3 7].
Lemma trim_ties : ∃ ops n u l, Forall op_ok (ops ++ [STrim by_time None n]) ∧
  get_entries by_time (store_run bind_f32 (ops ++ [STrim by_time None n])) u 10 = Some l ∧ n < length l.
Proof.
  exists [SRecord false tied], 1, "e". eexists. split; [|split].
  - constructor; [done|]. constructor; [apply by_time_ok|done].
  - vm_compute. reflexivity.
  - simpl. lia.
Qed.

(** Prefix removal. *)
Lemma remove_prefix_call {A} (bind : A → option A) ops p : Forall op_ok ops → ∀ u,
  let before := stored (store_run bind ops) u in
  let after := stored (store_run bind (ops ++ [SRemovePrefix None p])) u in
  (begins_with p u → after = []) ∧ (plain p → ¬ begins_with_nocase p u → after = before) ∧
  (after = before ∨ after = [] ∧ like_prefix p u = true).
Proof.
  intros Hok u. cbv zeta. destruct (store_run_spec bind ops Hok) as [Hg _].
  rewrite !store_run_snoc. cbn [store_step].
  destruct (remove_prefix_spec None p (store_run bind ops) Hg) as [_ H]. specialize (H u).
  destruct (like_prefix p u) eqn:E.
  - destruct H as [H|[? _]]; [|done]. split; [done|]. split; [|by right]. intros Hp Hn. exfalso. apply Hn. by apply like_prefix_plain.
  - split; [|split; [done|by left]]. intros Hb%like_prefix_complete. congruence.
Qed.
Lemma remove_prefix_rewards ops p : Forall reward_op_ok ops → ∀ u,
  let before := stored (rs_table (reward_run ops)) u in
  let after := stored (rs_table (reward_step (reward_run ops) (RRemovePrefix None p))) u in
  (begins_with p u → after = []) ∧ (plain p → ¬ begins_with_nocase p u → after = before).
Proof.
  intros Hok u. cbv zeta. rewrite (prefix_rewards_call ops p Hok u). destruct (like_prefix p u) eqn:E.
  - split; [done|]. intros Hp Hn. exfalso. apply Hn. by apply like_prefix_plain.
  - split; [|done]. intros Hb%like_prefix_complete. congruence.
Qed.
Lemma remove_prefix_blacklist ops p : let b := blacklist_run ops in
  let b' := fst (blacklist_step b (BRemovePrefix None p)) in
  ∀ u, (begins_with p u → u ∉ get_blacklist_entries b') ∧
       (plain p → ¬ begins_with_nocase p u → u ∈ get_blacklist_entries b' ↔ u ∈ get_blacklist_entries b).
Proof.
  cbv zeta. intros u. destruct (blacklist_coherent ops) as (_ & _ & _ & H).
  destruct (H (BRemovePrefix None p)) as [He _]. unfold bl_effect in He. split.
  - intros Hb%like_prefix_complete. rewrite He. intros [_ ?]. congruence.
  - intros Hp Hn. rewrite He. split; [by intros [? _]|]. intros Hin. split; [done|].
    destruct (like_prefix p u) eqn:E; [|done]. exfalso. apply Hn. by apply like_prefix_plain.
Qed.
Lemma prefix_wildcard : ∃ (ops : list (store_op f32)) p u, Forall op_ok ops ∧ (∀ s, u ≠ p +:+ s) ∧
  stored (store_run bind_f32 ops) u ≠ [] ∧
  stored (store_run bind_f32 (ops ++ [SRemovePrefix None p])) u = [].
Proof.
  exists [SRecord false [Entry "theory-1::a::x" f_0_1 7]], "theory_1", "theory-1::a::x".
  split; [by constructor|]. split; [intros s Hs; by inversion Hs|]. split; [vm_compute; congruence|].
  vm_compute. reflexivity.
Qed.
Lemma prefix_case : ∃ ops p u, plain p ∧ (∀ s, u ≠ p +:+ s) ∧
  u ∈ get_blacklist_entries (blacklist_run ops) ∧
  get_blacklist_entries (fst (blacklist_step (blacklist_run ops) (BRemovePrefix None p))) = [].
Proof.
  exists [BAdd false "Piano::Scales"], "piano", "Piano::Scales".
  split; [split; vm_compute; set_solver|].
  split; [intros s Hs; by inversion Hs|]. split; [vm_compute; by left|]. vm_compute. reflexivity.
Qed.

(** Rewards that are dropped although nothing similar is stored. *)
Definition holds_similar (l : list (item reward)) (r : unit_reward) : bool :=
  existsb (λ x, match x.1, bind_reward (e_val r) with
    | Some (va, wa), Some (vb, wb) => feq va vb && flt (fabs (fsub wa wb)) f_0_1 && (Z.abs (x.2 - e_ts r) <? 86400)%Z
    | _, _ => false end) l.
Lemma holds_similar_spec l r : holds_similar l r = false → ∀ x, x ∈ l → ¬ similar x (reward_item r).
Proof.
  intros H [x1 x2] Hx (va & wa & vb & wb & Ea & Eb & H1 & H2 & H3). apply not_true_iff_false in H. apply H.
  apply existsb_exists. exists (x1, x2). split; [by apply elem_of_list_In|]. simpl in *. subst x1.
  unfold reward_item in Eb, H3. simpl in Eb, H3. rewrite Eb, H1, H2. simpl. lia.
Qed.
Definition r0 (ts : Z) : unit_reward := Entry "lesson" (f_0_2, f_0_25) ts.
Definition other (i : Z) : unit_reward := Entry "lesson" (f_of_Z i, f_0_25) 100.
Definition after_removal : list reward_op := [RRecord by_time None [r0 10]; RRemovePrefix None "lesson"].
Definition after_failure : list reward_op := [RRecord by_time (Some 1) [r0 10; r0 10]].
Definition after_eviction : list reward_op := [RRecord by_time None ((other <$> [1;2;3;4;5;6;7;8;9;10;11;12;13;14;15;16;17;18;19;20]%Z) ++ [r0 0])].
Definition dropped (ops : list reward_op) (r : unit_reward) : bool :=
  match record_unit_rewards by_time None (reward_run ops) [r] with
  | (_, Some []) => negb (holds_similar (stored (rs_table (reward_run ops)) (e_unit r)) r)
  | _ => false
  end.
Lemma dropped_spec ops r : dropped ops r = true →
  (∃ s, record_unit_rewards by_time None (reward_run ops) [r] = (s, Some [])) ∧
  ∀ x, x ∈ stored (rs_table (reward_run ops)) (e_unit r) → ¬ similar x (reward_item r).
Proof.
  unfold dropped. destruct (record_unit_rewards _ _ _ _) as [s [[|]|]]; try done. intros H. split; [by eexists|].
  apply holds_similar_spec. by apply negb_true_iff.
Qed.
Lemma after_ok : Forall reward_op_ok after_removal ∧ Forall reward_op_ok after_failure ∧ Forall reward_op_ok after_eviction.
Proof. repeat split; repeat (constructor; [try apply by_time_ok; done|]); constructor. Qed.
Lemma reward_dropped_after_removal : ∃ ops r, Forall reward_op_ok ops ∧
  (∃ s, record_unit_rewards by_time None (reward_run ops) [r] = (s, Some [])) ∧
  ∀ x, x ∈ stored (rs_table (reward_run ops)) (e_unit r) → ¬ similar x (reward_item r).
Proof. exists after_removal, (r0 20). split; [apply after_ok|]. apply dropped_spec. vm_compute. reflexivity. Qed.
Lemma reward_dropped_after_failure : ∃ ops r, Forall reward_op_ok ops ∧
  Forall (λ op, match op with RRecord _ _ _ => True | _ => False end) ops ∧
  (∃ s, record_unit_rewards by_time None (reward_run ops) [r] = (s, Some [])) ∧
  ∀ x, x ∈ stored (rs_table (reward_run ops)) (e_unit r) → ¬ similar x (reward_item r).
Proof.
  exists after_failure, (r0 20). split; [apply after_ok|]. split; [by repeat constructor|].
  apply dropped_spec. vm_compute. reflexivity.
Qed.
Lemma reward_dropped_after_eviction : ∃ ops r, Forall reward_op_ok ops ∧
  Forall only_records ops ∧ Forall never_fails ops ∧
  (∃ s, record_unit_rewards by_time None (reward_run ops) [r] = (s, Some [])) ∧
  ∀ x, x ∈ stored (rs_table (reward_run ops)) (e_unit r) → ¬ similar x (reward_item r).
Proof.
  exists after_eviction, (r0 200). split; [apply after_ok|].
  split; [constructor; [apply by_time_ok|constructor]|]. split; [by repeat constructor|].
  apply dropped_spec. vm_compute. reflexivity.
Qed.
(** A reward dropped as it should be. *)
Definition sample_records : list reward_op := [RRecord by_time None [r0 10; Entry "course" (f_0_2, f_0_25) 10; Entry "lesson" (f_0_3, f_0_25) 11]].
Lemma sample_records_ok : Forall only_records sample_records ∧ Forall never_fails sample_records ∧
  in_order (mjoin (op_rewards <$> sample_records) ++ [r0 20]).
Proof.
  split; [constructor; [apply by_time_ok|constructor]|]. split; [by repeat constructor|].
  intros i j a b Hij Ha Hb Hu.
  destruct i as [|[|[|[|i]]]], j as [|[|[|[|j]]]]; simpl in *; simplify_eq; try lia; done.
Qed.
Definition sample_scores : list (store_op f32) :=
  [SRecord false [Entry "a" f_0_1 3; Entry "b" f_0_2 4; Entry "a" f_0_3 9];
   STrim by_time (Some 1) 1; SRecord true tied; SRemovePrefix None "b"; SRecord false [Entry "a" f_0_2 5]].
Lemma sample_scores_ok : Forall op_ok sample_scores ∧ Forall (no_nulls bind_f32) sample_scores.
Proof.
  split.
  - repeat (constructor; [try apply by_time_ok; done|]). constructor.
  - repeat (constructor; [simpl; repeat constructor|]). constructor.
Qed.
