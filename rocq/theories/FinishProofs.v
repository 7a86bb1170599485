(** Proofs about whole batches. *)
From stdpp Require Import gmap strings list sorting.
From Coq Require Import ZArith.
From Verif Require Import F32 F32Real Graph GraphSpec GraphProofs Options OptionsSpec OptionsProofs
  Batch BatchSpec KnockProofs SelectProofs SizeProofs ShuffleProofs.

(** ** Edges of a graph *)
Definition graph_edges (g : graph) : edges :=
  Edges (get_encompasses g) (get_encompassed_by g) (get_lesson_course g)
    (elements (dom (encompasses_graph g) ∪ dom (encompassed_by g) ∪ dom (dependency_graph g) ∪ dom (dependent_graph g))).
Lemma graph_edges_of g : edges_of g (graph_edges g).
Proof.
  split_and!.
  - intros u. simpl. destruct (get_encompasses g u); constructor; done.
  - intros u. simpl. destruct (get_encompassed_by g u); constructor; done.
  - done.
  - unfold edges_ok, graph_edges. cbn [ed_units ed_down ed_up]. split; [apply NoDup_elements|]. intros u H.
    apply elem_of_elements. rewrite !elem_of_union, !elem_of_dom.
    destruct H as [H|H]; unfold get_encompasses, get_encompassed_by, get_dependencies, get_dependents in H;
      destruct (decide _); rewrite <-?not_eq_None_Some in *.
    + left; right. intros E. rewrite E in H. done.
    + left; left; left. done.
    + right. intros E. rewrite E in H. done.
    + left; left; right. done.
Qed.
Lemma edges_of_weights ops e : edges_of (grun ops) e → weights_ok e.
Proof.
  intros (Hd & _) u l v w Hu Hin. specialize (Hd u). rewrite Hu in Hd.
  inversion Hd as [l' ? Hp E|]; subst. rewrite <-Hp in Hin.
  eapply (weights_in_unit ops u v w). left. unfold encompasses. rewrite <-E. exact Hin.
Qed.

(** ** Relearn pile *)
Lemma pile_due ops e : e ∈ pile_after ops ↔ due_for_relearning ops e.
Proof.
  unfold pile_after. induction ops as [|op ops IH] using rev_ind.
  - simpl. split; [set_solver|]. intros (b & a & s & H & _). by destruct b.
  - rewrite fold_left_app. simpl. split.
    + intros H. destruct op as [e' s|banned]; simpl in H.
      * assert (Hother : e' ≠ e → e ∈ fold_left pile_step ops ∅ → due_for_relearning (ops ++ [PScore e' s]) e).
        { intros Hne Hin. apply IH in Hin as (b & a & s' & -> & Hs & Ha). exists b, (a ++ [PScore e' s]), s'.
          rewrite <-app_assoc. split; [done|]. split; [done|]. apply Forall_app. split; [done|]. by constructor. }
        assert (Hsame : e' = e → low_score s → due_for_relearning (ops ++ [PScore e' s]) e).
        { intros -> Hs. exists ops, [], s. split; [done|]. split; [done|constructor]. }
        unfold update_pile in H. destruct (decide (e' = e)) as [->|Hne].
        -- destruct s; try (apply Hsame; [done|by left]); try (apply Hsame; [done|by right]);
             apply elem_of_difference in H as [_ H]; destruct H; by apply elem_of_singleton.
        -- apply Hother; [done|]. clear -H Hne. destruct s; set_solver.
      * unfold clean_pile in H. apply elem_of_filter in H as [Hb H].
        apply IH in H as (b & a & s' & -> & Hs & Ha). exists b, (a ++ [PBatch banned]), s'.
        rewrite <-app_assoc. split; [done|]. split; [done|]. apply Forall_app. split; [done|]. by constructor.
    + intros (b & a & s & E & Hs & Ha). destruct a as [|x a _] using rev_ind.
      * apply app_inj_tail in E as [-> ->]. simpl. destruct Hs as [-> | ->]; simpl; set_solver.
      * rewrite app_comm_cons, app_assoc in E. apply app_inj_tail in E as [-> ->].
        apply Forall_app in Ha as [Ha Hx]. apply Forall_cons in Hx as [Hx _].
        assert (Hin : e ∈ fold_left pile_step (b ++ PScore e s :: a) ∅) by (apply IH; by exists b, a, s).
        destruct x as [e' s'|banned]; simpl.
        -- clear -Hin Hx. destruct s'; simpl; set_solver.
        -- apply elem_of_filter. done.
Qed.

(** ** Batches *)
Lemma batch_total m r e o rate pile cs : choices_ok r → edges_ok e →
  ∃ batch, finish_candidates m r e o rate pile cs = Some batch.
Proof.
  intros Hr He. unfold finish_candidates. destruct (knock_total e (r_units r) cs He) as [k ->].
  cbn [mbind option_bind]. destruct (filter_spec m r (oc_filter o) rate k Hr) as (f & -> & _).
  cbn [mbind option_bind]. eauto.
Qed.

Lemma same_ids a b : Forall2 same_candidate a b → exercise_id <$> a = exercise_id <$> b.
Proof. intros H. induction H as [|x y a b Hxy H IH]; [done|]. rewrite !fmap_cons, IH. f_equal. apply Hxy. Qed.
Lemma same_scores a b c : Forall2 same_candidate a b → c ∈ b → ∃ d, d ∈ a ∧ same_candidate d c.
Proof.
  intros H Hc. apply elem_of_list_lookup in Hc as [i Hi]. destruct (Forall2_lookup_r _ _ _ _ _ H Hi) as (d & Hd & Hs).
  exists d. split; [by eapply elem_of_list_lookup_2|done].
Qed.

(** The parts of a batch. *)
Lemma finish_split m r e o rate pile cs batch : choices_ok r →
  finish_candidates m r e o rate pile cs = Some batch →
  ∃ k final extra, knock_out_reviews e (r_units r) cs = Some k ∧
    filter_candidates m r (oc_filter o) rate k = Some final ∧ batch ≡ₚ final ++ (bare_candidate <$> extra) ∧
    NoDup extra ∧ (∀ x, x ∈ extra → x ∈ pile ∧ x ∉ exercise_id <$> final) ∧
    (∀ n, relearn_count (oc_relearn o) = Some n → length extra ≤ n).
Proof.
  intros Hr. unfold finish_candidates. destruct (knock_out_reviews _ _ _) as [k|] eqn:Ek; cbn [mbind option_bind]; [|done].
  destruct (filter_candidates _ _ _ _ _) as [final|] eqn:Ef; cbn [mbind option_bind]; [|done]. intros [= <-].
  destruct (sample_ok r Hr pile (relearn_count (oc_relearn o))) as (Snd & Sin & Slen).
  unfold select_exercises. set (S := r_sample r pile (relearn_count (oc_relearn o))) in *.
  exists k, final, (List.filter (λ x, negb (bool_decide (x ∈ exercise_id <$> final))) S).
  split; [done|]. split; [done|]. split.
  { rewrite shuffle_perm by done. apply Permutation_app_head. clear. induction S as [|x S IH]; [done|]. simpl.
    destruct (bool_decide _); simpl; [exact IH|by constructor]. }
  assert (Hsub : List.filter (λ x, negb (bool_decide (x ∈ exercise_id <$> final))) S `sublist_of` S) by apply sublist_List_filter.
  split; [eapply NoDup_submseteq_sub; [by apply sublist_submseteq|done]|]. split.
  - intros x Hx. rewrite List_filter_filter in Hx. apply elem_of_list_filter in Hx as [H1 H2].
    split; [by apply Sin|]. destruct (bool_decide_reflect (x ∈ exercise_id <$> final)); done.
  - intros n Hn. apply sublist_length in Hsub. rewrite Slen, Hn in Hsub. lia.
Qed.

Lemma bare_ids (l : list uid) : exercise_id <$> (bare_candidate <$> l) = l.
Proof. rewrite <-list_fmap_compose. apply list_fmap_id. Qed.

(** No exercise is repeated. *)
Lemma batch_nodup m r e o rate pile cs batch : choices_ok r → weights_ok e →
  NoDup (exercise_id <$> cs) → (∀ c, c ∈ cs → length (windows_of (oc_filter o) (exercise_score c)) ≤ 1) →
  finish_candidates m r e o rate pile cs = Some batch → NoDup (exercise_id <$> batch).
Proof.
  intros Hr He Hnd Hw H. destruct (finish_split _ _ _ _ _ _ _ _ Hr H) as (k & final & extra & Ek & Ef & Hp & He1 & He2 & _).
  destruct (knock_spec _ _ _ _ He (units_ok r Hr) Hnd Ek) as [(cs' & Hs & Hsub & Hhi) _].
  rewrite Hp, fmap_app, bare_ids. apply NoDup_app. split_and!; [|naive_solver|done].
  destruct (filter_spec m r (oc_filter o) rate k Hr) as (f & Ef' & Hin & _). rewrite Ef in Ef'. injection Ef' as <-.
  eapply NoDup_submseteq_sub; [apply fmap_sub, Hin|]. apply pool_nodup; [|done|].
  - eapply NoDup_ids_sublist; [exact Hsub|]. by rewrite <-(same_ids _ _ Hs).
  - intros c Hc. assert (Hc' : c ∈ cs') by (eapply elem_of_submseteq; [exact Hc|by apply sublist_submseteq]).
    destruct (same_scores _ _ _ Hs Hc') as (d & Hd & Hdc). destruct Hdc as (_ & _ & _ & _ & <- & _). by apply Hw.
Qed.

(** Every exercise of a batch is one of the candidates or in the relearn pile. *)
Lemma batch_members m r e o rate pile cs batch x : choices_ok r → weights_ok e → NoDup (exercise_id <$> cs) →
  finish_candidates m r e o rate pile cs = Some batch → x ∈ exercise_id <$> batch →
  x ∈ exercise_id <$> cs ∨ x ∈ pile.
Proof.
  intros Hr He Hnd H Hx. destruct (finish_split _ _ _ _ _ _ _ _ Hr H) as (k & final & extra & Ek & Ef & Hp & He1 & He2 & _).
  destruct (knock_spec _ _ _ _ He (units_ok r Hr) Hnd Ek) as [(cs' & Hs & Hsub & Hhi) _].
  rewrite Hp, fmap_app, bare_ids in Hx. apply elem_of_app in Hx as [Hx|Hx]; [left|right; by apply He2].
  apply elem_of_list_fmap in Hx as (c & -> & Hc).
  destruct (filter_spec m r (oc_filter o) rate k Hr) as (f & Ef' & Hin & _). rewrite Ef in Ef'. injection Ef' as <-.
  rewrite (same_ids _ _ Hs). apply elem_of_list_fmap_1.
  eapply elem_of_submseteq in Hc; [|exact Hin]. apply pool_incl in Hc; [|done].
  eapply elem_of_submseteq; [exact Hc|by apply sublist_submseteq].
Qed.

(** The size of a batch. *)
Lemma batch_size_bound m r e o rate pile cs batch n : choices_ok r →
  finish_candidates m r e o rate pile cs = Some batch →
  let b := batch_size (oc_filter o) in
  (∀ b', b' ≤ b → finite_shares b' (oc_filter o) rate) → relearn_count (oc_relearn o) = Some n →
  ∃ b', b' ≤ b ∧ length batch ≤ Nat.max b' (window_total b' (windows (adjusted_mastery_windows (oc_filter o) rate))) + n.
Proof.
  intros Hr H b Hfin Hn. destruct (finish_split _ _ _ _ _ _ _ _ Hr H) as (k & final & extra & Ek & Ef & Hp & _ & _ & Hlen).
  destruct (filter_spec m r (oc_filter o) rate k Hr) as (f & Ef' & _ & Hl & _). rewrite Ef in Ef'. injection Ef' as <-.
  rewrite adjusted_batch_size in Hl.
  set (b' := dynamic_batch_size _ _) in Hl. assert (Hb' : b' ≤ b) by apply dynamic_le.
  exists b'. split; [done|]. rewrite Hp, app_length, fmap_length. specialize (Hlen n Hn).
  assert (Hd : sum_list_with (drawn b') (pool (adjusted_mastery_windows (oc_filter o) rate) k) ≤
    window_total b' (windows (adjusted_mastery_windows (oc_filter o) rate))).
  { specialize (Hfin b' Hb'). unfold finite_shares in Hfin. unfold pool. cbv zeta.
    remember (adjusted_mastery_windows (oc_filter o) rate) as oo. unfold windows in *.
    apply Forall_cons in Hfin as [F1 Hfin]. apply Forall_cons in Hfin as [F2 Hfin]. apply Forall_cons in Hfin as [F3 Hfin].
    apply Forall_cons in Hfin as [F4 Hfin]. apply Forall_cons in Hfin as [F5 Hfin].
    unfold window_total. cbn [sum_list_with].
    assert (Hone : ∀ cs w, window_count b' w ≠ None → drawn b' (cs, w) ≤ default 0 (window_count b' w)).
    { intros cs' w Hw. unfold drawn. cbn [fst snd]. destruct (window_count b' w); [simpl; lia|done]. }
    pose proof (Hone (candidates_in_window (ko_candidates k) (list_to_set (exercise_id <$> ko_highly k)) (mastered_window oo) ++ ko_highly k) _ F5).
    pose proof (Hone (candidates_in_window (ko_candidates k) (list_to_set (exercise_id <$> ko_highly k)) (easy_window oo)) _ F4).
    pose proof (Hone (candidates_in_window (ko_candidates k) (list_to_set (exercise_id <$> ko_highly k)) (current_window oo)) _ F3).
    pose proof (Hone (candidates_in_window (ko_candidates k) (list_to_set (exercise_id <$> ko_highly k)) (target_window oo)) _ F2).
    pose proof (Hone (candidates_in_window (ko_candidates k) (list_to_set (exercise_id <$> ko_highly k)) (new_window oo)) _ F1).
    lia. }
  lia.
Qed.
Lemma default_batch_size m r e b rate pile cs batch : choices_ok r → (Z.of_nat b <= 1000000)%Z →
  let o := set_batch_size b default_options in
  finish_candidates m r e (OptionCopies o o o) rate pile cs = Some batch →
  length batch ≤ Nat.max 5 b + b / 10.
Proof.
  intros Hr Hb o H. destruct (finish_split _ _ _ _ _ _ _ _ Hr H) as (k & final & extra & Ek & Ef & Hp & _ & _ & Hlen).
  destruct (relearn_default b Hb) as (n & En & Hn). specialize (Hlen n En).
  apply filter_default_size in Ef; [|done|done]. rewrite Hp, app_length, fmap_length. lia.
Qed.

(** A batch is not empty when a candidate survives and the windows cover its score. *)
Lemma batch_nonempty m r e o rate pile cs batch c : choices_ok r → weights_ok e → NoDup (exercise_id <$> cs) →
  (∀ c, c ∈ cs → 1 ≤ length (windows_of (oc_filter o) (exercise_score c))) →
  c ∈ cs → fge (exercise_score c) f_4_5 = false ∨ ¬ covered_times e cs c 10 →
  finish_candidates m r e o rate pile cs = Some batch → batch ≠ [].
Proof.
  intros Hr He Hnd Hw Hc Hkeep H ->. destruct (finish_split _ _ _ _ _ _ _ _ Hr H) as (k & final & extra & Ek & Ef & Hp & _ & _ & _).
  apply Permutation_nil in Hp. apply app_eq_nil in Hp as [-> _].
  destruct (knock_spec _ _ _ _ He (units_ok r Hr) Hnd Ek) as [(cs' & Hs & Hsub & Hhi) [Hdrop _]].
  destruct (filter_spec m r (oc_filter o) rate k Hr) as (f & Ef' & _ & _ & Hl). rewrite Ef in Ef'. injection Ef' as <-.
  assert (Hne : ko_candidates k ≠ []).
  { intros E. destruct (Hdrop c Hc) as [H1 H2]; [rewrite E; set_solver|]. destruct Hkeep as [Hk|Hk]; [congruence|done]. }
  assert (Hpos : 1 ≤ sum_list_with (drawn (dynamic_batch_size (batch_size (adjusted_mastery_windows (oc_filter o) rate))
    (length (ko_candidates k)))) (pool (adjusted_mastery_windows (oc_filter o) rate) k)).
  { apply pool_nonempty; [done|]. intros d Hd. assert (Hd' : d ∈ cs') by (eapply elem_of_submseteq; [exact Hd|by apply sublist_submseteq]).
    destruct (same_scores _ _ _ Hs Hd') as (d' & Hdd & Heq). destruct Heq as (_ & _ & _ & _ & <- & _). by apply Hw. }
  exact (Nat.nle_succ_0 _ (Nat.le_trans _ _ _ Hpos Hl)).
Qed.
