(** The statements of P_Batch.v in the form used there. *)
From stdpp Require Import gmap strings list sorting.
From Coq Require Import ZArith.
From Verif Require Import F32 F32Real Graph GraphSpec GraphProofs GraphMore Library LibrarySpec LibrarySample
  Options OptionsSpec OptionsProofs Batch BatchSpec KnockProofs SelectProofs SizeProofs ShuffleProofs FinishProofs BatchSample.
Local Open Scope string_scope.
Local Open Scope list_scope.

Lemma overlap_repeats : ∃ o c m r e batch, verify_options o = true ∧ choices_ok r ∧ edges_ok e ∧
  finish_candidates m r e (OptionCopies o o o) f_1 ∅ [c] = Some batch ∧ ¬ NoDup (exercise_id <$> batch).
Proof.
  destruct twice_in_batch as [Hv H]. exists overlap_options, (scored "a" "L" "C" f_3), no_libm, first_choices, no_edges.
  destruct (batch_total no_libm first_choices no_edges (same_options overlap_options) f_1 ∅ [scored "a" "L" "C" f_3]
    first_choices_ok no_edges_ok) as [batch E].
  exists batch. split; [exact Hv|]. split; [apply first_choices_ok|]. split; [apply no_edges_ok|]. split; [exact E|].
  rewrite E in H. injection H as H. rewrite H. intros Hnd. apply NoDup_cons in Hnd as [Hn _]. apply Hn. left.
Qed.
Lemma no_repeats ops e m r o rate pile cs batch :
  choices_ok r → edges_of (grun ops) e → NoDup (exercise_id <$> cs) →
  (∀ c, c ∈ cs → length (windows_of (oc_filter o) (exercise_score c)) ≤ 1) →
  finish_candidates m r e o rate pile cs = Some batch → NoDup (exercise_id <$> batch).
Proof. intros Hr He. apply batch_nodup; [done|by eapply edges_of_weights]. Qed.
Lemma defaults_no_repeats ops e m r b o rate pile cs batch :
  choices_ok r → edges_of (grun ops) e → NoDup (exercise_id <$> cs) →
  (∀ c, c ∈ cs → score_in_range (exercise_score c)) → oc_filter o = create_scheduler_options b →
  finish_candidates m r e o rate pile cs = Some batch → NoDup (exercise_id <$> batch).
Proof.
  intros Hr He Hnd Hs Ho. eapply no_repeats; [done|done|done|]. intros c Hc. rewrite Ho, created_one_window by auto. done.
Qed.
Lemma members ops e m r o rate pile cs batch x :
  choices_ok r → edges_of (grun ops) e → NoDup (exercise_id <$> cs) →
  finish_candidates m r e o rate pile cs = Some batch → x ∈ exercise_id <$> batch →
  x ∈ exercise_id <$> cs ∨ x ∈ pile.
Proof. intros Hr He. apply batch_members; [done|by eapply edges_of_weights]. Qed.
Lemma mixed_nonvacuous : choices_ok first_choices ∧ edges_of (grun []) (graph_edges (grun [])) ∧
  NoDup (exercise_id <$> mixed_candidates) ∧
  (∀ c, c ∈ mixed_candidates → score_in_range (exercise_score c)) ∧
  batch_ids (finish_candidates no_libm first_choices (graph_edges (grun [])) (same_options (set_batch_size 10 default_options)) f_1
    {["a"; "z"]} mixed_candidates) = Some ["f"; "z"; "e"; "a"; "b"; "d"; "c"].
Proof.
  split; [apply first_choices_ok|]. split; [apply graph_edges_of|]. destruct mixed_example as (H1 & H2 & H3).
  split; [done|]. split; [by apply Forall_forall|]. vm_compute. reflexivity.
Qed.
Lemma maximum_exceeded : ∃ o cs m r e batch, verify_options o = true ∧ choices_ok r ∧ edges_ok e ∧
  NoDup (exercise_id <$> cs) ∧ (∀ c, c ∈ cs → score_in_range (exercise_score c)) ∧
  finish_candidates m r e (OptionCopies o o o) f_1 ∅ cs = Some batch ∧ batch_size o < length batch.
Proof.
  destruct five_in_one as (H1 & H2 & H3 & batch & H4 & H5).
  exists small_options, one_each, no_libm, first_choices, no_edges, batch. split; [exact H1|].
  split; [apply first_choices_ok|]. split; [apply no_edges_ok|]. split; [exact H2|].
  split; [by apply Forall_forall|]. split; [exact H4|exact H5].
Qed.
Lemma all_dropped : ∃ ord courses lib e cs m r, order_ok ord ∧ Forall consistent courses ∧
  open_library ord courses = Some lib ∧ edges_of (lib_graph lib) e ∧ choices_ok r ∧ cs ≠ [] ∧
  NoDup (exercise_id <$> cs) ∧ (∀ c, c ∈ cs → score_in_range (exercise_score c)) ∧
  finish_candidates m r e (OptionCopies default_options default_options default_options) f_1 ∅ cs = Some [].
Proof.
  destruct all_knocked_out as (lib & H1 & H2 & H3 & H4).
  exists sample_order, mutual_library, lib, (graph_edges (lib_graph lib)), mutual_candidates, no_libm, first_choices.
  split; [apply sample_order_ok|]. split; [apply mutual_consistent|]. split; [exact H1|].
  split; [apply graph_edges_of|]. split; [apply first_choices_ok|]. split; [discriminate|]. split; [exact H2|].
  split; [by apply Forall_forall|exact H4].
Qed.
Lemma nonempty ops e m r o rate pile cs batch c : choices_ok r → edges_of (grun ops) e →
  NoDup (exercise_id <$> cs) →
  (∀ c, c ∈ cs → 1 ≤ length (windows_of (oc_filter o) (exercise_score c))) →
  c ∈ cs → fge (exercise_score c) f_4_5 = false ∨ ¬ covered_times e cs c 10 →
  finish_candidates m r e o rate pile cs = Some batch → batch ≠ [].
Proof. intros Hr He. apply batch_nonempty; [done|by eapply edges_of_weights]. Qed.
Lemma nonempty_nonvacuous : scored "a" "L" "C" f_1 ∈ mixed_candidates ∧
  fge (exercise_score (scored "a" "L" "C" f_1)) f_4_5 = false ∧
  (∀ c, c ∈ mixed_candidates → 1 ≤ length (windows_of default_options (exercise_score c))).
Proof.
  split; [left|]. split; [vm_compute; reflexivity|]. intros c Hc. destruct mixed_nonvacuous as (_ & _ & _ & Hs & _).
  change default_options with (create_scheduler_options None). by rewrite created_one_window by auto.
Qed.
Lemma shuffle_right r o cs : choices_ok r →
  shuffle_candidates r o cs ≡ₚ cs ∧ well_grouped o (shuffle_candidates r o cs).
Proof. intros Hr. split; [by apply shuffle_perm|by apply shuffle_grouped]. Qed.
Lemma contribution_right r o banned pile : choices_ok r →
  let ids := exercise_id <$> select_exercises r o (clean_pile banned pile) in
  NoDup ids ∧ (∀ e, e ∈ ids → e ∈ pile ∧ banned e = false) ∧
  ∀ n, relearn_count o = Some n → length ids ≤ n.
Proof.
  intros Hr ids. unfold ids, select_exercises. rewrite bare_ids.
  destruct (sample_ok r Hr (clean_pile banned pile) (relearn_count o)) as (H1 & H2 & H3). split; [done|]. split.
  - intros e He%H2. by apply elem_of_filter in He as [??].
  - intros n E. rewrite H3, E. lia.
Qed.
Lemma pile_example : pile_after [PScore "a" Two; PScore "b" One; PScore "a" Four; PScore "c" One;
  PBatch (λ e, bool_decide (e = "c")); PScore "d" Two] = {["b"; "d"]}.
Proof. apply (bool_decide_unpack _). vm_compute. exact I. Qed.
Lemma knocked_right ops e ord batch : edges_of (grun ops) e →
  (∀ s, NoDup (ord s) ∧ ∀ u, u ∈ ord s ↔ u ∈ s) → NoDup (exercise_id <$> batch) →
  ∃ k, knock_out_reviews e ord batch = Some k ∧ knocked_as_stated e batch k.
Proof.
  intros He Ho Hnd. destruct (knock_total e ord batch) as [k Hk]; [apply He|]. exists k. split; [done|].
  eapply knock_spec; [by eapply edges_of_weights|done|done|done].
Qed.
