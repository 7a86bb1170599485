(** Examples for P_Chance.v. *)
From stdpp Require Import gmap strings list.
From Coq Require Import ZArith.
From Verif Require Import F32 Graph GraphSpec GraphMore Library LibrarySpec LibrarySample Filters Options OptionsSpec OptionsProofs
  Batch BatchSpec KnockProofs SelectProofs FinishProofs BatchSample BatchMore
  Search SearchSpec LibFacts WholeProofs SearchSample SearchMore ChanceSpec ChanceProofs.
Local Open Scope string_scope.
Local Open Scope list_scope.

(** ** No draw brings back a candidate that was knocked out *)
Lemma nothing_left m r e o rate cs k : choices_ok r → knock_out_reviews e (r_units r) cs = Some k →
  ko_candidates k = [] → ko_highly k = [] → finish_candidates m r e o rate ∅ cs = Some [].
Proof.
  intros Hr Hk Hc Hh. destruct (filter_spec m r (oc_filter o) rate k Hr) as (final & Hf & Hin & _).
  assert (final = []) as ->.
  { destruct final as [|c l]; [done|]. exfalso. assert (H : c ∈ c :: l) by left.
    assert (Hsub : ko_highly k `sublist_of` ko_candidates k) by (rewrite Hh; apply sublist_nil_l).
    pose proof (elem_of_submseteq _ _ _ H Hin) as Hp. apply pool_incl in Hp; [|done]. rewrite Hc in Hp. by apply elem_of_nil in Hp. }
  assert (Hok : finish_candidates m r e o rate ∅ cs = Some (shuffle_candidates r (oc_data o)
    ([] ++ List.filter (λ c, negb (bool_decide (exercise_id c ∈ exercise_id <$> (@nil candidate)))) (select_exercises r (oc_relearn o) ∅)))).
  { unfold finish_candidates. rewrite Hk. cbn [mbind option_bind]. rewrite Hf. reflexivity. }
  destruct (finish_split _ _ _ _ _ _ _ _ Hr Hok) as (k' & final' & extra & Ek & Ef & Hp & _ & Hex & _).
  rewrite Hk in Ek. injection Ek as <-. rewrite Hf in Ef. injection Ef as <-.
  assert (extra = []) as ->.
  { destruct extra as [|x l]; [done|]. destruct (Hex x) as [H _]; [left|]. by apply not_elem_of_empty in H. }
  apply Permutation_sym, Permutation_nil in Hp. rewrite Hp in Hok. exact Hok.
Qed.
Definition all_gone (k : option knockout) : bool :=
  match k with Some k => match ko_candidates k, ko_highly k with [], [] => true | _, _ => false end | None => false end.
Lemma all_gone_true k : all_gone k = true → ∃ k', k = Some k' ∧ ko_candidates k' = [] ∧ ko_highly k' = [].
Proof.
  destruct k as [k|]; [|done]. unfold all_gone. intros H. exists k.
  destruct (ko_candidates k); [|done]. destruct (ko_highly k); [|done]. done.
Qed.
Lemma never_chosen : ∃ ord courses lib e cs m r, order_ok ord ∧ Forall consistent courses ∧
  open_library ord courses = Some lib ∧ edges_of (lib_graph lib) e ∧ choices_ok r ∧ cs ≠ [] ∧
  NoDup (exercise_id <$> cs) ∧ (∀ c, c ∈ cs → score_in_range (exercise_score c)) ∧
  ∀ draw, choices_ok (with_draw r draw) →
    finish_candidates m (with_draw r draw) e (OptionCopies default_options default_options default_options) f_1 ∅ cs = Some [].
Proof.
  assert (H : (λ lib, all_gone (knock_out_reviews (graph_edges (lib_graph lib)) elements mutual_candidates))
    <$> open_library sample_order mutual_library = Some true) by (vm_compute; reflexivity).
  apply fmap_true in H as (lib & E & H). apply all_gone_true in H as (k & Hk & Hc & Hh).
  destruct all_knocked_out as (lib' & E' & H2 & H3 & _).
  exists sample_order, mutual_library, lib, (graph_edges (lib_graph lib)), mutual_candidates, no_libm, first_choices.
  split; [apply sample_order_ok|]. split; [apply mutual_consistent|]. split; [exact E|].
  split; [apply graph_edges_of|]. split; [apply first_choices_ok|]. split; [discriminate|]. split; [exact H2|].
  split; [by apply Forall_forall|]. intros draw Hd. eapply nothing_left; [exact Hd|exact Hk|exact Hc|exact Hh].
Qed.

(** ** A batch of one of three exercises *)
Definition low_candidate (c : candidate) : bool :=
  negb (fge (exercise_score c) f_4_5) && Nat.leb 1 (length (windows_of small_options (exercise_score c))).
Definition third_low (r : sresult) : bool :=
  match r with Found cs => match cs !! 2 with Some c => low_candidate c && bool_decide (exercise_id c = "A::2::x") | None => false end | _ => false end.
Lemma third_low_true r : third_low r = true → ∃ cs c, r = Found cs ∧ c ∈ cs ∧ exercise_id c = "A::2::x" ∧
  fge (exercise_score c) f_4_5 = false ∧ 1 ≤ length (windows_of small_options (exercise_score c)).
Proof.
  unfold third_low. destruct r as [cs| |]; [|discriminate|discriminate].
  destruct (cs !! 2) as [c|] eqn:E; [|discriminate]. unfold low_candidate.
  rewrite !andb_true_iff. intros [[H1 H2] H3]. exists cs, c. split; [reflexivity|].
  split; [exact (elem_of_list_lookup_2 _ _ _ E)|]. apply bool_decide_eq_true in H3. split; [exact H3|].
  apply negb_true_iff in H1. split; [exact H1|]. by apply Nat.leb_le.
Qed.
Lemma one_of_three : ∃ env es cs c, opened (s_lib env) ∧ (∀ i, orders_ok (plain i)) ∧ choices_ok first_choices ∧
  uses env true 0 None None ∧ lists_once None ∧
  initial_candidates env plain 30 true 0 None = Found cs ∧ c ∈ cs ∧ exercise_id c = "A::2::x" ∧
  fge (exercise_score c) f_4_5 = false ∧ 1 ≤ length (windows_of small_options (exercise_score c)) ∧
  get_exercise_batch env plain 30 true 0 no_libm first_choices (graph_edges (s_graph env)) (same_options small_options) f_1 ∅ None = BatchOf es ∧
  em_id <$> es = ["A::1::x"].
Proof.
  set (mk := an_env small_options [("A", f_1)] [] []).
  destruct (library_checked (λ lib, third_low (initial_candidates (mk lib) plain 30 true 0 None) &&
    same_ids_as (batch_of_ids (a_batch (mk lib) ∅ None)) ["A::1::x"]) own_library)
    as (lib & Ho & H); [apply a_library_consistent|vm_compute; reflexivity|].
  rewrite !andb_true_iff in H. destruct H as [H1 H2].
  apply third_low_true in H1 as (cs & c & H1 & H3 & H4 & H5 & H6). apply batch_is in H2 as (es & H2 & H7).
  exists (mk lib), es, cs, c. split; [exact Ho|]. split; [exact plain_ok|]. split; [apply first_choices_ok|].
  split; [reflexivity|]. split; [exact I|]. split; [exact H1|]. split; [exact H3|]. split; [exact H4|]. split; [exact H5|].
  split; [exact H6|]. split; [exact H2|exact H7].
Qed.
