(** Facts about changes of the options and the encompassing switch, and concrete cases. *)
From stdpp Require Import gmap strings list.
From Coq Require Import ZArith.
From Verif Require Import F32 Graph GraphSpec GraphProofs GraphMore Library LibrarySpec LibrarySample Options OptionsSpec Filters Batch BatchSpec
  KnockProofs SelectProofs ShuffleProofs FinishProofs BatchSample BatchMore Search SearchSpec LibFacts WholeProofs SearchSample Facade.
Local Open Scope string_scope.
Local Open Scope list_scope.

Lemma options_parts cs : ∀ s, oc_filter (fold_left options_step cs s) = oc_filter s ∧ oc_relearn (fold_left options_step cs s) = oc_relearn s.
Proof. induction cs as [|c cs IH]; intros s; [done|]. cbn. destruct (IH (options_step s c)) as [-> ->]. done. Qed.
Lemma options_kept o cs : oc_filter (options_after o cs) = o ∧ oc_relearn (options_after o cs) = o.
Proof. apply (options_parts cs (new_copies o)). Qed.
Lemma options_get o cs c : get_scheduler_options (options_after o (cs ++ [c])) = match c with SetOptions o => o | ResetOptions => default_options end.
Proof. unfold options_after. rewrite fold_left_app. done. Qed.

(** The options at the start choose the exercises, whatever is set later. *)
Lemma selection_kept o cs m r e rate pile found batch : choices_ok r →
  finish_candidates m r e (options_after o cs) rate pile found = Some batch →
  ∃ batch', finish_candidates m r e (new_copies o) rate pile found = Some batch' ∧ batch' ≡ₚ batch.
Proof.
  intros Hr. destruct (options_kept o cs) as [E1 E2]. unfold finish_candidates. rewrite E1, E2.
  destruct (knock_out_reviews e (r_units r) found) as [k|]; [|done]. cbn [mbind option_bind].
  change (oc_filter (new_copies o)) with o. change (oc_relearn (new_copies o)) with o.
  destruct (filter_candidates m r o rate k) as [l|]; [|done]. cbn [mbind option_bind]. intros [= <-].
  eexists. split; [done|]. rewrite !shuffle_perm by done. done.
Qed.

(** The search itself uses the options that were set last. *)
Lemma search_set o cs o' env os fuel checks time m r e rate pile f es : choices_ok r →
  request_batch env (options_after o (cs ++ [SetOptions o'])) os fuel checks time m r e rate pile f = BatchOf es →
  ∃ found batch batch', initial_candidates (with_options o' env) os fuel checks time f = Found found ∧
    finish_candidates m r e (new_copies o) rate (clean_pile (inside_blacklisted env) pile) found = Some batch ∧
    batch' ≡ₚ batch ∧ mapM (λ c, exercise_map (s_lib env) !! exercise_id c) batch' = Some es.
Proof.
  intros Hr. unfold request_batch, get_exercise_batch.
  change (oc_data (options_after o (cs ++ [SetOptions o']))) with (get_scheduler_options (options_after o (cs ++ [SetOptions o']))). rewrite options_get.
  unfold finish_batch. destruct (initial_candidates _ _ _ _ _ _) as [found| |] eqn:Ef; try done.
  destruct (finish_candidates m r e (options_after o (cs ++ [SetOptions o'])) rate _ found) as [l|] eqn:El; [|done].
  apply selection_kept in El as (l' & El' & Hp); [|done]. cbn [s_lib with_options]. destruct (mapM _ l) as [es'|] eqn:Em; [|done]. intros [= <-].
  exists found, l', l. split; [done|]. split; [exact El'|]. done.
Qed.

Lemma mapM_size {A B} (f : A → option B) l k : mapM f l = Some k → length k = length l.
Proof. intros H. apply mapM_length in H. done. Qed.
Lemma fresh_size env b os fuel checks time m r e rate pile f es : choices_ok r → (Z.of_nat b <= 1000000)%Z →
  request_batch env (new_copies (set_batch_size b default_options)) os fuel checks time m r e rate pile f = BatchOf es →
  length es ≤ Nat.max 5 b + b / 10.
Proof.
  intros Hr Hb. unfold request_batch, get_exercise_batch, finish_batch. destruct (initial_candidates _ _ _ _ _ _) as [cs| |]; try done.
  destruct (finish_candidates _ _ _ _ _ _ cs) as [batch|] eqn:E; [|done]. apply default_batch_size in E; [|done|done].
  destruct (mapM _ batch) as [es'|] eqn:E2; [|done]. intros [= <-]. apply mapM_size in E2. lia.
Qed.

(** A lesson with ten exercises. *)
Definition ten_library : list open_course := a_library [("C", [], [("C::L", [], digits)])].
Definition ten_requested (lib : library) : batch_result :=
  request_batch (an_env default_options ((λ d, (d, f_4)) <$> digits) [] [] lib) (options_after default_options [SetOptions small_options])
    plain 30 true 0 no_libm first_choices (graph_edges (lib_graph lib)) f_1 ∅ (Some (EUnit (FLessons ["C::L"]))).
Lemma ten_requested_size : library_check (λ lib, match ten_requested lib with BatchOf es => Nat.ltb 5 (length es) | _ => false end) ten_library = true.
Proof. vm_compute. reflexivity. Qed.
Lemma set_ignored : ∃ env o os fuel m r e f es, opened (s_lib env) ∧ choices_ok r ∧ edges_of (s_graph env) e ∧ verify_options o = true ∧
  request_batch env (options_after default_options [SetOptions o]) os fuel true 0 m r e f_1 ∅ f = BatchOf es ∧
  ∀ env' os' fuel' checks time m' r' e' rate pile f' es', choices_ok r' →
    request_batch env' (new_copies o) os' fuel' checks time m' r' e' rate pile f' = BatchOf es' → length es' < length es.
Proof.
  destruct (library_checked _ _ (a_library_consistent _) ten_requested_size) as (lib & Ho & H).
  destruct (ten_requested lib) as [es| | |] eqn:E; try done. apply Nat.ltb_lt in H.
  exists (an_env default_options ((λ d, (d, f_4)) <$> digits) [] [] lib), small_options, plain, 30, no_libm, first_choices, (graph_edges (lib_graph lib)),
    (Some (EUnit (FLessons ["C::L"]))), es.
  split; [done|]. split; [apply first_choices_ok|]. split; [apply graph_edges_of|]. split; [vm_compute; reflexivity|]. split; [exact E|].
  intros env' os' fuel' checks time m' r' e' rate pile f' es' Hr H'. apply fresh_size in H'; [|done|done].
  change (Nat.max 5 1 + 1 / 10) with 5 in H'. lia.
Qed.
(** Options that are refused when the library is opened are accepted later. *)
Lemma unverified : ∃ o, verify_options o = false ∧ get_scheduler_options (options_after default_options [SetOptions o]) = o.
Proof. exists (set_batch_size 0 default_options). split; vm_compute; reflexivity. Qed.

(** The switch. *)
Lemma switch_same g : encompasing_equals_dependency g = true → trane_set_encompasing_equals_dependency g = set_encompasing_equals_dependency g.
Proof.
  unfold encompasing_equals_dependency, trane_set_encompasing_equals_dependency, set_encompasing_equals_dependency. intros H.
  apply andb_true_iff in H as [H1 H2]. apply bool_decide_eq_true in H1, H2.
  destruct g. cbn in *. subst. done.
Qed.
Lemma switch_dropped : ∃ ops u v, let g := grun ops in
  encompasing_equals_dependency (set_encompasing_equals_dependency g) = true ∧
  get_encompasses (set_encompasing_equals_dependency g) u = Some [(v, f_1)] ∧
  encompasing_equals_dependency (trane_set_encompasing_equals_dependency g) = false ∧
  get_encompasses (trane_set_encompasing_equals_dependency g) u = Some [(v, f_0_5)].
Proof.
  exists [AddCourse "A"; AddCourse "B"; AddDependencies "B" Course ["A"]; AddEncompassed "B" ["A"] [("A", f_0_5)]], "B", "A".
  cbv zeta. split; [vm_compute; reflexivity|]. split; [vm_compute; reflexivity|]. split; vm_compute; reflexivity.
Qed.

(** A history after which exercises are chosen. *)
Lemma some_kept : ∃ env found batch, opened (s_lib env) ∧ choices_ok first_choices ∧
  finish_candidates no_libm first_choices (graph_edges (s_graph env)) (options_after default_options [SetOptions small_options]) f_1 ∅ found = Some batch ∧
  5 < length batch.
Proof.
  destruct (library_checked _ _ (a_library_consistent _) ten_requested_size) as (lib & Ho & H).
  unfold ten_requested, request_batch, get_exercise_batch, finish_batch in H.
  destruct (initial_candidates _ _ _ _ _ _) as [cs| |]; try done.
  destruct (finish_candidates _ _ _ _ _ _ cs) as [batch|] eqn:E; [|done].
  destruct (mapM _ batch) as [es'|] eqn:E2; [|done]. apply mapM_size in E2. apply Nat.ltb_lt in H. rewrite E2 in H.
  exists (an_env default_options ((λ d, (d, f_4)) <$> digits) [] [] lib), cs, batch.
  split; [done|]. split; [apply first_choices_ok|]. split; [exact E|done].
Qed.
