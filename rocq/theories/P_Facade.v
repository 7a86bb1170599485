(** Properties of the calls of the Trane object that change options and switches: C36 and C40.
    The vocabulary is in Facade.v, BatchSpec.v and SearchSpec.v. *)
From stdpp Require Import gmap strings list.
From Coq Require Import ZArith.
From Verif Require Import F32 Graph GraphSpec Library LibrarySpec Options OptionsSpec Batch BatchSpec BatchSample SelectProofs Search SearchSpec SearchSample FinishProofs
  Facade FacadeProofs.

(** C36, partial: after every history of changes, asking for the options gives the last ones set. *)
Theorem C36_get_partial : ∀ o cs c,
  get_scheduler_options (options_after o (cs ++ [c])) = match c with SetOptions o => o | ResetOptions => default_options end.
Proof. exact options_get. Qed.
Print Assumptions C36_get_partial.
(** But the exercises are chosen from the candidates with the options the library was opened
    with, whatever is set later: all that can change is the order of the batch. *)
Theorem C36_stale : ∀ o cs m r e rate pile found batch, choices_ok r →
  finish_candidates m r e (options_after o cs) rate pile found = Some batch →
  ∃ batch', finish_candidates m r e (new_copies o) rate pile found = Some batch' ∧ batch' ≡ₚ batch.
Proof. exact selection_kept. Qed.
Print Assumptions C36_stale.
(** The search for candidates does use the options that were set last, so a batch is made of the
    candidates that are found with these, chosen with the options of the opening. *)
Theorem C36_search_partial : ∀ o cs o' env os fuel checks time m r e rate pile f es, choices_ok r →
  request_batch env (options_after o (cs ++ [SetOptions o'])) os fuel checks time m r e rate pile f = BatchOf es →
  ∃ found batch batch', initial_candidates (with_options o' env) os fuel checks time f = Found found ∧
    finish_candidates m r e (new_copies o) rate (clean_pile (inside_blacklisted env) pile) found = Some batch ∧
    batch' ≡ₚ batch ∧ mapM (λ c, exercise_map (s_lib env) !! exercise_id c) batch' = Some es.
Proof. exact search_set. Qed.
Print Assumptions C36_search_partial.
(** C36, false: after valid options are set, a batch is larger than every batch of every library
    that was opened with these options. *)
Theorem C36_set_refuted : ∃ env o os fuel m r e f es, opened (s_lib env) ∧ choices_ok r ∧ edges_of (s_graph env) e ∧ verify_options o = true ∧
  request_batch env (options_after default_options [SetOptions o]) os fuel true 0 m r e f_1 ∅ f = BatchOf es ∧
  ∀ env' os' fuel' checks time m' r' e' rate pile f' es', choices_ok r' →
    request_batch env' (new_copies o) os' fuel' checks time m' r' e' rate pile f' = BatchOf es' → length es' < length es.
Proof. exact set_ignored. Qed.
Print Assumptions C36_set_refuted.
(** C36, false: options that are not valid are taken. *)
Theorem C36_unverified_refuted : ∃ o, verify_options o = false ∧ get_scheduler_options (options_after default_options [SetOptions o]) = o.
Proof. exact unverified. Qed.
Print Assumptions C36_unverified_refuted.
Example C36_nonvacuous : ∃ env found batch, opened (s_lib env) ∧ choices_ok first_choices ∧
  finish_candidates no_libm first_choices (graph_edges (s_graph env)) (options_after default_options [SetOptions small_options]) f_1 ∅ found = Some batch ∧
  5 < length batch.
Proof. exact some_kept. Qed.

(** C40, partial: the call through the Trane object has the effect of the call on the graph if the
    switch is already set. *)
Theorem C40_same_partial : ∀ g, encompasing_equals_dependency g = true →
  trane_set_encompasing_equals_dependency g = set_encompasing_equals_dependency g.
Proof. exact switch_same. Qed.
Print Assumptions C40_same_partial.
(** C40, false: otherwise it has none, and later queries show it. *)
Theorem C40_forwarded_refuted : ∃ ops u v, let g := grun ops in
  encompasing_equals_dependency (set_encompasing_equals_dependency g) = true ∧
  get_encompasses (set_encompasing_equals_dependency g) u = Some [(v, f_1)] ∧
  encompasing_equals_dependency (trane_set_encompasing_equals_dependency g) = false ∧
  get_encompasses (trane_set_encompasing_equals_dependency g) u = Some [(v, f_0_5)].
Proof. exact switch_dropped. Qed.
Print Assumptions C40_forwarded_refuted.
Example C40_nonvacuous : ∃ g, encompasing_equals_dependency g = true ∧ get_encompasses g "B"%string = Some [("A"%string, f_1)].
Proof.
  exists (set_encompasing_equals_dependency (grun [AddCourse "A"; AddCourse "B"; AddDependencies "B" Course ["A"%string]])).
  split; vm_compute; reflexivity.
Qed.
