(** Properties of machine sizes: C94. The vocabulary is in MachineSpec.v; [batch_on mc] is a request
    for a batch on the machine [mc], with its word size, overflow checks and allocator. *)
From stdpp Require Import gmap strings list.
From Coq Require Import ZArith.
From Verif Require Import F32 Graph GraphSpec Library LibrarySpec Options OptionsSpec Filters Batch BatchSpec FinishProofs Search SearchSpec
  BatchSample SearchSample Machine MachineSpec MachineProofs.
Local Open Scope Z_scope.

(** C94 in full is false: there is a batch size that the user preferences may contain and that is
    accepted, with which every request without a filter panics: on every machine, in every build,
    with every library and history. *)
Theorem C94_sizes_refuted : ∃ b, verify_options (create_scheduler_options (Some b)) = true ∧
  ∀ mc env os fuel checks time m r e oc rate pile, 1 <= m_bytes mc → s_options env = create_scheduler_options (Some b) →
    batch_on mc env os fuel checks time m r e oc rate pile None = Panics.
Proof. exact huge_panics. Qed.
Print Assumptions C94_sizes_refuted.
(** C94: exactly, every request that searches the graph panics when ten batches of candidates need
    more bytes than the largest signed word; the only exception is a build without overflow checks
    whose product of ten and the batch size wraps around. *)
Theorem C94_limit : ∀ mc, 1 <= m_bytes mc → ∀ env os fuel checks time m r e oc rate pile f uf,
  uses env checks time f uf → searches uf → isize_max < ten_batches mc (s_options env) →
  let ended := batch_on mc env os fuel checks time m r e oc rate pile f in
  ended = Panics ∨ ended = Wraps ∧ m_checked mc = false ∧ word <= 10 * Z.of_nat (batch_size (s_options env)).
Proof. exact batch_large. Qed.
Print Assumptions C94_limit.
(** C94: a request that searches needs the memory of ten full batches at once, however small the
    library is. *)
Theorem C94_memory : ∀ mc env os fuel checks time m r e oc rate pile f uf batch,
  uses env checks time f uf → searches uf →
  batch_on mc env os fuel checks time m r e oc rate pile f = Ran batch → m_memory mc (ten_batches mc (s_options env)) = true.
Proof. exact batch_needs. Qed.
Print Assumptions C94_memory.
(** C94, partial: below that limit, and with that memory, machine sizes make no difference: a request
    has the result that the other theorems describe. *)
Theorem C94_agrees_partial : ∀ mc, 1 <= m_bytes mc → ∀ env os fuel checks time m r e oc rate pile f,
  ten_batches mc (s_options env) <= isize_max → grants mc (ten_batches mc (s_options env)) →
  ten_batches mc (oc_filter oc) <= isize_max → grants mc (ten_batches mc (oc_filter oc)) →
  batch_on mc env os fuel checks time m r e oc rate pile f =
  Ran (get_exercise_batch env os fuel checks time m r e oc rate pile f).
Proof. exact batch_fits. Qed.
Print Assumptions C94_agrees_partial.
(** With 64 bytes for a candidate the default options are far below the limit, a batch is given, and
    the limit is at some fourteen thousand million million exercises. *)
Example C94_nonvacuous : (1 <= m_bytes a_machine ∧ ten_batches a_machine default_options <= isize_max ∧
    grants a_machine (ten_batches a_machine default_options)) ∧
  (∃ lib es, opened lib ∧ es ≠ [] ∧
    let env := an_env default_options [] [] [] lib in
    batch_on a_machine env plain 30 true 0 no_libm first_choices (graph_edges (s_graph env)) (same_options default_options) f_1 ∅ None = Ran (BatchOf es)) ∧
  ∀ b, isize_max < ten_batches a_machine (set_batch_size b default_options) ↔ 14411518807585587 < Z.of_nat b.
Proof. exact (conj a_machine_fits (conj a_machine_runs a_limit)). Qed.
