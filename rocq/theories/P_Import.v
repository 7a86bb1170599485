(** Properties of trials, deltas and rewards that are recorded directly, such as those imported from
    another program: C95. Lifetimes are those of SessionSpec.v, in which any of the calls may be made
    between any two others. *)
From stdpp Require Import gmap strings list.
From Coq Require Import ZArith.
From Verif Require Import F32 Graph Library Filters Options Batch BatchSpec Search SearchSpec ScorerSpec Stores StoresSpec UnitScorer Practice RangeSpec
  Facade AskSpec Session SessionSpec SessionSample ImportProofs ImportSample.

(** C95: trials that are recorded directly are stored as they are given, after those that were
    stored before, and no others. *)
Theorem C95_stored : ∀ s preferred ops z evs, session_run s (new_session preferred) ops = Some (z, evs) →
  ∀ fuel search now es z' ev, session_step s fuel search now z (ZMaintain (MRecordScores false es)) = Some (z', ev) →
  ∀ u, stored (p_trials (z_practice z')) u = stored (p_trials (z_practice z)) u ++
    ((λ x, (bind_f32 (e_val x), e_ts x)) <$> filter (λ x, e_unit x = u) es).
Proof. exact recorded. Qed.
Print Assumptions C95_stored.
(** C95 at full strength would say that all answers take them into account. They do not: an exercise
    that was asked about before keeps its old answer. Here one trial is stored and the answer is
    that for none. *)
Theorem C95_seen_refuted : ∀ powf, power_ok powf → ∃ s ops z evs e, setting_ok s ∧ g_powf s = powf ∧ Forall proper ops ∧
  session_run s (new_session None) ops = Some (z, evs) ∧ get_unit_type (lib_graph (g_lib s)) e = Some Exercise ∧
  length (stored (p_trials (z_practice z)) e) = 1 ∧
  (∃ x, fst (exercise_entry (world_of s 0 (z_practice z)) e (p_caches (z_practice z))) = Val x ∧ ca_trials x = 0) ∧
  (∃ x, fst (exercise_entry (world_of s 0 (z_practice z)) e no_caches) = Val x ∧ ca_trials x = 1).
Proof. exact unseen_import. Qed.
Print Assumptions C95_seen_refuted.
(** They do as soon as the cached scores of the exercise are invalidated or the library is opened
    again: what is missing is that this is done by the call that records them. *)
Theorem C95_seen_partial : ∀ s, setting_ok s →
  ∀ preferred ops z evs, session_run s (new_session preferred) ops = Some (z, evs) →
  ∀ fuel search now op z' ev e, get_unit_type (lib_graph (g_lib s)) e = Some Exercise →
  op = ZMaintain (MForget e) ∨ (∃ b, op = ZReopen b) → session_step s fuel search now z op = Some (z', ev) →
  ∀ later, fst (exercise_entry (world_of s later (z_practice z')) e (p_caches (z_practice z'))) =
           fst (exercise_entry (world_of s later (z_practice z')) e no_caches).
Proof. exact forgotten. Qed.
Print Assumptions C95_seen_partial.

(** C95 at full strength would say that the scores of units stay between 0 and 5 whatever is
    recorded. They do not: two infinite trials of an exercise give it a score that is not a number. *)
Theorem C95_range_refuted : ∀ powf, power_ok powf → ∃ s ops z evs e x, setting_ok s ∧ g_powf s = powf ∧
  session_run s (new_session None) ops = Some (z, evs) ∧ get_unit_type (lib_graph (g_lib s)) e = Some Exercise ∧
  fst (unit_score (world_of s 0 (z_practice z)) 1 e (p_caches (z_practice z))) = Val (Some x) ∧ ¬ in_range x.
Proof. exact infinite_import. Qed.
Print Assumptions C95_range_refuted.
(** They do if what is recorded directly is in the ranges of what scoring records: what is missing is
    that other values are refused. *)
Theorem C95_range_partial : ∀ s, setting_ok s →
  ∀ preferred ops z evs, session_run s (new_session preferred) ops = Some (z, evs) → Forall proper ops →
  ∀ now n u, let p := z_practice z in
  (∀ x, fst (unit_score (world_of s now p) n u (p_caches p)) = Val (Some x) → in_range x) ∧
  (∀ x, fst (exercise_entry (world_of s now p) u (p_caches p)) = Val x → entry_ok x).
Proof. exact life_ranges. Qed.
Print Assumptions C95_range_partial.

(** C95: after such a lifetime a batch is not empty if the search finds an exercise with a score
    below 4.5, or one that is not covered ten times by others that it finds. *)
Theorem C95_nonempty : ∀ s, setting_ok s → let g := lib_graph (g_lib s) in
  ∀ preferred ops z evs, session_run s (new_session preferred) ops = Some (z, evs) → Forall proper ops →
  ∀ fuel search now q uf z' banned es, request_ok g q → stands_for q uf → lists_once uf →
  session_step s fuel search now z (ZBatch q) = Some (z', EBatch banned es) →
  ∃ cs, initial_candidates (with_options (oc_data (z_copies z)) (env_of s fuel now z (q_saved q))) (q_orders q) search (q_checks q) (q_time q) (q_filter q) = Found cs ∧
    ∀ c, c ∈ cs → flt (Batch.exercise_score c) f_4_5 = true ∨ ¬ covered_times (q_edges q) cs c 10 → es ≠ [].
Proof. exact life_nonempty. Qed.
Print Assumptions C95_nonempty.

(** A lifetime with trials, deltas and rewards recorded directly, a batch of two exercises, and a
    trial recorded for an exercise that is then invalidated, meets all this. *)
Example C95_nonvacuous : ∃ s, imported s.
Proof. exact some_import. Qed.
