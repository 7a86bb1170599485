(** Properties of whole lifetimes: C92. A lifetime is any list of calls, with the library closed and
    opened again, or the program ended, between any two of them. The vocabulary is in SessionSpec.v. *)
From stdpp Require Import gmap strings list relations.
From Coq Require Import ZArith.
From Verif Require Import F32 Graph GraphSpec Library SearchSpec Filters Options Batch BatchSpec Stores StoresSpec UnitScorer UnitSpec Practice RangeSpec CallSpec
  AskSpec Session SessionSpec SessionProofs SessionMore SessionSafe SessionLive SessionKept SessionSample.

(** C92: the success rate that shapes the next batch is the share of scores of 3 or more among those
    stored since the library was opened, and 1 if there are none. *)
Theorem C92_rate : ∀ s preferred ops z evs, session_run s (new_session preferred) ops = Some (z, evs) →
  let gs := grades (since_opening evs) in
  success_rate (z_counts z) = if decide (gs = []) then f_1 else fdiv (f_of_nat (successes gs)) (f_of_nat (length gs)).
Proof. exact rate_right. Qed.
Print Assumptions C92_rate.
(** C92: the frequency that an exercise is weighed with is the number of times it was offered since
    the library was opened. *)
Theorem C92_frequency : ∀ s preferred ops z evs, session_run s (new_session preferred) ops = Some (z, evs) →
  ∀ fuel now saved e, Search.s_freq (env_of s fuel now z saved) e = times e (offered (since_opening evs)).
Proof. exact frequency_right. Qed.
Print Assumptions C92_frequency.
(** C92: an exercise waits to be relearned if and only if its last score since the library was opened
    is a 1 or a 2 and no request for a batch found it blacklisted since. *)
Theorem C92_relearn : ∀ s, setting_ok s → let g := lib_graph (g_lib s) in
  ∀ preferred ops z evs, session_run s (new_session preferred) ops = Some (z, evs) →
  ∀ e, get_unit_type g e = Some Exercise → e ∈ z_pile z ↔ to_relearn g (since_opening evs) e.
Proof. exact pile_right. Qed.
Print Assumptions C92_relearn.
(** C92: a score counts for all this if and only if it was stored, and then nothing else was. *)
Theorem C92_graded : ∀ s, setting_ok s →
  ∀ preferred ops z evs, session_run s (new_session preferred) ops = Some (z, evs) →
  ∀ fuel search now f e sc ts z' ev, session_step s fuel search now z (ZCall (CScore f e sc ts)) = Some (z', ev) →
  let more t := ∀ u, stored (p_trials (z_practice z')) u = stored (p_trials (z_practice z)) u ++ only e t u in
  (ev = EGraded e sc ∧ more [(Some (float_score sc), ts)]) ∨ (ev = EOther ∧ more []).
Proof. exact graded_right. Qed.
Print Assumptions C92_graded.

(** C92: whatever happened before, a batch has only exercises of the library, that are not
    blacklisted, nor their lessons or courses, unless the review list was asked for and names them;
    it has none of them twice, if the request names nothing twice and no values were recorded other
    than scoring could record; all of them were asked for or wait
    to be relearned; and there are no more than the batch size, or 5, and a tenth of it. *)
Theorem C92_batches : ∀ s, setting_ok s → let g := lib_graph (g_lib s) in
  ∀ preferred ops z evs, session_run s (new_session preferred) ops = Some (z, evs) →
  ∀ fuel search now q z' banned es, request_ok g q → session_step s fuel search now z (ZBatch q) = Some (z', EBatch banned es) →
  ∃ uf, stands_for q uf ∧ banned = p_banned (z_practice z) ∧
    (∀ em, em ∈ es → exercise_map (g_lib s) !! em_id em = Some em ∧
       (free g banned (em_id em) ∨ (uf = Some FReviewList ∧ em_id em ∈ z_review z))) ∧
    (lists_once uf → Forall proper ops → NoDup (em_id <$> es)) ∧
    (""%string ∉ banned → ∀ em, em ∈ es →
       exercise_asked (env_of s fuel now z (q_saved q)) uf (em_id em) ∨ to_relearn g (since_opening evs) (em_id em)) ∧
    (let b := batch_size_of (last_opening preferred ops) in (Z.of_nat b <= 1000000)%Z → length es ≤ Nat.max 5 b + b / 10).
Proof. exact batch_safe. Qed.
Print Assumptions C92_batches.

(** C92: after any lifetime with sane times in which only exercises were scored, no call panics and
    every call returns; a score whose writes succeed is stored; and a request whose filter is found,
    and whose review list names only units of the library, gives a batch. *)
Theorem C92_returns : ∀ s, setting_ok s → let g := lib_graph (g_lib s) in
  ∀ preferred ops z evs, session_run s (new_session preferred) ops = Some (z, evs) → Forall (sane g) ops →
  ∀ now op, sane_time now → sane_op g op → (∀ q, op = ZBatch q → request_ok g q) →
  ∃ n, ∀ fuel, n ≤ fuel → ∃ m, ∀ search, m ≤ search → ∃ z' ev, session_step s fuel search now z op = Some (z', ev) ∧
    (∀ f e sc ts, op = ZCall (CScore f e sc ts) → f_delta f = false → f_score f = false → ev = EGraded e sc) ∧
    (∀ q uf, op = ZBatch q → stands_for q uf → (uf = Some FReviewList → review_in g (z_review z)) →
       ∃ es, ev = EBatch (p_banned (z_practice z)) es).
Proof. exact call_returns. Qed.
Print Assumptions C92_returns.
(** C92: and if no unit is among those from whose scores its own is computed, then nothing that the
    search, or anybody, asks about a unit panics or does not return. *)
Theorem C92_answers : ∀ s, setting_ok s → let g := lib_graph (g_lib s) in
  acyclic (UnitSpec.below g) → ∃ n, ∀ preferred ops z evs, session_run s (new_session preferred) ops = Some (z, evs) → Forall (sane g) ops →
  ∀ now, sane_time now → ∀ qs q, fuelled n q →
  settled (fst (reply (world_of s now (z_practice z)) q (after_questions (world_of s now (z_practice z)) qs (p_caches (z_practice z))))).
Proof. exact answers_settle. Qed.
Print Assumptions C92_answers.

(** C92: the blacklist and the review list have what was put on them and not taken off since, and
    the options are those that were set last since the library was opened, or those of the
    preferences. *)
Theorem C92_lists : ∀ s preferred ops z evs, session_run s (new_session preferred) ops = Some (z, evs) →
  (∀ u, u ∈ p_banned (z_practice z) ↔ blacklisted_by ops u) ∧ (∀ u, u ∈ z_review z ↔ reviewed_by ops u) ∧
  Facade.get_scheduler_options (z_copies z) = options_by preferred ops.
Proof. exact lists_kept. Qed.
Print Assumptions C92_lists.
(** C92: and every call leaves alone what it is not about, in whatever state it is made. *)
Theorem C92_only : ∀ s fuel search now z op z' ev, session_step s fuel search now z op = Some (z', ev) →
  ∀ x, concerns op x = false → same_part x z z'.
Proof. exact step_kept. Qed.
Print Assumptions C92_only.

(** A lifetime of batches, scores, changes of the blacklist and of the review list, a trim and a
    second opening, with batches that are not empty and an exercise to relearn, meets all this. *)
Example C92_nonvacuous : ∃ s z evs, let g := lib_graph (g_lib s) in
  setting_ok s ∧ acyclic (UnitSpec.below g) ∧ Forall (sane g) (a_life g) ∧
  session_run s (new_session None) (a_life g) = Some (z, evs) ∧ event_ids <$> evs = life_ids ∧
  to_relearn g (since_opening evs) "A::2::z" ∧ review_in g (z_review z) ∧ ∀ f, request_ok g (ask g f).
Proof. exact some_life. Qed.
