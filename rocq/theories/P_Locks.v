(** Properties C84 and C85: threads that share a library. *)
From stdpp Require Import list list_numbers.
From Verif Require Import Locks LocksSpec LocksProofs LocksMore LocksSample.

(** C84: calls of threads that share a library do not block each other for ever. This is false: a
    request for a batch from the review list and any other request for a batch can wait for each
    other for ever. It is proved when no batch is requested from the review list, for any number of
    threads and calls and every schedule, and when only one thread requests batches. *)
Theorem C84_refuted : ∃ n s, sharing [[Batch Reviews]; [Batch Everything]] n s ∧ blocked_for_ever s.
Proof. exact both_blocked. Qed.
Print Assumptions C84_refuted.

Theorem C84_never_blocked_partial css n s :
  Forall (Forall (λ c, asks_reviews c = false)) css → sharing css n s → ¬ blocked_for_ever s.
Proof. exact (λ Hno Hs, never_blocked css n s Hs Hno). Qed.
Print Assumptions C84_never_blocked_partial.

(** From every state of such threads all calls can return, and no run goes on for ever. *)
Theorem C84_calls_return_partial css n s :
  Forall (Forall (λ c, asks_reviews c = false)) css → sharing css n s → ∃ m s', reaches s m s' ∧ finished s'.
Proof. exact (calls_return css n s). Qed.
Print Assumptions C84_calls_return_partial.

Theorem C84_runs_end ts n s : reaches (start ts) n s → n ≤ sum_list_with length ts.
Proof. exact (steps_bounded ts n s). Qed.
Print Assumptions C84_runs_end.

Theorem C84_one_batcher_partial css n s : only_one asks_batch css → sharing css n s → ¬ blocked_for_ever s.
Proof. exact (λ Hone Hs, never_blocked_one css n s Hs Hone). Qed.
Print Assumptions C84_one_batcher_partial.

(** A thread that has the library to itself never blocks, whatever it calls or changes. *)
Theorem C84_owner cs n s : owning cs n s → ¬ blocked_for_ever s.
Proof. exact (λ Hs, proj1 (owner_alone cs n s Hs)). Qed.
Print Assumptions C84_owner.

Example C84_nonvacuous :
  Forall (Forall (λ c, asks_reviews c = false)) three ∧
  (∃ n s, sharing three n s ∧ 1000 < n ∧ finished s) ∧
  only_one asks_batch one_student.
Proof. exact (conj three_calls (conj three_finished (proj2 one_student_alone))). Qed.

(** C85: a library can be shared by threads. This is false of any two calls that use the scores:
    they can use the same cache at the same time. It is proved when only one thread makes such
    calls, and a thread alone never borrows a cache twice. *)
Theorem C85_refuted c d :
  uses_scores c = true → uses_scores d = true → ∃ n s, sharing [[c]; [d]] n s ∧ clash s.
Proof. exact (any_two c d). Qed.
Print Assumptions C85_refuted.

Theorem C85_one_user_partial css n s : only_one uses_scores css → sharing css n s → ¬ clash s.
Proof. exact (λ Hone Hs, never_clash css n s Hs Hone). Qed.
Print Assumptions C85_one_user_partial.

Theorem C85_owner cs n s : owning cs n s → ¬ clash s.
Proof. exact (λ Hs, proj2 (owner_alone cs n s Hs)). Qed.
Print Assumptions C85_owner.

Example C85_nonvacuous :
  only_one uses_scores one_student ∧ finishedb (plan (turns 40) (start (way <$> one_student))).2 = true.
Proof. exact (conj (proj1 one_student_alone) one_student_finish). Qed.
