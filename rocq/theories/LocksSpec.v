(** Words for the properties about threads that share a library: what a call does with the locks
    and the caches, which steps of several threads are possible, when threads block each other for
    ever and when they use a cache at the same time. *)
From stdpp Require Import list.
From Verif Require Import Locks.

(** * What a call does, step by step *)

(** [Ask r Shared] takes a lock or a cell for reading. [Ask r Exclusive] takes a cell for writing,
    or announces that a lock is wanted for writing, after which nobody else gets it; [Enter] then
    takes the lock once its readers have gone. [Leave] gives back. *)
Inductive event := Ask (r : resource) (m : mode) | Enter (l : lock) | Leave (r : resource) (m : mode).
Definition taking (r : resource) (m : mode) : list event :=
  Ask r m :: match r, m with Lock l, Exclusive => [Enter l] | _, _ => [] end.
Inductive runs : code → list event → Prop :=
| runs_done : runs Done []
| runs_with r m c t : runs c t → runs (With r m c) (taking r m ++ t ++ [Leave r m])
| runs_then c d t u : runs c t → runs d u → runs (Then c d) (t ++ u)
| runs_stop c d t : runs c t → runs (Then c d) t
| runs_left c d t : runs c t → runs (Either c d) t
| runs_right c d t : runs d t → runs (Either c d) t
| runs_end c : runs (Repeat c) []
| runs_again c t u : runs c t → runs (Repeat c) u → runs (Repeat c) (t ++ u).
(** What a call may do, with recursions of any depth. *)
Definition call_runs (c : call) (t : list event) : Prop := ∃ n, runs (call_code n c) t.
Definition change_runs (c : change) (t : list event) : Prop := runs (change_code c) t.

(** * Threads *)

(** What a thread holds and what it is going to do. *)
Record thread := Thread { holds : list (resource * mode); next : list event }.
Definition start (ts : list (list event)) : list thread := Thread [] <$> ts.
Definition held_by (s : list thread) (r : resource) (m : mode) : Prop :=
  ∃ th, th ∈ s ∧ (r, m) ∈ holds th.
(** When the next step of a thread is possible. This is the locking policy of parking_lot 0.12.5,
    which both kinds of locks are from: a lock that somebody wants for writing or holds for writing
    is not given to anybody else, not even to a thread that already holds it for reading, and a
    writer waits until all readers have gone. Nobody waits for a cell. *)
Definition possible (s : list thread) (e : event) : Prop :=
  match e with
  | Ask (Lock l) _ => ¬ held_by s (Lock l) Exclusive
  | Enter l => ¬ held_by s (Lock l) Shared
  | Ask (Cell _) _ | Leave _ _ => True
  end.
Fixpoint without (r : resource) (m : mode) (h : list (resource * mode)) : list (resource * mode) :=
  match h with
  | [] => []
  | x :: h => if decide (x = (r, m)) then h else x :: without r m h
  end.
Definition after (h : list (resource * mode)) (e : event) : list (resource * mode) :=
  match e with Ask r m => (r, m) :: h | Enter _ => h | Leave r m => without r m h end.
(** One of the threads takes a step. *)
Inductive step (s : list thread) : list thread → Prop :=
| step_thread i h e t : s !! i = Some (Thread h (e :: t)) → possible s e →
    step s (<[i := Thread (after h e) t]> s).
Inductive reaches (s : list thread) : nat → list thread → Prop :=
| reaches_here : reaches s 0 s
| reaches_step n s' s'' : reaches s n s' → step s' s'' → reaches s (S n) s''.
Definition finished (s : list thread) : Prop := Forall (λ th, next th = []) s.
(** Some calls have not returned, and no thread can take a step. *)
Definition blocked_for_ever (s : list thread) : Prop := ¬ finished s ∧ ∀ s', ¬ step s s'.
(** Two borrows of a cell at the same time, one of them for writing: the second one panics, or, in
    two threads, is a data race. *)
Definition clash (s : list thread) : Prop :=
  ∃ x m, [(Cell x, Exclusive); (Cell x, m)] ⊆+ s ≫= holds.

(** * Threads calling a library *)

(** A thread makes calls one after the other. *)
Definition calls_run (cs : list call) (t : list event) : Prop :=
  ∃ ts, Forall2 call_runs cs ts ∧ t = concat ts.
(** Threads sharing a library: [css] lists what each of them calls, [s] is reached after [n] steps. *)
Definition sharing (css : list (list call)) (n : nat) (s : list thread) : Prop :=
  ∃ ts, Forall2 calls_run css ts ∧ reaches (start ts) n s.
(** One thread that owns a library and also changes it. *)
Definition owner_run (cs : list (call + change)) (t : list event) : Prop :=
  ∃ ts, Forall2 (λ c u, match c with inl c => call_runs c u | inr c => change_runs c u end) cs ts ∧
        t = concat ts.
Definition owning (cs : list (call + change)) (n : nat) (s : list thread) : Prop :=
  ∃ t, owner_run cs t ∧ reaches (start [t]) n s.

(** Which calls request a batch, and which of them from the review list. *)
Definition asks_batch (c : call) : bool :=
  match c with Batch _ | SessionBatch _ => true | _ => false end.
Definition asks_reviews (c : call) : bool :=
  match c with Batch Reviews | SessionBatch Reviews => true | _ => false end.
(** Which calls use the caches of scores. *)
Definition uses_scores (c : call) : bool :=
  match c with
  | Batch _ | SessionBatch _ | ScoreExercise | UnitScore | Invalidate | InvalidatePrefix => true
  | _ => false
  end.
(** At most one of the threads makes such calls. *)
Definition only_one (p : call → bool) (css : list (list call)) : Prop :=
  ∃ k, ∀ i cs, css !! i = Some cs → i ≠ k → Forall (λ c, p c = false) cs.
