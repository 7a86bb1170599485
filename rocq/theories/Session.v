(** Model of the whole life of the scheduler: what is stored, what is kept in memory while the
    program runs, and the calls that change either. Definitions only.

    The saved filters, the hash orders and the random choices of a request are given with it.
    Errors of the blacklist and of the review list are left out, and so are openings that fail, such as
    those with a preferred batch size of 0 (src/lib.rs:271-272). *)
From stdpp Require Import gmap strings list.
From Coq Require Import ZArith.
From Verif Require Import F32 Graph Library Filters Options Batch Search Facade Sql Stores Propagate UnitScorer Practice AskSpec.
Local Open Scope bool_scope.

(** The stores and caches; then the [SchedulerData] that is not stored (src/scheduler/data.rs:54-60),
    the relearn pile (src/scheduler/relearn_pile.rs:14-21), and the copies of the options
    (src/scheduler.rs:188-205); last the review list. *)
Record session := Session {
  z_practice : practice;
  z_counts : nat * nat;
  z_pile : gset uid;
  z_freq : gmap uid nat;
  z_copies : option_copies;
  z_review : list uid }.
Definition with_practice (z : session) (p : practice) : session :=
  Session p (z_counts z) (z_pile z) (z_freq z) (z_copies z) (z_review z).

(** A library that is opened for the first time (src/lib.rs:242-303). The argument is the batch size of
    the preferences, if they set it. *)
Definition new_session (preferred : option nat) : session :=
  Session new_practice (0, 0) ∅ ∅ (new_copies (create_scheduler_options preferred)) [].
(** The program ends or crashes between two calls, and the library, with the same courses, is
    opened again: only the stores are left (src/lib.rs:242-303; src/practice_rewards.rs:142-150 for the
    cache of rewards). *)
Definition reopen (preferred : option nat) (z : session) : session :=
  let p := z_practice z in
  Session (Practice (p_trials p) (p_deltas p) (reward_step (p_rewards p) RReopen) (p_banned p) no_caches)
    (0, 0) ∅ ∅ (new_copies (create_scheduler_options preferred)) (z_review z).

(** [update_success_rate] (src/scheduler/data.rs:402-408). *)
Definition count_score (c : nat * nat) (sc : mastery_score) : nat * nat :=
  match sc with One | Two => (c.1, S c.2) | Three | Four | Five => (S c.1, c.2) end.
(** [get_success_rate] (src/scheduler/data.rs:412-420). *)
Definition success_rate (c : nat * nat) : f32 :=
  let total := c.1 + c.2 in
  if Nat.eqb total 0 then f_1 else fdiv (f_of_nat c.1) (f_of_nat total).
(** [increment_exercise_frequency] (src/scheduler/data.rs:309-313), for each exercise of a batch
    (src/scheduler.rs:1091-1093). *)
Definition increment (m : gmap uid nat) (e : uid) : gmap uid nat := <[e := S (default 0 (m !! e))]> m.

(** A request for a batch: the filter, the time that study sessions are measured with, whether
    overflow is checked, the platform, the choices and orders, the edges as the graph lists them, the
    saved filters, and the questions that the search asks the unit scorer, in whatever order. *)
Record request := Request {
  q_filter : option exercise_filter;
  q_time : Z;
  q_checks : bool;
  q_libm : libm;
  q_choices : choices;
  q_edges : edges;
  q_orders : nat → orders;
  q_saved : string → option unit_filter;
  q_asked : list question }.

(** Calls that change what is stored or cached, apart from those of Practice.v: src/lib.rs:459-465,
    507-522, 537-552 and 567-582. The first three record values as they are given, and none but the
    last two touch the caches of the unit scorer. *)
Inductive maintenance :=
| MRecordScores (fails : bool) (es : list (entry f32))
| MRecordDeltas (fails : bool) (es : list (entry f32))
| MRecordRewards (q : order reward) (fault : option nat) (es : list (entry reward))
| MTrimScores (q : order f32) (stop : option nat) (n : nat)
| MTrimDeltas (q : order f32) (stop : option nat) (n : nat)
| MTrimRewards (q : order reward) (stop : option nat) (n : nat)
| MRemoveScores (stop : option nat) (pre : string)
| MRemoveDeltas (stop : option nat) (pre : string)
| MRemoveRewards (stop : option nat) (pre : string)
| MForget (u : uid)
| MForgetPrefix (pre : string).
Definition maintain (g : graph) (p : practice) (m : maintenance) : practice :=
  match m with
  | MRecordScores fails es => Practice (fst (record_entries bind_f32 fails (p_trials p) es)) (p_deltas p) (p_rewards p) (p_banned p) (p_caches p)
  | MRecordDeltas fails es => Practice (p_trials p) (fst (record_entries bind_f32 fails (p_deltas p) es)) (p_rewards p) (p_banned p) (p_caches p)
  | MRecordRewards q fault es => Practice (p_trials p) (p_deltas p) (fst (record_unit_rewards q fault (p_rewards p) es)) (p_banned p) (p_caches p)
  | MTrimScores q stop n => Practice (trim_entries q stop n (p_trials p)) (p_deltas p) (p_rewards p) (p_banned p) (p_caches p)
  | MTrimDeltas q stop n => Practice (p_trials p) (trim_entries q stop n (p_deltas p)) (p_rewards p) (p_banned p) (p_caches p)
  | MTrimRewards q stop n => Practice (p_trials p) (p_deltas p) (reward_step (p_rewards p) (RTrim q stop n)) (p_banned p) (p_caches p)
  | MRemoveScores stop pre => Practice (remove_prefix stop pre (p_trials p)) (p_deltas p) (p_rewards p) (p_banned p) (p_caches p)
  | MRemoveDeltas stop pre => Practice (p_trials p) (remove_prefix stop pre (p_deltas p)) (p_rewards p) (p_banned p) (p_caches p)
  | MRemoveRewards stop pre => Practice (p_trials p) (p_deltas p) (reward_step (p_rewards p) (RRemovePrefix stop pre)) (p_banned p) (p_caches p)
  | MForget u => with_caches (invalidate g u) p
  | MForgetPrefix pre => with_caches (invalidate_prefix pre) p
  end.

Inductive session_op :=
| ZCall (c : call)
| ZMaintain (m : maintenance)
| ZReview (v : review_op)
| ZOptions (c : options_call)
| ZBatch (q : request)
| ZReopen (preferred : option nat).

(** What was seen of a call: a trial that was stored, a batch, a request that failed after the
    relearn pile was cleaned or before, an opening, or anything else. With a batch comes the
    blacklist at that time. *)
Inductive event :=
| EGraded (e : uid) (sc : mastery_score)
| EBatch (banned : gset uid) (es : list exercise_manifest)
| EFailed (banned : gset uid)
| ERefused
| EOpened
| EOther.

Section session.
  Context (s : setting).
  Let g := lib_graph (g_lib s).

  (** What the search sees: the answers of the unit scorer, from the caches as they are when the
      request is made. A panic of the unit scorer or one that never returns counts as an error
      here; SessionProofs.v shows when there is none. *)
  Definition told {A} (r : outcome A) : option A := match r with Val a => Some a | _ => None end.
  Definition env_of (fuel : nat) (now : Z) (z : session) (saved : string → option unit_filter) : senv :=
    let p := z_practice z in
    let w := world_of s now p in
    let c := p_caches p in
    SEnv (g_lib s) (p_banned p)
      (λ u, default false (told (fst (superseded w (unit_score w fuel) fuel u c))))
      (λ u, told (fst (unit_score w fuel u c)))
      (λ e, told (fst (exercise_urgency w e c)))
      (λ e, told (fst (exercise_velocity w e c)))
      (λ u, default None (told (fst (avg_trials w fuel u c))))
      (λ e, default 0 (z_freq z !! e))
      (oc_data (z_copies z)) (z_review z) saved.

  (** [get_exercise_batch] (src/scheduler.rs:1049-1095). [None]: a panic, or fuel that ran out. *)
  Definition batch_step (fuel search : nat) (now : Z) (z : session) (q : request) : option (session * event) :=
    let env := env_of fuel now z (q_saved q) in
    let p := z_practice z in
    let p' := with_caches (after_questions (world_of s now p) (q_asked q)) p in
    let pile := clean_pile (inside_blacklisted env) (z_pile z) in
    match request_batch env (z_copies z) (q_orders q) search (q_checks q) (q_time q) (q_libm q) (q_choices q) (q_edges q)
            (success_rate (z_counts z)) (z_pile z) (q_filter q) with
    | BatchOf es =>
        Some (Session p' (z_counts z) pile (fold_left increment (em_id <$> es) (z_freq z)) (z_copies z) (z_review z),
              EBatch (p_banned p) es)
    | BatchError =>
        match initial_candidates (with_options (oc_data (z_copies z)) env) (q_orders q) search (q_checks q) (q_time q) (q_filter q) with
        | Found _ => Some (Session p' (z_counts z) pile (z_freq z) (z_copies z) (z_review z), EFailed (p_banned p))
        | _ => Some (with_practice z p', ERefused)
        end
    | BatchPanic | BatchNoFuel => None
    end.

  (** A score that was stored also changes the relearn pile and the counts (src/scheduler.rs:1129-1141),
      before the rewards are stored. *)
  Definition stored_more (p p' : practice) : bool := Nat.ltb (length (t_rows (p_trials p))) (length (t_rows (p_trials p'))).
  Definition session_step (fuel search : nat) (now : Z) (z : session) (op : session_op) : option (session * event) :=
    match op with
    | ZCall c =>
        match call_step s fuel now (z_practice z) c with
        | None => None
        | Some p =>
            match c with
            | CScore _ e sc _ =>
                if stored_more (z_practice z) p then
                  Some (Session p (count_score (z_counts z) sc) (update_pile (z_pile z) e sc) (z_freq z) (z_copies z) (z_review z),
                        EGraded e sc)
                else Some (with_practice z p, EOther)
            | _ => Some (with_practice z p, EOther)
            end
        end
    | ZMaintain m => Some (with_practice z (maintain g (z_practice z) m), EOther)
    | ZReview v =>
        Some (Session (z_practice z) (z_counts z) (z_pile z) (z_freq z) (z_copies z) (review_step (z_review z) v), EOther)
    | ZOptions c =>
        Some (Session (z_practice z) (z_counts z) (z_pile z) (z_freq z) (options_step (z_copies z) c) (z_review z), EOther)
    | ZBatch q => batch_step fuel search now z q
    | ZReopen preferred => Some (reopen preferred z, EOpened)
    end.

  (** A history: for each call the fuel of the unit scorer, that of the search, and the time.
      [None] if a call panics or does not return with that fuel. *)
  Record timed := Timed { t_fuel : nat; t_search : nat; t_now : Z; t_op : session_op }.
  Fixpoint session_run (z : session) (ops : list timed) : option (session * list event) :=
    match ops with
    | [] => Some (z, [])
    | t :: ops =>
        match session_step (t_fuel t) (t_search t) (t_now t) z (t_op t) with
        | None => None
        | Some (z, ev) => match session_run z ops with Some (z, evs) => Some (z, ev :: evs) | None => None end
        end
    end.
End session.
