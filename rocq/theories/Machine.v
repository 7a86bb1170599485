(** Machine sizes in a request for a batch. The other models compute with natural numbers; here are
    the places where the code multiplies the batch size or reserves memory for it, with the word
    size and the allocator of the machine. *)
From stdpp Require Import gmap strings list.
From Coq Require Import ZArith.
From Verif Require Import F32 Graph Library Options Filters Batch Search.

(** A target with 64 bits. [m_bytes] is the size of a [Candidate] (src/scheduler.rs:121-159), whose
    layout the language leaves open; [m_checked] says whether the build checks for overflow (debug
    builds do, release builds wrap around); [m_memory] is the answer of the allocator to a request
    for that many bytes. *)
Record machine := Machine { m_bytes : Z; m_checked : bool; m_memory : Z → bool }.
Definition word : Z := 2 ^ 64.
Definition isize_max : Z := 2 ^ 63 - 1.

(** What became of a step: it went on, it panicked, the process was aborted for lack of memory, or a
    product wrapped around in a build without checks (what follows then is not described here). *)
Inductive ran (A : Type) := Ran (a : A) | Panics | Aborts | Wraps.
Arguments Ran {A}. Arguments Panics {A}. Arguments Aborts {A}. Arguments Wraps {A}.

Section machine.
  Context (mc : machine).

  (** [a * b] on [usize]. *)
  Definition times {A} (a b : nat) (next : nat → ran A) : ran A :=
    if (Z.of_nat a * Z.of_nat b <? word)%Z then next (a * b)
    else if m_checked mc then Panics else Wraps.
  (** [Vec::with_capacity(n)] for candidates: it panics when more than [isize::MAX] bytes are
      needed, and aborts when the allocator refuses. *)
  Definition with_capacity {A} (n : nat) (next : ran A) : ran A :=
    let size := (Z.of_nat n * m_bytes mc)%Z in
    if (isize_max <? size)%Z then Panics
    else if m_memory mc size then next else Aborts.
  (** The first lines of a search (src/scheduler.rs:735-736). *)
  Definition reserve {A} (o : scheduler_options) (next : ran A) : ran A :=
    times (batch_size o) 10 (λ n, with_capacity n next).

  Section request.
    Context (env : senv) (os : nat → orders) (fuel : nat).

    (** An entry of the review list (src/scheduler.rs:928-961): only courses are searched. *)
    Definition entry_on (i : nat) (u : uid) : ran sresult :=
      match get_unit_type (s_graph env) u with
      | Some Course => reserve (s_options env) (Ran (from_entry env os fuel i u))
      | _ => Ran (from_entry env os fuel i u)
      end.
    (** src/scheduler.rs:926-965: the entries in a row; an error ends the request. *)
    Fixpoint collect_on (rs : list (ran sresult)) : ran sresult :=
      match rs with
      | [] => Ran (Found [])
      | r :: rs =>
          match r with
          | Ran (Found a) =>
              match collect_on rs with
              | Ran (Found b) => Ran (Found (a ++ b))
              | r => r
              end
          | r => r
          end
      end.
    (** [get_initial_candidates] without study sessions (src/scheduler.rs:968-1021). *)
    Definition unit_candidates_on (f : option unit_filter) : ran sresult :=
      match f with
      | Some (FLessons ls) => Ran (unit_candidates env os fuel f)
      | Some FReviewList => collect_on (imap entry_on (s_review env))
      | _ => reserve (s_options env) (Ran (unit_candidates env os fuel f))
      end.
    (** [get_initial_candidates] (src/scheduler.rs:968-1033). *)
    Definition initial_candidates_on (checks : bool) (time : Z) (f : option exercise_filter) : ran sresult :=
      match f with
      | None => unit_candidates_on None
      | Some (EUnit f) => unit_candidates_on (Some f)
      | Some (ESession s) =>
          match session_filter env checks s time with
          | Some f => unit_candidates_on f
          | None => Ran Failed
          end
      end.

    (** The sizes in [filter_candidates] (src/scheduler/filter.rs:183, 200-213, 263, 288) for [n]
        candidates that were not knocked out. *)
    Definition filter_sizes {A} (o : scheduler_options) (n : nat) (next : ran A) : ran A :=
      let go b := with_capacity b (times b 3 (λ _, next)) in
      if Nat.ltb (batch_size o) 10 then go (batch_size o)
      else times (batch_size o) 3 (λ _, go (dynamic_batch_size (batch_size o) n)).

    (** [get_exercise_batch] (src/scheduler.rs:1049-1095). The memory that grows with the number of
        candidates found, and that of the relearn pile, is not counted. *)
    Definition batch_on (checks : bool) (time : Z) (m : libm) (r : choices) (e : edges)
        (oc : option_copies) (rate : f32) (pile : gset uid) (f : option exercise_filter) : ran batch_result :=
      match initial_candidates_on checks time f with
      | Ran (Found cs) =>
          match knock_out_reviews e (r_units r) cs with
          | None => Ran BatchPanic
          | Some k =>
              filter_sizes (oc_filter oc) (length (ko_candidates k))
                (Ran (finish_batch env m r e oc rate pile (Found cs)))
          end
      | Ran found => Ran (finish_batch env m r e oc rate pile found)
      | Panics => Panics
      | Aborts => Aborts
      | Wraps => Wraps
      end.
  End request.
End machine.
