(** Words for the property about scores that are given and asked by several threads at once. *)
From stdpp Require Import gmap strings list.
From Coq Require Import ZArith.
From Verif Require Import F32 Graph Library Options Stores Scorer UnitScorer Practice Threads.

(** Threads take steps in any order. *)
Inductive moves (s : shared) (l : list (act result)) : shared → list (act result) → Prop :=
| moves_none : moves s l s l
| moves_step s' l' i f s'' a : moves s l s' l' → l' !! i = Some (Act f) → f s' = Some (s'', a) →
    moves s l s'' (<[i := a]> l').
(** The requests [rs] are made at once, each by a thread of its own; when all of them have returned,
    with the results [out], the stores and caches have gone from [p] to [p']. A thread that makes
    several calls is included: its calls are threads that run one after the other. *)
Definition at_once (s : setting) (fuel : nat) (p : practice) (rs : list request) (p' : practice) (out : list result) : Prop :=
  moves (Shared p 0) (request_steps s fuel <$> rs) (Shared p' 0) (Ret <$> out).
(** The same calls, one after the other. *)
Definition call_of (r : request) : Z * call :=
  match r with
  | Ask now e => (now, CAskExercise e)
  | Give now f e sc ts => (now, CScore f e sc ts)
  end.
Definition in_turn (s : setting) (fuel : nat) (p : practice) (rs : list request) (p' : practice) : Prop :=
  calls s fuel p (call_of <$> rs) = Some p'.

(** The trials that were given, and those of the calls that returned without an error. *)
Definition trial_of (r : request) : option (entry f32) :=
  match r with Ask _ _ => None | Give _ _ e sc ts => Some (Entry e (float_score sc) ts) end.
Definition given (rs : list request) : list (entry f32) := omap trial_of rs.
Definition accepted (rs : list request) (out : list result) : list (entry f32) :=
  omap (λ x, match x.2 with Accepted true => trial_of x.1 | _ => None end) (zip rs out).
(** What would be shown of an exercise if there were no caches. *)
Definition fresh (s : setting) (now : Z) (p : practice) (e : uid) : outcome cached_score :=
  fst (exercise_entry (world_of s now p) e no_caches).
(** What is shown, with the caches. *)
Definition shown (s : setting) (now : Z) (p : practice) (e : uid) : outcome cached_score :=
  fst (exercise_entry (world_of s now p) e (p_caches p)).
