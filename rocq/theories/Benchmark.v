(** Model of src/benchmark.rs: the copy of a library, the simulated students and the loop that
    lets them practise. Definitions only. *)
From stdpp Require Import gmap strings list.
From Coq Require Import ZArith.
From Flocq Require Import IEEE754.BinarySingleNaN.
From Verif Require Import F32 Graph Library Options FileSystem.
Local Open Scope string_scope.
Local Open Scope list_scope.

(** * Copying a library, lines 193-208 *)

(** [std::fs::copy]. *)
Definition copy_file (p q : path) : io () :=
  s <-- look (λ f, read_file f p) ;;;
  match s with Some s => write_file q s | None => fail end.
Definition copy_entry (src dst p : path) : io () :=
  let q := dst ++ drop (length src) p in
  b <-- look (λ f, is_dir f p) ;;;
  if (b : bool) then create_dir_all q else copy_file p q.
(** What is in the source is listed before anything is copied, while WalkDir lists it on the way;
    this makes no difference if the target is not inside the source. If the source does not exist,
    nothing is copied. *)
Definition copy_library (walk : files → path → list path) (src dst : path) : io () :=
  create_dir_all dst >>>
  (entries <-- look (λ f, if path_exists f src then src :: walk f src else []) ;;;
   each (copy_entry src dst) entries).

(** * Simulated students *)

(** The probabilities of the five scores, lines 22-24. *)
Notation probabilities := (list f32) (only parsing).
Definition f_1e_4 : f32 := lit false 13743895 (-37) eq_refl.
(** Lines 27-34; [true] is [Ok]. *)
Definition verify_probs (p : probabilities) : bool := flt (fabs (fsub (fsum p) f_1)) f_1e_4.
(** Lines 38-62, without the frequency of sessions, which is an argument below. *)
Record profile := Profile { initial : probabilities; before_stable : Z; stable : probabilities; lapse_rate : f32 }.
(** Lines 333-346, for one of the profiles. *)
Definition verify_profile (x : profile) : bool := verify_probs (initial x) && verify_probs (stable x).

(** Lines 211-216. *)
Definition stable_weight (x : profile) (trial : Z) : f32 := fmin (fdiv (f_of_Z trial) (f_of_Z (before_stable x))) f_1.
Definition performance (x : profile) (trial : Z) : probabilities :=
  let w := stable_weight x trial in
  zip_with (λ i s, fadd (fmul i (fsub f_1 w)) (fmul s w)) (initial x) (stable x).

(** [WeightedIndex::new] of the rand crate: the sums of the weights before each but the first, and
    the sum of all; [None] is an error. A weight must not be negative or NaN, the sum must be
    positive and finite. *)
Fixpoint cumulative (total : f32) (l : list f32) : option (list f32 * f32) :=
  match l with
  | [] => Some ([], total)
  | w :: l => if fge w fzero then c ← cumulative (fadd total w) l; Some (total :: c.1, c.2) else None
  end.
Definition weighted_index (l : list f32) : option (list f32 * f32) :=
  match l with
  | [] => None
  | w :: l =>
      if fge w fzero then
        c ← cumulative w l;
        if feq c.2 fzero || negb (flt c.2 (B754_infinity false)) then None else Some c
      else None
  end.
(** Its [sample]: the number of sums that are at most the random number below the total. *)
Definition sample_index (sums : list f32) (u : f32) : nat := length (List.filter (λ c, fle c u) sums).
(** Lines 220-235: [u] is the random number for the lapse and [pick] gives one below a total.
    [None] is a panic. *)
Definition get_score (x : profile) (trial : Z) (u : f32) (pick : f32 → f32) : option mastery_score :=
  if flt u (lapse_rate x) && Z.ltb (before_stable x) trial then Some Two
  else
    c ← weighted_index (performance x trial);
    match sample_index c.1 (pick c.2) with
    | 0 => Some One | 1 => Some Two | 2 => Some Three | 3 => Some Four | 4 => Some Five | _ => None
    end.

(** * The simulation *)

(** Lines 182-191. *)
Definition session_timestamp (anchor session frequency : Z) : Z := (anchor + session * frequency * 86400)%Z.
Definition exercise_timestamp (start index : Z) : Z := (start + index)%Z.

Section simulation.
  (** The library that is practised, with its calls at a given time, and the scores of the
      student: the number of the call and of the trial. [None] is an error or a panic, and for
      [unit_score] also the score of a unit that has none. Counters are unbounded. *)
  Context {T : Type} (get_batch : T → Z → option (list uid)) (score_exercise : T → uid → mastery_score → Z → option T)
    (unit_score : T → Z → uid → option f32) (draw : Z → Z → option mastery_score).
  (** [sim_log] lists what was scored, the last entry first. *)
  Record sim := Sim { sim_trane : T; sim_counts : gmap uid Z; sim_practiced : Z; sim_log : list (uid * mastery_score * Z) }.

  (** Lines 292-304. *)
  Fixpoint submit (start per : Z) (batch : list uid) (done : Z) (s : sim) : option (Z * sim) :=
    match batch with
    | [] => Some (done, s)
    | e :: batch =>
        if Z.leb per done then Some (done, s)
        else
          let trial := default 0%Z (sim_counts s !! e) in
          score ← draw (sim_practiced s) trial;
          let at_time := exercise_timestamp start done in
          t ← score_exercise (sim_trane s) e score at_time;
          submit start per batch (done + 1) (Sim t (<[e := trial + 1]> (sim_counts s)) (sim_practiced s + 1) ((e, score, at_time) :: sim_log s))%Z
    end.
  (** Lines 282-305. *)
  Inductive session_end := Finished (done : Z) (s : sim) | NothingLeft (s : sim) | Broken | OutOfFuel.
  Fixpoint session (fuel : nat) (start per done : Z) (s : sim) : session_end :=
    match fuel with
    | 0 => OutOfFuel
    | S fuel =>
        if Z.ltb done per then
          match get_batch (sim_trane s) (exercise_timestamp start done) with
          | None => Broken
          | Some [] => NothingLeft s
          | Some batch =>
              match submit start per batch done s with
              | None => Broken
              | Some (done, s) => session fuel start per done s
              end
          end
        else Finished done s
    end.
  (** Lines 239-257. *)
  Definition check_mastery (t : T) (now : Z) (advanced : uid) (threshold : f32) (courses : list uid) : bool :=
    let reached c := match unit_score t now c with Some x => fge x threshold | None => false end in
    reached advanced && forallb reached courses.
  Record student_result := StudentResult { days_to_mastery : option Z; sessions_run : Z; exercises_practiced : Z }.
  Inductive simulated := Simulated (r : student_result) (s : sim) | SimulationFails | SimulationOutOfFuel.
  (** Lines 278-323, from session [k] on. *)
  Fixpoint sessions (advanced : uid) (threshold : f32) (courses : list uid)
    (remaining : nat) (anchor frequency per k : Z) (s : sim) : simulated :=
    match remaining with
    | 0 => Simulated (StudentResult None k (sim_practiced s)) s
    | S remaining =>
        let start := session_timestamp anchor k frequency in
        match session (S (Z.to_nat per)) start per 0 s with
        | NothingLeft s => Simulated (StudentResult None k (sim_practiced s)) s
        | Finished done s =>
            if check_mastery (sim_trane s) (exercise_timestamp start done) advanced threshold courses then Simulated (StudentResult (Some (k * frequency)%Z) (k + 1) (sim_practiced s)) s
            else sessions advanced threshold courses remaining anchor frequency per (k + 1) s
        | Broken => SimulationFails
        | OutOfFuel => SimulationOutOfFuel
        end
    end.
  Definition simulate (advanced : uid) (threshold : f32) (courses : list uid)
    (max_sessions : nat) (anchor frequency per : Z) (t : T) : simulated :=
    sessions advanced threshold courses max_sessions anchor frequency per 0 (Sim t ∅ 0 []).
End simulation.
