(** Model of src/exercise_scorer.rs, src/reward_scorer.rs and src/utils.rs: the score of an
    exercise from its history, the reward of a unit, and weighted averages.

    [f32::powf] is the argument [powf]: Rust leaves its precision unspecified. Constants that
    the code writes as literals are given by value; constants that the code computes
    ([1.0 - 0.16]) are computed. A trial or a delta is an [entry f32] of Stores.v, a reward is
    an [entry reward] with its value and its weight. *)
From stdpp Require Import list.
From Coq Require Import ZArith.
From Verif Require Import F32 Stores.

(** [i64::saturating_sub]. *)
Definition i64_min : Z := (-9223372036854775808)%Z.
Definition i64_max : Z := 9223372036854775807%Z.
Definition saturating_sub (a b : Z) : Z := Z.max i64_min (Z.min i64_max (a - b)).

(** src/data.rs [ExerciseType]. *)
Inductive exercise_type := Declarative | Procedural.

Notation trial := (entry f32) (only parsing).

(** src/data.rs [ExerciseScore]. *)
Record exercise_score_of := EScore { sc_value : f32; sc_urgency : f32; sc_velocity : option f32 }.

Section scorer.
  Variable powf : f32 → f32 → f32.

  (** src/exercise_scorer.rs:194-212 [estimate_difficulty]. *)
  Definition estimate_difficulty (trials : list trial) : f32 :=
    match trials with
    | [] => f_5
    | _ =>
        let failures := f_of_nat (length (List.filter (λ t, flt (e_val t) f_3) trials)) in
        let failure_rate := fdiv failures (f_of_nat (length trials)) in
        fclamp (fadd f_1 (fmul failure_rate f_9)) f_1 f_10
    end.

  (** src/exercise_scorer.rs:214-254 [compute_weighted_avg]: a weight of at least 0.1, the
      two sums of a loop, and the two averages blended. *)
  Definition decay_weight (x : f32) : f32 := fmax (powf f_0_95 x) f_0_1.
  Definition elapsed_weeks (newest ts : Z) : f32 :=
    fmax (fdiv (fdiv (f_of_Z (saturating_sub newest ts)) f_86400) f_7) fzero.
  Definition add_weighted (acc : f32 * f32) (wv : f32 * f32) : f32 * f32 :=
    (fadd acc.1 (fmul wv.1 wv.2), fadd acc.2 wv.1).
  Definition ratio (acc : f32 * f32) : f32 := fdiv acc.1 acc.2.
  Definition time_weighted (newest : Z) (es : list trial) : list (f32 * f32) :=
    (λ e, (decay_weight (elapsed_weeks newest (e_ts e)), e_val e)) <$> es.
  Definition position_weighted (es : list trial) : list (f32 * f32) :=
    imap (λ i e, (decay_weight (f_of_nat i), e_val e)) es.
  Definition compute_weighted_avg (es : list trial) : f32 :=
    match es with
    | [] => fzero
    | e :: _ =>
        let time_avg := ratio (fold_left add_weighted (time_weighted (e_ts e) es) (fzero, fzero)) in
        let pos_avg := ratio (fold_left add_weighted (position_weighted es) (fzero, fzero)) in
        fadd (fmul f_0_8 time_avg) (fmul f_0_2 pos_avg)
    end.

  (** src/exercise_scorer.rs:256-262 [get_curve_decay]. *)
  Definition curve_decay (ty : exercise_type) : f32 :=
    match ty with Declarative => fneg f_0_4 | Procedural => fneg f_0_2 end.
  (** src/exercise_scorer.rs:264-272 [get_curve_factor]. *)
  Definition curve_factor (ty : exercise_type) : f32 :=
    let decay_abs := fmax (fabs (curve_decay ty)) f_epsilon in
    fsub (powf f_0_9 (fdiv (fneg f_1) decay_abs)) f_1.
  (** src/exercise_scorer.rs:274-290 [compute_retrievability]. *)
  Definition retrievability (ty : exercise_type) (days stability : f32) : f32 :=
    fclamp (powf (fadd f_1 (fdiv (fmul (curve_factor ty) days) stability)) (curve_decay ty)) fzero f_1.

  (** src/exercise_scorer.rs:292-309 [compute_spacing_gain]. *)
  Definition spacing_gain (ty : exercise_type) (days stability performance : f32) : f32 :=
    if fle performance fzero then f_1
    else fclamp (fadd f_1 (fmul f_0_65 (fsub f_1 (retrievability ty days stability)))) f_1 (fadd f_1 f_0_65).

  (** src/exercise_scorer.rs:311-323 [update_difficulty]. [GRADE_RANGE] is 5.0 - 1.0. *)
  Definition grade_range : f32 := fsub f_5 f_1.
  Definition update_difficulty (difficulty base score : f32) : f32 :=
    let grade_delta := fmul (fdiv (fsub f_3 score) grade_range) f_1_05 in
    let adjusted := fclamp (fadd difficulty grade_delta) f_1 f_10 in
    fclamp (fadd (fmul f_0_16 base) (fmul (fsub f_1 f_0_16) adjusted)) f_1 f_10.

  (** src/exercise_scorer.rs:325-340 [apply_stability_transition]. *)
  Definition apply_stability (ty : exercise_type) (stability difficulty score days : f32) : f32 :=
    let p := fsub (fdiv (fsub score f_1) grade_range) f_0_5 in
    let e := fdiv (fsub f_11 difficulty) f_5 in
    let gain := spacing_gain ty days stability p in
    let damping := fmin days f_1 in
    let growth := fmul (fmul (fmul (fmul f_2_5 p) e) gain) damping in
    fclamp (fmul stability (fadd f_1 growth)) f_0_5 f_730.

  (** Days from one timestamp to a later one, as in src/exercise_scorer.rs:363-365, 473-474. *)
  Definition days_between (later earlier : Z) : f32 :=
    fmax (fdiv (f_of_Z (saturating_sub later earlier)) f_86400) fzero.

  (** src/exercise_scorer.rs:342-379 [compute_stability]: the state of the loop is the
      stability, the difficulty and the previous timestamp. *)
  Record memory := Memory { m_stability : f32; m_difficulty : f32; m_previous : option Z }.
  Definition replay_step (ty : exercise_type) (s : memory) (t : trial) : memory :=
    match m_previous s with
    | None => Memory (m_stability s) (m_difficulty s) (Some (e_ts t))
    | Some ts =>
        Memory (apply_stability ty (m_stability s) (m_difficulty s) (e_val t) (days_between (e_ts t) ts))
          (update_difficulty (m_difficulty s) f_5 (e_val t)) (Some (e_ts t))
    end.
  Definition replay (ty : exercise_type) (base : f32) (trials : list trial) : memory :=
    fold_left (replay_step ty) (rev trials) (Memory f_1 base None).
  Definition compute_stability (ty : exercise_type) (trials : list trial) (base : f32) : f32 :=
    m_stability (replay ty base trials).

  (** src/exercise_scorer.rs:381-398 [apply_old_good_retrievability_floor]. *)
  Definition old_good_floor (r weighted days : f32) (n : nat) : f32 :=
    if Nat.leb 2 n && fge weighted f_4 && fge days f_50 then fmax r f_0_75 else r.

  (** src/exercise_scorer.rs:400-411 [compute_delta]. *)
  Definition compute_delta (deltas : list trial) (r : f32) : f32 :=
    if Nat.ltb (length deltas) 2 then fzero
    else fdiv (fmul (compute_weighted_avg deltas) r) f_4.

  (** src/exercise_scorer.rs:413-440 [velocity]: the loop keeps four sums. *)
  Definition velocity_step (oldest : Z) (s : f32 * f32 * f32 * f32) (e : trial) : f32 * f32 * f32 * f32 :=
    let t := fdiv (f_of_Z (saturating_sub (e_ts e) oldest)) f_86400 in
    let '(st, ss, sts, stt) := s in
    (fadd st t, fadd ss (e_val e), fadd sts (fmul t (e_val e)), fadd stt (fmul t t)).
  Definition velocity (trials : list trial) : option f32 :=
    match trials with
    | [] | [_] => None
    | t0 :: _ =>
        let oldest := e_ts (List.last trials t0) in
        let n := f_of_nat (length trials) in
        let '(st, ss, sts, stt) :=
          fold_left (velocity_step oldest) trials (fzero, fzero, fzero, fzero) in
        let denominator := fsub (fmul n stt) (fmul st st) in
        if flt (fabs denominator) f_epsilon then Some fzero
        else Some (fdiv (fsub (fmul n sts) (fmul st ss)) denominator)
    end.

  (** [windows(2).any(|w| w[0].timestamp < w[1].timestamp)]. *)
  Fixpoint out_of_order (trials : list trial) : bool :=
    match trials with
    | a :: (b :: _) as rest => (e_ts a <? e_ts b)%Z || out_of_order rest
    | _ => false
    end.

  (** src/exercise_scorer.rs:444-498 [score]. [None] is the error. *)
  Definition score_exercise (ty : exercise_type) (trials deltas : list trial) (now : Z) : option exercise_score_of :=
    match trials with
    | [] => Some (EScore fzero f_1 None)
    | t0 :: _ =>
        if out_of_order trials then None
        else
          let base := estimate_difficulty trials in
          let stability := compute_stability ty trials base in
          let days := days_between now (e_ts t0) in
          let r := retrievability ty days stability in
          let weighted := compute_weighted_avg trials in
          let effective := old_good_floor r weighted days (length trials) in
          let adjusted := fmul effective weighted in
          let delta := compute_delta deltas effective in
          Some (EScore (fclamp (fadd adjusted delta) fzero f_5) (fsub f_1 r) (velocity trials))
    end.

  (** src/reward_scorer.rs:44-51 [days_since]. [valid_time] says which timestamps
      [Utc.timestamp_opt] accepts; the others become the epoch. The current time is in
      seconds: dropping its fraction changes no whole number of days that is kept. *)
  Variable valid_time : Z → bool.
  Definition days_since (now ts : Z) : f32 :=
    let ts := if valid_time ts then ts else 0%Z in
    f_of_Z (Z.max (Z.quot (now - ts) 86400) 0).
  (** src/reward_scorer.rs:53-56 [decay_factor]. *)
  Definition decay_factor (days : f32) : f32 := powf f_0_5 (fdiv days f_14).
  (** src/reward_scorer.rs:58-63 [decayed_reward]. *)
  Definition decayed_reward (now : Z) (r : entry reward) : f32 * f32 :=
    let decay := decay_factor (days_since now (e_ts r)) in
    (fmul (e_val r).1 decay, fmul (e_val r).2 decay).
  (** src/reward_scorer.rs:65-85 [weighted_average]. *)
  Definition add_reward (now : Z) (acc : f32 * f32) (r : entry reward) : f32 * f32 :=
    let '(v, w) := decayed_reward now r in
    if flt w f_0_05 then acc else (fadd acc.1 (fmul v w), fadd acc.2 w).
  Definition average_reward (now : Z) (rs : list (entry reward)) : f32 :=
    let '(num, den) := fold_left (add_reward now) rs (fzero, fzero) in
    if feq den fzero then fzero else fdiv num den.

  (** src/reward_scorer.rs:89-115 [score_rewards]. *)
  Definition score_rewards (now : Z) (course lesson : list (entry reward)) : f32 :=
    let course_score := average_reward now course in
    let lesson_score := average_reward now lesson in
    match course, lesson with
    | [], [] => fzero
    | [], _ => lesson_score
    | _, [] => course_score
    | _, _ => fdiv (fadd (fmul course_score f_0_3) (fmul lesson_score f_0_7)) (fadd f_0_3 f_0_7)
    end.
End scorer.

(** src/reward_scorer.rs:117-143 [apply_reward]. The subtraction of timestamps is not
    saturating: [None] is its overflow, a panic in a debug build. *)
Definition apply_reward (reward : f32) (trials : list trial) (now : Z) : option bool :=
  match trials with
  | last :: _ =>
      if Nat.leb (length trials) 2 then Some false
      else
        let elapsed := (now - e_ts last)%Z in
        if bool_decide (i64_min <= elapsed <= i64_max)%Z then
          let days := fdiv (f_of_Z elapsed) f_86400 in
          let average := fdiv (fsum (e_val <$> take 3 trials)) f_3 in
          if fgt reward fzero && flt average f_3 && flt days f_7 then Some false
          else if flt reward fzero && fgt average f_3_5 && flt days f_7 then Some false
          else Some true
        else None
  | [] => Some false
  end.

(** src/utils.rs:7-16 [weighted_average]. *)
Definition weighted_average (values weights : list f32) : f32 :=
  let cross := fsum (zip_with fmul values weights) in
  let sum := fsum weights in
  if feq sum fzero then fzero else fdiv cross sum.
