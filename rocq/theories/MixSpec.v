(** What the theorems about the mix of a batch are stated with. *)
From stdpp Require Import gmap strings list.
From Coq Require Import ZArith Reals.
From Verif Require Import F32 F32Real Graph Options OptionsSpec Batch BatchSpec.

(** ** The success of a session *)
(** [s] successes in [n] trials; a session without trials is a success. *)
Definition exact_rate (s n : nat) : R := (if Nat.eqb n 0 then 1 else INR s / INR n)%R.
(** What the harder windows gain and the easier ones lose. *)
Definition gain (rate : R) : R :=
  (if Rlt_dec (9 / 10) rate then 5 / 100
   else if Rle_dec (3 / 4) rate then 0
   else if Rle_dec (1 / 2) rate then - (5 / 100)
   else - (10 / 100))%R.

(** ** Shares of the windows *)
Definition share (w : window) : R := val (percentage w).
(** A share that is a number between 0 and 1. *)
Definition proper_share (w : window) : Prop := fin (percentage w) ∧ (0 <= share w <= 1)%R.
Definition kept_between (lo hi x : R) : R := Rmin (Rmax x lo) hi.
(** The shares for a success rate, from the lowest scores to the highest. *)
Definition documented_shares (o : scheduler_options) (rate : R) : list R :=
  let g := gain rate in
  let moved p := kept_between (5 / 100) (50 / 100) p in
  let n := moved (share (new_window o) + g)%R in
  let t := moved (share (target_window o) + g)%R in
  let e := moved (share (easy_window o) - g)%R in
  let a := moved (share (mastered_window o) - g)%R in
  if Req_EM_T g 0 then share <$> windows o
  else [n; t; Rmax (1 - (n + t + e + a)) (5 / 100); e; a]%R.
Definition whole (l : list R) : R := foldr Rplus 0%R l.
(** The gain leaves every share between 5 and 50 hundredths, so that none has to be cut off. *)
Definition uncut (o : scheduler_options) (g : R) : Prop :=
  Forall (λ x, 5 / 100 <= x <= 50 / 100)%R
    [share (new_window o) + g; share (target_window o) + g; share (easy_window o) - g; share (mastered_window o) - g]%R ∧
  (5 / 100 <= share (current_window o))%R.
(** The share of a window is between 5 and 50 hundredths. *)
Definition middling (w : window) : Prop := fle f_0_05 (percentage w) = true ∧ fle (percentage w) f_0_5 = true.

(** The shares of the default windows in twentieths, by the success of the session. *)
Definition default_twentieths (s n : nat) : list nat :=
  if decide (n = 0 ∨ 9 * n < 10 * s) then [5; 5; 6; 3; 1]
  else if decide (3 * n ≤ 4 * s) then [4; 4; 6; 4; 2]
  else if decide (n ≤ 2 * s) then [3; 3; 6; 5; 3]
  else [2; 2; 6; 6; 4].

(** ** The exercises of a batch *)
Inductive kind := KNew | KTarget | KCurrent | KEasy | KMastered.
Global Instance kind_eq_dec : EqDecision kind.
Proof. solve_decision. Defined.
Definition window_of (o : scheduler_options) (kd : kind) : window :=
  match kd with
  | KNew => new_window o | KTarget => target_window o | KCurrent => current_window o
  | KEasy => easy_window o | KMastered => mastered_window o
  end.
(** The exercises of each kind: by their scores, but what the others review well counts as
    mastered. *)
Definition available (o : scheduler_options) (k : knockout) (kd : kind) : list uid :=
  (exercise_id <$> filter (λ c, in_window (window_of o kd) (exercise_score c) = true ∧ exercise_id c ∉ exercise_id <$> ko_highly k)
     (ko_candidates k)) ++
  (if decide (kd = KMastered) then exercise_id <$> ko_highly k else []).
(** How many of them are in the batch. *)
Definition taken (batch : list candidate) (ids : list uid) : nat :=
  length (filter (λ x, x ∈ exercise_id <$> batch) ids).
(** The size that is aimed at: a third of the candidates, but at least 10, if they are fewer than
    three times a batch size of 10 or more. *)
Definition goal (b n : nat) : nat := if decide (b < 10 ∨ 3 * b ≤ n) then b else Nat.max 10 (n / 3).
(** The most that is added to the share of a kind to fill the batch. *)
Definition most_added (b : nat) (kd : kind) : option nat :=
  match kd with
  | KNew => Some (5 * Nat.max 1 (b / 10))
  | KTarget => Some (3 * Nat.max 1 (b / 10))
  | KCurrent | KEasy | KMastered => None
  end.
(** The order in which the batch is filled. *)
Definition turn (kd : kind) : nat :=
  match kd with KCurrent => 0 | KNew => 1 | KTarget => 2 | KEasy => 3 | KMastered => 4 end.
(** Of [n] exercises, what a quota allows. *)
Definition allowed (quota : option nat) (n : nat) : nat :=
  match quota with Some q => Nat.min q n | None => n end.
(** [got] of the exercises are in the batch: all of them, or the quota and the most that is added. *)
Definition used_up (b : nat) (kd : kind) (quota : option nat) (all got : nat) : Prop :=
  got = all ∨ ∃ q x, quota = Some q ∧ most_added b kd = Some x ∧ q + x ≤ got.
