(** What the theorems about scores and rewards are stated with. *)
From stdpp Require Import list.
From Coq Require Import ZArith Reals.
From Flocq Require Import Core.Core IEEE754.BinarySingleNaN.
From Verif Require Import F32 F32Real Stores Scorer.

(** [lo <= x <= hi] in the sense of the program's comparisons; NaN is between nothing. *)
Definition between (lo x hi : f32) : Prop := fle lo x = true ∧ fle x hi = true.

(** A trial is graded from 1 to 5; a delta is the difference of a grade and a score. *)
Definition graded (t : trial) : Prop := between f_1 (e_val t) f_5.
Definition small_delta (d : trial) : Prop := between (fneg f_5) (e_val d) f_5.
(** Every list in memory is shorter than this. *)
Definition fits {A} (l : list A) : Prop := (Z.of_nat (length l) < 18446744073709551616)%Z.

(** Newest first: no trial is older than one listed after it. *)
Definition newest_first (l : list trial) : Prop :=
  ∀ i j a b, l !! i = Some a → l !! j = Some b → i < j → (e_ts b <= e_ts a)%Z.

(** What is used of [powf]: a base in [0, 1] raised to something non-negative, and a base of
    at least 1 raised to something non-positive, give a number in [0, 1]; a base in [0.5, 1]
    raised to something in [-8, 0] gives a number in [1, 256]. The true power is in these
    ranges, and rounding it leaves it there. *)
Definition f_256 : f32 := lit false 8388608 (-15) eq_refl.
Definition f_m8 : f32 := lit true 8388608 (-20) eq_refl.
Record power_ok (powf : f32 → f32 → f32) : Prop := {
  power_small : ∀ x y, between fzero x f_1 → fle fzero y = true → between fzero (powf x y) f_1;
  power_negative : ∀ x y, fle f_1 x = true → fle y fzero = true → between fzero (powf x y) f_1;
  power_root : ∀ x y, between f_0_5 x f_1 → between f_m8 y fzero → between f_1 (powf x y) f_256
}.
(** A larger base raised to something non-positive gives no larger power. *)
Definition power_falls (powf : f32 → f32 → f32) : Prop :=
  ∀ x x' y, fle f_1 x = true → fle x x' = true → fle y fzero = true → fle (powf x' y) (powf x y) = true.

(** The stability and the difficulty are in their documented ranges. *)
Definition memory_ok (m : memory) : Prop :=
  between f_0_5 (m_stability m) f_730 ∧ between f_1 (m_difficulty m) f_10.

(** The newest trial is less than, at least, fifty days old. *)
Definition fifty_days : Z := 4320000.
Definition recent (trials : list trial) (now : Z) : Prop :=
  ∃ t, head trials = Some t ∧ (now - e_ts t < fifty_days)%Z.
Definition old (trials : list trial) (now : Z) : Prop :=
  ∃ t, head trials = Some t ∧ (fifty_days <= now - e_ts t)%Z.

(** Rewards that the program records: a value in [-1, 1] and a weight in [0, 1]. *)
Definition plain_reward (r : entry reward) : Prop :=
  between (fneg f_1) (e_val r).1 f_1 ∧ between fzero (e_val r).2 f_1.

(** The grades of the three newest trials. *)
Definition grade (n : Z) (t : trial) : Prop := (1 <= n <= 5)%Z ∧ e_val t = f_of_Z n.

(** [powf] rounds the true power of positive numbers correctly. *)
Definition rounded_power (powf : f32 → f32 → f32) : Prop :=
  ∀ x y : f32, fin x → fin y → (0 < val x)%R → (Rpower (val x) (val y) <= 65536)%R →
    fin (powf x y) ∧ val (powf x y) = rnd (Rpower (val x) (val y)).

(** The bounds of the values of an average: each is 0 or not tiny, and none is huge. *)
Definition plain_bounds (lo hi : f32) : Prop :=
  (fin lo ∧ fin hi ∧ val lo <= val hi <= 1048576 ∧
   (val lo = 0 ∨ / 1048576 <= val lo) ∧ (val hi = 0 ∨ / 1048576 <= val hi))%R.
(** A weight that is at most 1 and not tiny. *)
Definition plain_weight (w : f32) : Prop := (fin w ∧ / 1048576 <= val w <= 1)%R.
(** [x] is a number within [lo, hi], up to the relative error [e]. *)
Definition roughly_between (lo x hi : f32) (e : R) : Prop :=
  (fin x ∧ val lo * (1 - e) <= val x <= val hi * (1 + e))%R.
