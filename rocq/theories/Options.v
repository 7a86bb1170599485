(** Model of mastery scores and scheduler options: src/data.rs and
    [Trane::create_scheduler_options] in src/lib.rs. Definitions only. *)
From stdpp Require Import base list strings.
From Verif Require Import F32.
Local Open Scope bool_scope.

(** [MasteryScore] (src/data.rs:24-56). *)
Inductive mastery_score := One | Two | Three | Four | Five.

(** [MasteryScore::float_score] (src/data.rs:59-69) and [TryFrom<MasteryScore> for f32]
    (src/data.rs:72-78), which never fails. *)
Definition float_score (s : mastery_score) : f32 :=
  match s with One => f_1 | Two => f_2 | Three => f_3 | Four => f_4 | Five => f_5 end.

(** [(f1 - f2).abs() < f32::EPSILON] (src/data.rs:84-94 and [float_equals], 965-967). *)
Definition float_equals (x y : f32) : bool := flt (fabs (fsub x y)) f_epsilon.

(** [TryFrom<f32> for MasteryScore] (src/data.rs:80-98). *)
Definition score_of_float (x : f32) : option mastery_score :=
  if float_equals x f_1 then Some One
  else if float_equals x f_2 then Some Two
  else if float_equals x f_3 then Some Three
  else if float_equals x f_4 then Some Four
  else if float_equals x f_5 then Some Five
  else None.

(** [PassingScoreOptions] (src/data.rs:825-844). *)
Record passing_options := PassingOptions {
  min_fraction : f32;
  min_score : f32;
  min_avg_trials : f32 }.

(** [1.8_f32]. *)
Definition f_1_8 : f32 := lit false 15099494 (-23) eq_refl.
(** [FULL_CANDIDATES_SCORE] (src/data.rs:823). *)
Definition full_candidates_score : f32 := f_4.

(** [PassingScoreOptions::default] (src/data.rs:847-853). *)
Definition default_passing : passing_options := PassingOptions f_0_5 f_3 f_1_8.

(** [PassingScoreOptions::verify] (src/data.rs:857-871); [true] is [Ok]. *)
Definition verify_passing (p : passing_options) : bool :=
  negb (flt (min_score p) fzero || fge (min_score p) full_candidates_score) &&
  negb (flt (min_fraction p) fzero || fgt (min_fraction p) f_1) &&
  negb (flt (min_avg_trials p) f_1).

(** [MasteryWindow] (src/data.rs:874-893). *)
Record window := Window { percentage : f32; range_lo : f32; range_hi : f32 }.

(** [MasteryWindow::in_window] (src/data.rs:896-907). *)
Definition in_window (w : window) (score : f32) : bool :=
  if fge (range_hi w) f_5 && fge score f_5 then true
  else fle (range_lo w) score && flt score (range_hi w).

(** [SchedulerOptions] (src/data.rs:911-960). *)
Record scheduler_options := SchedulerOptions {
  batch_size : nat;
  relearn_fraction : f32;
  new_window : window;
  target_window : window;
  current_window : window;
  easy_window : window;
  mastered_window : window;
  passing_score : passing_options;
  superseding_score : f32;
  num_trials : nat;
  num_deltas : nat;
  num_rewards : nat;
  max_lessons_in_progress : nat }.

(** The sum of the percentages, in the order of src/data.rs:983-989. *)
Definition percentage_sum (o : scheduler_options) : f32 :=
  fadd (fadd (fadd (fadd (percentage (mastered_window o)) (percentage (easy_window o)))
    (percentage (current_window o))) (percentage (target_window o))) (percentage (new_window o)).

(** [SchedulerOptions::verify] (src/data.rs:970-1029); [true] is [Ok]. *)
Definition verify_options (o : scheduler_options) : bool :=
  negb (Nat.eqb (batch_size o) 0) &&
  negb (flt (relearn_fraction o) fzero || fgt (relearn_fraction o) f_1) &&
  verify_passing (passing_score o) &&
  float_equals (percentage_sum o) f_1 &&
  float_equals (range_lo (new_window o)) fzero &&
  float_equals (range_hi (mastered_window o)) f_5 &&
  (float_equals (range_hi (new_window o)) (range_lo (target_window o)) &&
   float_equals (range_hi (target_window o)) (range_lo (current_window o)) &&
   float_equals (range_hi (current_window o)) (range_lo (easy_window o)) &&
   float_equals (range_hi (easy_window o)) (range_lo (mastered_window o))) &&
  negb (Nat.eqb (max_lessons_in_progress o) 0).

(** [SchedulerOptions::default] (src/data.rs:1033-1068). *)
Definition default_options : scheduler_options := {|
  batch_size := 50;
  relearn_fraction := f_0_1;
  new_window := Window f_0_2 fzero f_0_1;
  target_window := Window f_0_2 f_0_1 f_2_5;
  current_window := Window f_0_3 f_2_5 f_3_75;
  easy_window := Window f_0_2 f_3_75 f_4_5;
  mastered_window := Window f_0_1 f_4_5 f_5;
  passing_score := default_passing;
  superseding_score := f_4;
  num_trials := 20;
  num_deltas := 10;
  num_rewards := 10;
  max_lessons_in_progress := 10 |}.

(** A change of the batch size alone. *)
Definition set_batch_size (b : nat) (o : scheduler_options) : scheduler_options := {|
  batch_size := b;
  relearn_fraction := relearn_fraction o;
  new_window := new_window o;
  target_window := target_window o;
  current_window := current_window o;
  easy_window := easy_window o;
  mastered_window := mastered_window o;
  passing_score := passing_score o;
  superseding_score := superseding_score o;
  num_trials := num_trials o;
  num_deltas := num_deltas o;
  num_rewards := num_rewards o;
  max_lessons_in_progress := max_lessons_in_progress o |}.

(** [Trane::create_scheduler_options] (src/lib.rs:180-191): the argument is the
    batch size of the preferences, if there are any and they set it. The result is not
    verified. *)
Definition create_scheduler_options (preferred : option nat) : scheduler_options :=
  match preferred with
  | Some b => set_batch_size b default_options
  | None => default_options
  end.
