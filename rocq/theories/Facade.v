(** Model of the calls of the [Trane] object that change the options of the scheduler and the
    encompassing graph: src/lib.rs and src/scheduler.rs. Definitions only. *)
From stdpp Require Import gmap strings list.
From Verif Require Import F32 Graph Library Options Batch Search.

(** * Options *)

(** [DepthFirstScheduler::new] (src/scheduler.rs:188-205): every part gets a copy of the options. *)
Definition new_copies (o : scheduler_options) : option_copies := OptionCopies o o o.
(** Calls that change the options. *)
Inductive options_call := SetOptions (o : scheduler_options) | ResetOptions.
(** [set_scheduler_options] and [reset_scheduler_options] (src/scheduler.rs:1183-1189), which
    src/lib.rs:471-477 forwards: only the data of the scheduler itself changes. *)
Definition options_step (s : option_copies) (c : options_call) : option_copies :=
  OptionCopies (oc_filter s) (oc_relearn s) match c with SetOptions o => o | ResetOptions => default_options end.
(** [get_scheduler_options] (src/scheduler.rs:1179-1181). *)
Definition get_scheduler_options (s : option_copies) : scheduler_options := oc_data s.
Definition options_after (o : scheduler_options) (cs : list options_call) : option_copies := fold_left options_step cs (new_copies o).

(** The search reads the options of the data of the scheduler (src/scheduler.rs:387, 570, 735, 841-873). *)
Definition with_options (o : scheduler_options) (env : senv) : senv :=
  SEnv (s_lib env) (s_banned env) (s_superseded env) (s_score env) (s_urgency env) (s_velocity env) (s_trials env)
    (s_freq env) o (s_review env) (s_saved env).
(** A request for a batch (src/scheduler.rs:1049-1095). *)
Definition request_batch (env : senv) (s : option_copies) (os : nat → orders) (fuel : nat) (checks : bool) (time : Z)
    (m : libm) (r : choices) (e : edges) (rate : f32) (pile : gset uid) (f : option exercise_filter) : batch_result :=
  get_exercise_batch (with_options (oc_data s) env) os fuel checks time m r e s rate pile f.

(** * The encompassing switch *)

(** [set_encompasing_equals_dependency] of the [Trane] object (src/lib.rs:662-664) calls the
    query of nearly the same name (src/graph.rs:565-567) and drops its answer. *)
Definition trane_set_encompasing_equals_dependency (g : graph) : graph :=
  let _ := encompasing_equals_dependency g in g.
