(** Model of what a score changes: src/scheduler.rs:1097-1158 and src/lib.rs:371-387, over the
    stores and the cached scores of units. The relearn pile and the count of successes, which
    the same call updates, do not affect scores and are left out here. *)
From stdpp Require Import gmap strings list.
From Coq Require Import ZArith.
From Verif Require Import F32 Graph Library Options Sql Stores Scorer Propagate UnitScorer.
Local Open Scope bool_scope.

(** What does not change: the library, the options that the unit scorer was made with, the
    power function of the platform, the valid timestamps, and the orders in which sets are
    listed and ties between timestamps are read. *)
Record setting := Setting {
  g_lib : library;
  g_num_trials : nat;
  g_num_rewards : nat;
  g_superseding : f32;
  g_powf : f32 → f32 → f32;
  g_valid_time : Z → bool;
  g_ord : gset uid → list uid;
  g_listed : uid → list (uid * f32) → list (uid * f32);
  g_order : order f32;
  g_reward_order : order reward }.

(** The stores and the caches. *)
Record practice := Practice {
  p_trials : table f32;
  p_deltas : table f32;
  p_rewards : reward_store;
  p_banned : gset uid;
  p_caches : caches }.
Definition new_practice : practice := Practice empty_table empty_table empty_reward_store ∅ no_caches.
Definition with_caches (f : caches → caches) (p : practice) : practice :=
  Practice (p_trials p) (p_deltas p) (p_rewards p) (p_banned p) (f (p_caches p)).

Section practice.
  Context (s : setting).
  Let g := lib_graph (g_lib s).

  (** src/scheduler/unit_scorer.rs:190-236 and 239-244, at the time [now]. Errors of the stores
      become empty lists. The panic is the overflow in [apply_reward]. *)
  Definition exercise_type_of (e : uid) : exercise_type :=
    match exercise_map (g_lib s) !! e with
    | Some m => if em_procedural m then Procedural else Declarative
    | None => Procedural
    end.
  Definition compute_exercise (now : Z) (p : practice) (e : uid) : outcome cached_score :=
    let scores := default [] (get_entries (g_order s) (p_trials p) e (g_num_trials s)) in
    let deltas := default [] (get_entries (g_order s) (p_deltas p) e (g_num_trials s)) in
    match score_exercise (g_powf s) (exercise_type_of e) scores deltas now with
    | None => Fail
    | Some sc =>
        let l := default "" (get_exercise_lesson g e) in
        let c := default "" (get_lesson_course g l) in
        let rewards u := default [] (get_entries (g_reward_order s) (rs_table (p_rewards p)) u (g_num_rewards s)) in
        let reward := score_rewards (g_powf s) (g_valid_time s) now (rewards c) (rewards l) in
        match apply_reward reward scores now with
        | None => Panic
        | Some b =>
            Val (Cached (if b then fclamp (fadd (sc_value sc) reward) fzero f_5 else sc_value sc)
                   (sc_urgency sc) (sc_velocity sc) (length scores))
        end
    end.
  Definition world_of (now : Z) (p : practice) : world :=
    World g (p_banned p) (compute_exercise now p) (g_superseding s) (g_ord s).

  (** Run a program on the caches. *)
  Definition run {A} (m : prog A) (p : practice) : outcome A * practice :=
    let '(r, c) := m (p_caches p) in (r, with_caches (λ _, c) p).

  (** Which of the writes fail: of the delta, of the score, of the rewards. *)
  Record faults := Faults { f_delta : bool; f_score : bool; f_rewards : option nat }.
  Definition no_faults : faults := Faults false false None.

  (** src/scheduler.rs:1097-1158 [score_exercise]. The rewards, at most one for each unit, are
      recorded in some order. The result says whether the call succeeded;
      [None] is a panic or fuel that ran out. *)
  Definition score_call (fuel : nat) (now : Z) (f : faults) (e : uid) (sc : mastery_score) (ts : Z) (p : practice)
      : option (practice * bool) :=
    let w := world_of now p in
    match run (or_default None (unit_score w fuel e)) p with
    | (Val existing, p) =>
        match run (or_default 0 (exercise_num_trials w e)) p with
        | (Val n, p) =>
            let delta := fsub (float_score sc) (default fzero existing) in
            let '(deltas, ok) :=
              if Nat.ltb 0 n then record_entries bind_f32 (f_delta f) (p_deltas p) [Entry e delta ts]
              else (p_deltas p, true) in
            if ok then
              let p := Practice (p_trials p) deltas (p_rewards p) (p_banned p) (p_caches p) in
              let '(trials, ok) := record_entries bind_f32 (f_score f) (p_trials p) [Entry e (float_score sc) ts] in
              if ok then
                let p := Practice trials (p_deltas p) (p_rewards p) (p_banned p) (invalidate g e (p_caches p)) in
                match propagate_rewards g (g_listed s) fuel e sc ts with
                | None => None
                | Some rewards =>
                    let '(store, updated) :=
                      record_unit_rewards (g_reward_order s) (f_rewards f) (p_rewards p) (snd <$> map_to_list rewards) in
                    let p := Practice (p_trials p) (p_deltas p) store (p_banned p) (p_caches p) in
                    match updated with
                    | Some us => Some (with_caches (λ c, fold_left (λ c u, invalidate g u c) us c) p, true)
                    | None => Some (p, false)
                    end
                end
              else Some (p, false)
            else Some (p, false)
        | _ => None
        end
    | _ => None
    end.

  (** src/lib.rs:371-387; the blacklist is the set of its entries (see C16). [fails]: the write to
      the blacklist fails. *)
  Definition ban (fails : bool) (u : uid) (p : practice) : practice :=
    Practice (p_trials p) (p_deltas p) (p_rewards p) (if fails then p_banned p else {[u]} ∪ p_banned p) (invalidate g u (p_caches p)).
  Definition unban (fails : bool) (u : uid) (p : practice) : practice :=
    Practice (p_trials p) (p_deltas p) (p_rewards p) (if fails then p_banned p else p_banned p ∖ {[u]}) (invalidate g u (p_caches p)).
  Definition unban_prefix (pre : string) (p : practice) : practice :=
    Practice (p_trials p) (p_deltas p) (p_rewards p) (filter (λ u, like_prefix pre u = false) (p_banned p))
      (invalidate_prefix pre (p_caches p)).
  (** src/lib.rs:578-582 [remove_scores_with_prefix], with no effect on the caches. *)
  Definition remove_scores (pre : string) (p : practice) : practice :=
    Practice (remove_prefix None pre (p_trials p)) (p_deltas p) (p_rewards p) (p_banned p) (p_caches p).

  (** Calls: a score, changes of the blacklist, and questions about units: their score
      (src/scheduler/unit_scorer.rs:527-540), average number of trials (lines 631-638), and the
      urgency, velocity and number of trials of an exercise (lines 250-318). *)
  Inductive call :=
  | CScore (f : faults) (e : uid) (sc : mastery_score) (ts : Z)
  | CBan (fails : bool) (u : uid)
  | CUnban (fails : bool) (u : uid)
  | CUnbanPrefix (pre : string)
  | CRemoveScores (pre : string)
  | CAskScore (u : uid)
  | CAskTrials (u : uid)
  | CAskExercise (e : uid).
  Definition call_step (fuel : nat) (now : Z) (p : practice) (c : call) : option practice :=
    let w := world_of now p in
    match c with
    | CScore f e sc ts => fst <$> score_call fuel now f e sc ts p
    | CBan fails u => Some (ban fails u p)
    | CUnban fails u => Some (unban fails u p)
    | CUnbanPrefix pre => Some (unban_prefix pre p)
    | CRemoveScores pre => Some (remove_scores pre p)
    | CAskScore u => Some (snd (run (unit_score w fuel u) p))
    | CAskTrials u => Some (snd (run (avg_trials w fuel u) p))
    | CAskExercise e => Some (snd (run (exercise_entry w e) p))
    end.
  (** A history of calls, each with the time at which it is made; [None] if one of them panics
      or runs out of fuel. *)
  Fixpoint calls (fuel : nat) (p : practice) (cs : list (Z * call)) : option practice :=
    match cs with
    | [] => Some p
    | (now, c) :: cs => match call_step fuel now p c with Some p => calls fuel p cs | None => None end
    end.
End practice.
