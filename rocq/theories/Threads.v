(** Model of scores given and asked by several threads at once: the steps of
    src/scheduler.rs:1097-1158 [score_exercise] and src/scheduler/unit_scorer.rs:179-247
    [get_exercise_score] between which other threads may run. A step is what happens while the
    lock of one store is held, or one access to the caches. What the steps compute is that of
    Practice.v. *)
From stdpp Require Import gmap strings list.
From Coq Require Import ZArith.
From Verif Require Import F32 Graph Library Options Sql Stores Scorer Propagate UnitScorer Practice.
Local Open Scope bool_scope.

(** What threads share: the stores and the caches, and how many threads hold the lock of the
    rewards for reading (src/scheduler/unit_scorer.rs:217, held until the end of the function). *)
Record shared := Shared { s_practice : practice; s_readers : nat }.
(** What a thread does: one step after the other, each of which may have to wait ([None]). *)
Inductive act (A : Type) := Ret (a : A) | Act (f : shared → option (shared * act A)).
Arguments Ret {A}. Arguments Act {A}.
Fixpoint and_then {A B} (m : act A) (k : A → act B) : act B :=
  match m with
  | Ret a => k a
  | Act f => Act (λ s, match f s with Some (s, m) => Some (s, and_then m k) | None => None end)
  end.

(** A step that reads, one that changes, and those with the lock of the rewards. *)
Definition look {A} (f : practice → A) : act A := Act (λ s, Some (s, Ret (f (s_practice s)))).
Definition change {A} (f : practice → practice * A) : act A :=
  Act (λ s, let '(p, a) := f (s_practice s) in Some (Shared p (s_readers s), Ret a)).
Definition lock_rewards {A} (f : practice → A) : act A :=
  Act (λ s, Some (Shared (s_practice s) (S (s_readers s)), Ret (f (s_practice s)))).
Definition unlock_rewards (f : practice → practice) : act unit :=
  Act (λ s, Some (Shared (f (s_practice s)) (pred (s_readers s)), Ret tt)).
Definition change_rewards {A} (f : practice → practice * A) : act A :=
  Act (λ s, if Nat.eqb (s_readers s) 0 then let '(p, a) := f (s_practice s) in Some (Shared p 0, Ret a) else None).

Section steps.
  Context (s : setting).
  Let g := lib_graph (g_lib s).

  (** src/scheduler/unit_scorer.rs:179-247 [get_exercise_score] at the time [now], in five steps:
      look into the cache, read the trials, read the deltas, read the rewards, write the cache. *)
  Definition entry_steps (now : Z) (e : uid) : act (outcome cached_score) :=
    and_then (look (λ p, c_exercise (p_caches p) !! e)) (λ hit,
    match hit with
    | Some x => Ret (Val x)
    | None =>
        and_then (look (λ p, default [] (get_entries (g_order s) (p_trials p) e (g_num_trials s)))) (λ scores,
        and_then (look (λ p, default [] (get_entries (g_order s) (p_deltas p) e (g_num_trials s)))) (λ deltas,
        match score_exercise (g_powf s) (exercise_type_of s e) scores deltas now with
        | None => Ret Fail
        | Some sc =>
            let l := default "" (get_exercise_lesson g e) in
            let c := default "" (get_lesson_course g l) in
            let rewards u p := default [] (get_entries (g_reward_order s) (rs_table (p_rewards p)) u (g_num_rewards s)) in
            and_then (lock_rewards (λ p, score_rewards (g_powf s) (g_valid_time s) now (rewards c p) (rewards l p))) (λ reward,
            match apply_reward reward scores now with
            | None => and_then (unlock_rewards (λ p, p)) (λ _, Ret Panic)
            | Some b =>
                let x := Cached (if b then fclamp (fadd (sc_value sc) reward) fzero f_5 else sc_value sc)
                           (sc_urgency sc) (sc_velocity sc) (length scores) in
                and_then (unlock_rewards (with_caches (set_exercise <[e := x]>))) (λ _, Ret (Val x))
            end)
        end))
    end).
  (** src/scheduler/unit_scorer.rs:298-318 [get_exercise_num_trials]: after the computation the
      cache is read again. *)
  Definition trials_steps (now : Z) (e : uid) : act (outcome nat) :=
    and_then (look (λ p, c_exercise (p_caches p) !! e)) (λ hit,
    match hit with
    | Some x => Ret (Val (ca_trials x))
    | None =>
        and_then (entry_steps now e) (λ r,
        match r with
        | Val _ => and_then (look (λ p, c_exercise (p_caches p) !! e)) (λ hit,
                     Ret (Val (default 0 (ca_trials <$> hit))))
        | Fail => Ret Fail | Panic => Ret Panic | NoFuel => Ret NoFuel
        end)
    end).
  (** src/scheduler/unit_scorer.rs:527-540 [get_unit_score]. For lessons, courses and unknown
      units, which [score_exercise] is not meant for, the computation is one step (simplified). *)
  Definition score_steps (fuel : nat) (now : Z) (u : uid) : act (outcome (option f32)) :=
    match get_unit_type g u with
    | Some Exercise =>
        and_then (entry_steps now u) (λ r, Ret
          match r with Val x => Val (Some (ca_score x)) | Fail => Fail | Panic => Panic | NoFuel => NoFuel end)
    | _ => change (λ p, let '(r, p) := run (unit_score (world_of s now p) fuel u) p in (p, r))
    end.

  (** What a call returns: the answer about an exercise, whether a score was accepted, or a panic
      (or fuel that ran out). *)
  Inductive result := Answer (r : outcome cached_score) | Accepted (ok : bool) | Broken.

  (** src/scheduler.rs:1154-1157: each update of the caches is one step (simplified: the five
      caches are changed one after the other). *)
  Fixpoint invalidate_steps (us : list uid) : act unit :=
    match us with
    | [] => Ret tt
    | u :: us => and_then (change (λ p, (with_caches (invalidate g u) p, tt))) (λ _, invalidate_steps us)
    end.
  (** src/scheduler.rs:1115-1158, the second part of [score_exercise], given the score before and
      the number of trials. *)
  Definition record_steps (fuel : nat) (f : faults) (e : uid) (sc : mastery_score) (ts : Z) (existing : option f32) (n : nat) : act result :=
    let delta := fsub (float_score sc) (default fzero existing) in
    and_then
      (if Nat.ltb 0 n then
         change (λ p, let '(t, ok) := record_entries bind_f32 (f_delta f) (p_deltas p) [Entry e delta ts] in
                      (Practice (p_trials p) t (p_rewards p) (p_banned p) (p_caches p), ok))
       else Ret true)
      (λ ok, if ok then
         and_then
           (change (λ p, let '(t, ok) := record_entries bind_f32 (f_score f) (p_trials p) [Entry e (float_score sc) ts] in
                         (Practice t (p_deltas p) (p_rewards p) (p_banned p) (p_caches p), ok)))
           (λ ok, if ok then
              and_then (invalidate_steps [e]) (λ _,
              match propagate_rewards g (g_listed s) fuel e sc ts with
              | None => Ret Broken
              | Some rewards =>
                  and_then
                    (change_rewards (λ p,
                      let '(store, updated) :=
                        record_unit_rewards (g_reward_order s) (f_rewards f) (p_rewards p) (snd <$> map_to_list rewards) in
                      (Practice (p_trials p) (p_deltas p) store (p_banned p) (p_caches p), updated)))
                    (λ updated,
                      match updated with
                      | Some us => and_then (invalidate_steps us) (λ _, Ret (Accepted true))
                      | None => Ret (Accepted false)
                      end)
              end)
            else Ret (Accepted false))
       else Ret (Accepted false)).
  (** src/scheduler.rs:1097-1158 [score_exercise]. *)
  Definition give_steps (fuel : nat) (now : Z) (f : faults) (e : uid) (sc : mastery_score) (ts : Z) : act result :=
    let with_trials existing :=
      and_then (trials_steps now e) (λ r,
        match r with
        | Val n => record_steps fuel f e sc ts existing n
        | Fail => record_steps fuel f e sc ts existing 0
        | _ => Ret Broken
        end) in
    and_then (score_steps fuel now e) (λ r,
      match r with Val existing => with_trials existing | Fail => with_trials None | _ => Ret Broken end).

  (** A call of a thread: a question about an exercise or a score. *)
  Inductive request := Ask (now : Z) (e : uid) | Give (now : Z) (f : faults) (e : uid) (sc : mastery_score) (ts : Z).
  Definition request_steps (fuel : nat) (r : request) : act result :=
    match r with
    | Ask now e => and_then (entry_steps now e) (λ r, Ret (Answer r))
    | Give now f e sc ts => give_steps fuel now f e sc ts
    end.
End steps.
