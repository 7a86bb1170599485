(** Model of the search for candidates: src/scheduler/data.rs and src/scheduler.rs:209-1033.

    What the unit scorer and the stores answer during one search is given by the caller, as are
    hash orders and shuffles. *)
From stdpp Require Import gmap strings list.
From Coq Require Import ZArith.
From Verif Require Import F32 Graph Library Filters Options Batch.
Local Open Scope bool_scope.

(** What one search sees ([SchedulerData], src/scheduler/data.rs:20-60, and the answers of
    [UnitScorer]). [None] as a result of [s_score], [s_urgency] and [s_velocity] is an error.
    [s_superseded u] is [is_superseded(u, get_superseding_recursive(u).unwrap_or_default())].
    Errors of the blacklist are not modelled. *)
Record senv := SEnv {
  s_lib : library;
  s_banned : gset uid;
  s_superseded : uid → bool;
  s_score : uid → option (option f32);
  s_urgency : uid → option f32;
  s_velocity : uid → option (option f32);
  s_trials : uid → option f32;
  s_freq : uid → nat;
  s_options : scheduler_options;
  s_review : list uid;
  s_saved : string → option unit_filter }.
Definition s_graph (env : senv) : graph := lib_graph (s_lib env).

(** An entry of the stack: unit and depth (src/scheduler.rs:108-115). *)
Definition sitem : Type := uid * nat.

(** Hash orders and shuffles; the first argument tells the calls apart. *)
Record orders := Orders {
  o_set : nat → gset uid → list uid;
  o_units : nat → list uid → list uid;
  o_stack : nat → list sitem → list sitem;
  o_pick : nat → list candidate → list candidate }.

Section queries.
  Context (env : senv).
  Let g := s_graph env.
  Let lib := s_lib env.

  Definition banned (u : uid) : bool := bool_decide (u ∈ s_banned env).
  (** [get_lesson_course(l).unwrap_or_default()]: the empty identifier if there is none. *)
  Definition lesson_course (l : uid) : uid := default "" (get_lesson_course g l).
  (** [get_all_dependents] (src/scheduler/data.rs:156-165). *)
  Definition all_dependents (u : uid) : gset uid := default ∅ (get_dependents g u).
  Definition all_dependencies (u : uid) : gset uid := default ∅ (get_dependencies g u).
  Definition starting_lessons (c : uid) : gset uid := default ∅ (get_starting_lessons g c).
  Definition course_lessons (c : uid) : gset uid := default ∅ (get_course_lessons g c).

  (** [inside_blacklisted] (src/scheduler/data.rs:137-151). *)
  Definition inside_blacklisted (e : uid) : bool :=
    let l := default "" (get_exercise_lesson g e) in
    banned e || (banned l || banned (lesson_course l)).

  (** [unit_exists] (src/scheduler/data.rs:225-239). *)
  Definition unit_exists (u : uid) : bool :=
    match get_unit_type g u with
    | None => false
    | Some Course => bool_decide (is_Some (course_map lib !! u))
    | Some Lesson => bool_decide (is_Some (lesson_map lib !! u))
    | Some Exercise => bool_decide (is_Some (exercise_map lib !! u))
    end.

  (** [unit_passes_filter] (src/scheduler/data.rs:268-305); [None] is an error. *)
  Definition unit_passes (f : option kv_filter) (u : uid) : option bool :=
    match f with
    | None => Some true
    | Some f =>
        match get_unit_type g u with
        | None | Some Exercise => None
        | Some Course => cm ← course_map lib !! u; Some (apply_to_course f (cm_metadata cm))
        | Some Lesson =>
            cm ← course_map lib !! lesson_course u;
            lm ← lesson_map lib !! u;
            Some (apply_to_lesson f (cm_metadata cm) (lm_metadata lm))
        end
    end.

  (** [all_valid_exercises_in_lesson] (src/scheduler/data.rs:342-361). *)
  Definition valid_exercises (ord : gset uid → list uid) (l : uid) : list uid :=
    if banned l || banned (lesson_course l) then []
    else List.filter (λ e, negb (banned e)) (ord (default ∅ (get_lesson_exercises g l))).

  (** [get_dependencies_at_depth] (src/scheduler/data.rs:176-213), up to the order of the
      result; [n] counts down from the depth. *)
  Fixpoint dependencies_at (n : nat) (u : uid) : list uid :=
    match n with
    | 0 => [u]
    | S n =>
        match get_dependencies g u with
        | None => [u]
        | Some s => if bool_decide (s = ∅) then [u] else mjoin (dependencies_at n <$> elements s)
        end
    end.
  Definition dependencies_at_depth (n : nat) (u : uid) : list uid :=
    List.filter (λ d, bool_decide (is_Some (get_unit_type g d))) (dependencies_at n u).

  (** ** Dependencies *)

  (** [last_matching_lessons_in_course] (src/scheduler.rs:394-426). *)
  Definition last_matching (f : option kv_filter) (c : uid) : gset uid :=
    let matching := filter (λ l, default false (unit_passes f l) = true) (course_lessons c) in
    filter (λ l, all_dependents l ∩ matching = ∅) matching.

  (** The units through which an effective dependency is sought (src/scheduler.rs:456-484 and
      500-516). *)
  Definition bridges (u : uid) : gset uid :=
    match get_unit_type g u with
    | Some Lesson =>
        let c := lesson_course u in
        all_dependencies u ∪ (if bool_decide (u ∈ starting_lessons c) then all_dependencies c else ∅)
    | Some Course => all_dependencies u
    | _ => ∅
    end.

  (** [resolve_effective_dependencies] (src/scheduler.rs:429-520), threading the visited set.
      [None]: out of fuel, which does not happen with [resolve_fuel]
      (lemma [resolve_enough]). *)
  Fixpoint resolve (ord : gset uid → list uid) (f : option kv_filter) (fuel : nat)
      (visited : gset uid) (u : uid) : option (gset uid * gset uid) :=
    match fuel with
    | 0 => None
    | S fuel =>
        if bool_decide (u ∈ visited) then Some (∅, visited)
        else
          let visited := {[u]} ∪ visited in
          if default false (unit_passes f u) then Some ({[u]}, visited)
          else
            let last := match get_unit_type g u with Some Course => last_matching f u | _ => ∅ end in
            if bool_decide (last ≠ ∅) then Some (last, visited)
            else
              fold_left (λ acc d,
                '(targets, visited) ← acc;
                '(more, visited) ← resolve ord f fuel visited d;
                Some (targets ∪ more, visited)) (ord (bridges u)) (Some (∅, visited))
    end.
  Definition resolve_fuel : nat := 2 + size (dom (type_map g)).

  (** [passes_threshold] (src/scheduler.rs:523-535). *)
  Definition passes_threshold (score trials : option f32) : bool :=
    let p := passing_score (s_options env) in
    match score, trials with
    | Some s, Some t => fge s (min_score p) && fge t (min_avg_trials p)
    | _, _ => true
    end.
  (** [satisfied_effective_dependency] (src/scheduler.rs:538-571). *)
  Definition satisfied_effective (u : uid) : bool :=
    banned u || (banned (lesson_course u) || (s_superseded env u ||
    passes_threshold (default None (s_score env u)) (s_trials env u))).
  (** [satisfied_dependency] (src/scheduler.rs:575-589). The answer for exhausted fuel is not
      used. *)
  Definition satisfied_dependency (ord : gset uid → list uid) (f : option kv_filter) (u : uid) : bool :=
    match resolve ord f resolve_fuel ∅ u with
    | Some (targets, _) => forallb satisfied_effective (elements targets)
    | None => false
    end.
  (** [all_satisfied_dependencies] (src/scheduler.rs:592-605). *)
  Definition all_satisfied (ord : gset uid → list uid) (f : option kv_filter) (u : uid) : bool :=
    forallb (satisfied_dependency ord f) (elements (all_dependencies u)).
  (** [get_valid_dependents] (src/scheduler.rs:609-619), in some order. *)
  Definition valid_dependents (ord : gset uid → list uid) (f : option kv_filter) (u : uid) : list uid :=
    List.filter (all_satisfied ord f) (elements (all_dependents u)).
  (** [get_course_valid_starting_lessons] (src/scheduler.rs:256-275), in some order. *)
  Definition valid_starting_lessons (ord : gset uid → list uid) (f : option kv_filter) (c : uid) : list uid :=
    List.filter (all_satisfied ord f) (elements (starting_lessons c)).

  (** ** Starting units *)

  (** The body of the loop in [get_all_starting_units] (src/scheduler.rs:224-232). *)
  Definition replace_missing (s : gset uid) : gset uid :=
    list_to_set (mjoin ((λ u, if unit_exists u then [u] else elements (all_dependents u)) <$> elements s)).
  (** src/scheduler.rs:223-237; [None]: out of fuel. *)
  Fixpoint starting_loop (fuel : nat) (s : gset uid) : option (gset uid) :=
    match fuel with
    | 0 => None
    | S fuel =>
        let s' := replace_missing s in
        if bool_decide (s' = s) then Some s else starting_loop fuel s'
    end.
  (** [get_all_starting_units] (src/scheduler.rs:219-252). *)
  Definition all_starting_units (fuel : nat) : option (gset uid) :=
    s ← starting_loop fuel (get_dependency_sinks g);
    Some (filter (λ u, forallb (λ d, negb (unit_exists d)) (elements (all_dependencies u)) = true) s).
  (** [get_initial_stack] (src/scheduler.rs:280-310). *)
  Definition initial_stack (o : orders) (f : option kv_filter) (fuel : nat) : option (list sitem) :=
    s ← all_starting_units fuel;
    Some (o_stack o 0 (mjoin ((λ c,
      match valid_starting_lessons (o_set o 0) f c with
      | [] => [(c, 0)]
      | ls => (λ l, (l, 0)) <$> ls
      end) <$> elements s))).

  (** ** Candidates of a lesson *)

  (** [select_candidates] (src/scheduler.rs:315-345), with [FULL_CANDIDATES_SCORE] = 4.0.
      Saturation of the cast is not an issue: the fraction is at most 1. *)
  Definition select_fraction (score : f32) : f32 :=
    let p := passing_score (s_options env) in
    let m := fclamp (min_fraction p) fzero f_1 in
    fclamp (fadd m (fmul (fdiv (fsub score (min_score p)) (fsub f_4 (min_score p))) (fsub f_1 m))) fzero f_1.
  Definition select_count (score : f32) (n : nat) : nat :=
    let c := select_fraction score in
    let k := default n (f_to_usize (fmul c (f_of_nat n))) in
    if fgt c fzero && Nat.eqb k 0 then 1 else k.
  Definition select_lesson_candidates (pick : list candidate → list candidate) (cs : list candidate) (score : f32) :
      list candidate :=
    match cs with
    | [] => []
    | _ =>
        if fge score f_4 || flt score (min_score (passing_score (s_options env))) then cs
        else take (select_count score (length cs)) (pick cs)
    end.

  (** [sum::<f32>() / len] (src/scheduler.rs:383-384). *)
  Definition average (xs : list f32) : f32 := fdiv (fsum xs) (f_of_nat (length xs)).

  (** src/scheduler.rs:360-378: one candidate. *)
  Definition lesson_candidate (l c : uid) (d : nat) (e : uid) : option candidate :=
    score ← s_score env e;
    u ← s_urgency env e;
    v ← s_velocity env e;
    Some (Candidate e l c (f_of_nat (d + 1)) (default fzero score) (s_freq env e) u v false fzero fzero).
  (** [get_candidates_from_lesson_helper] (src/scheduler.rs:349-389); [None] is an error. *)
  Definition lesson_candidates (o : orders) (i : nat) (it : sitem) : option (list candidate * f32) :=
    match valid_exercises (o_set o i) it.1 with
    | [] => Some ([], fzero)
    | es =>
        cs ← mapM (lesson_candidate it.1 (lesson_course it.1) it.2) es;
        let avg := average (exercise_score <$> cs) in
        Some (select_lesson_candidates (o_pick o i) cs avg, avg)
    end.
End queries.

(** ** The search *)

(** The variables of [get_candidates_from_graph_helper] (src/scheduler.rs:726-749). *)
Record sstate := SState {
  st_stack : list sitem;
  st_visited : gset uid;
  st_pending : gmap uid nat;
  st_found : list candidate;
  st_progress : gset uid }.

Section search.
  (** [courses] is [allow_course_traversal]; [allowed] are the allowed courses. *)
  Context (env : senv) (o : orders) (f : option kv_filter) (courses : bool) (allowed : list uid).
  Let g := s_graph env.

  (** [skip_course] (src/scheduler.rs:623-655), without its effect on the pending lessons. *)
  Definition skip_course (pending : nat) (c : uid) : bool :=
    banned env c || negb (default true (unit_passes env f c)) || Nat.eqb pending 0 || s_superseded env c.
  (** [skip_lesson] (src/scheduler.rs:659-691). *)
  Definition skip_lesson (l : uid) : bool :=
    banned env l || negb (default true (unit_passes env f l)) || s_superseded env l ||
    s_superseded env (lesson_course env l).
  (** [or_insert_with(|| get_num_lessons_in_course(c))]. *)
  Definition pending_of (pending : gmap uid nat) (c : uid) : nat :=
    default (size (course_lessons env c)) (pending !! c).

  (** [extend_candidates] (src/scheduler.rs:695-720). *)
  Definition extend_candidates (st : sstate) (cs : list candidate) (l : uid) (score : option f32) : sstate :=
    match cs with
    | [] => st
    | _ =>
        let in_progress := match score with
                           | Some s => fle s (range_hi (target_window (s_options env)))
                           | None => true
                           end in
        if in_progress && negb (bool_decide (l ∈ st_progress st)) then
          if Nat.leb (max_lessons_in_progress (s_options env)) (size (st_progress st)) then st
          else SState (st_stack st) (st_visited st) (st_pending st) (st_found st ++ cs) ({[l]} ∪ st_progress st)
        else SState (st_stack st) (st_visited st) (st_pending st) (st_found st ++ cs) (st_progress st)
    end.
  Definition set_dead_end (c : candidate) : candidate :=
    Candidate (exercise_id c) (lesson_id c) (course_id c) (depth c) (exercise_score c) (frequency c)
      (urgency c) (velocity c) true (encompasses_weight c) (encompassed_weight c).
  (** [shuffle_to_stack] (src/scheduler.rs:209-215); the head of the list is the top. *)
  Definition push_units (i : nat) (it : sitem) (us : list uid) (stack : list sitem) : list sitem :=
    ((λ u, (u, it.2 + 1)) <$> o_units o i us) ++ stack.

  (** What a step does: go on, stop (line 852) or fail. *)
  Inductive outcome := Next (st : sstate) | Stop (st : sstate) | Fail.

  (** A course (src/scheduler.rs:768-786). *)
  Definition course_step (i : nat) (it : sitem) (st : sstate) : outcome :=
    let stack := push_units (2 * i) it (valid_starting_lessons env (o_set o i) f it.1) (st_stack st) in
    let n := pending_of (st_pending st) it.1 in
    let pending := <[it.1 := n]> (st_pending st) in
    if skip_course n it.1 then
      Next (SState (push_units (2 * i + 1) it (valid_dependents env (o_set o i) f it.1) stack)
              ({[it.1]} ∪ st_visited st) pending (st_found st) (st_progress st))
    else Next (SState stack (st_visited st) pending (st_found st) (st_progress st)).

  (** The number of candidates that ends a search (src/scheduler.rs:735, 851). *)
  Definition max_candidates : nat := batch_size (s_options env) * 10.

  (** A lesson, after the pending lessons were updated (src/scheduler.rs:826-875). *)
  Definition lesson_visit (i : nat) (it : sitem) (st : sstate) : outcome :=
    let deps := valid_dependents env (o_set o i) f it.1 in
    let push st := SState (push_units (2 * i) it deps (st_stack st)) (st_visited st) (st_pending st)
                     (st_found st) (st_progress st) in
    if skip_lesson it.1 then Next (push st)
    else
      match lesson_candidates env o i it with
      | None => Fail
      | Some (cs, avg) =>
          let score := match cs with [] => None | _ => Some avg end in
          if passes_threshold env score (s_trials env it.1) then
            Next (push (extend_candidates st cs it.1 score))
          else
            let st := extend_candidates st (set_dead_end <$> cs) it.1 score in
            if Nat.leb max_candidates (length (st_found st)) then Stop st
            else Next (SState (o_stack o (S i) (st_stack st)) (st_visited st) (st_pending st) (st_found st) (st_progress st))
      end.

  (** A lesson (src/scheduler.rs:787-875). *)
  Definition lesson_step (i : nat) (it : sitem) (st : sstate) : outcome :=
    let st := SState (st_stack st) ({[it.1]} ∪ st_visited st) (st_pending st) (st_found st) (st_progress st) in
    if courses then
      match get_lesson_course g it.1 with
      | None => Fail
      | Some c =>
          let n := pred (pending_of (st_pending st) c) in
          lesson_visit i it
            (SState (if Nat.eqb n 0 then (c, it.2 + 1) :: st_stack st else st_stack st) (st_visited st)
               (<[c := n]> (st_pending st)) (st_found st) (st_progress st))
      end
    else if existsb (String.eqb (lesson_course env it.1)) allowed then lesson_visit i it st
    else Next st.

  (** The [i]-th iteration of the loop (src/scheduler.rs:751-876). *)
  Definition search_step (i : nat) (it : sitem) (st : sstate) : outcome :=
    if bool_decide (it.1 ∈ st_visited st) then Next st
    else
      match get_unit_type g it.1 with
      | Some Course => if courses then course_step i it st else Next st
      | Some Lesson => lesson_step i it st
      | _ => Next st
      end.

  Inductive sresult := Found (cs : list candidate) | Failed | NoFuel.
  (** The loop (src/scheduler.rs:751-878). *)
  Fixpoint search_loop (fuel i : nat) (st : sstate) : sresult :=
    match fuel with
    | 0 => NoFuel
    | S fuel =>
        match st_stack st with
        | [] => Found (st_found st)
        | it :: stack =>
            match search_step i it (SState stack (st_visited st) (st_pending st) (st_found st) (st_progress st)) with
            | Next st => search_loop fuel (S i) st
            | Stop st => Found (st_found st)
            | Fail => Failed
            end
        end
    end.
  (** [get_candidates_from_graph_helper] (src/scheduler.rs:726-880). *)
  Definition search (fuel : nat) (stack : list sitem) (visited : gset uid) : sresult :=
    search_loop fuel 0 (SState stack visited ∅ [] ∅).
End search.

(** ** Filters *)

Section candidates.
  (** [os i] are the orders of the [i]-th search of a request. *)
  Context (env : senv) (os : nat → orders) (fuel : nat).
  Let g := s_graph env.

  (** [get_candidates_from_graph] (src/scheduler.rs:883-890). *)
  Definition from_graph (stack : list sitem) (f : option kv_filter) : sresult :=
    search env (os 0) f true [] fuel stack ∅.
  (** [get_candidates_from_course] (src/scheduler.rs:893-909). *)
  Definition from_courses (i : nat) (cs : list uid) : sresult :=
    search env (os i) None false cs fuel
      (rev (mjoin ((λ c, (λ l, (l, 0)) <$> o_set (os i) 0 (starting_lessons env c)) <$> cs))) (list_to_set cs).
  (** [get_candidates_from_lesson] (src/scheduler.rs:912-918). *)
  Definition from_lesson (i : nat) (l : uid) : sresult :=
    match lesson_candidates env (os i) 0 (l, 0) with
    | Some (cs, _) => Found cs
    | None => Failed
    end.
  (** src/scheduler.rs:940-958: an exercise of the review list. *)
  Definition from_exercise (e : uid) : sresult :=
    let l := default "" (get_exercise_lesson g e) in
    match lesson_candidate env l (lesson_course env l) 0 e with
    | Some c => Found [Candidate (exercise_id c) (lesson_id c) (course_id c) fzero (exercise_score c)
                         (frequency c) (urgency c) (velocity c) false fzero fzero]
    | None => Failed
    end.
  (** Results of several searches in a row. *)
  Fixpoint collect (rs : list sresult) : sresult :=
    match rs with
    | [] => Found []
    | r :: rs =>
        match r, collect rs with
        | Found a, Found b => Found (a ++ b)
        | Found _, r => r
        | r, _ => r
        end
    end.
  (** The candidates of one entry of the review list (src/scheduler.rs:928-961). *)
  Definition from_entry (i : nat) (u : uid) : sresult :=
    match get_unit_type g u with
    | Some Course => from_courses i [u]
    | Some Lesson => from_lesson i u
    | Some Exercise => from_exercise u
    | None => Failed
    end.
  (** [get_candidates_from_review_list] (src/scheduler.rs:922-965). *)
  Definition from_review_list : sresult := collect (imap from_entry (s_review env)).
  (** A stack of units at depth 0; the last one is on top. *)
  Definition start_at (us : list uid) : list sitem := rev ((λ u, (u, 0)) <$> us).
  (** A search of the whole graph (src/scheduler.rs:974-977 and 992-995). *)
  Definition from_everything (f : option kv_filter) : sresult :=
    match initial_stack env (os 0) f fuel with
    | Some stack => from_graph stack f
    | None => NoFuel
    end.

  (** [get_initial_candidates] without study sessions (src/scheduler.rs:968-1021). The order of
      the dependencies at some depth depends on hash orders; any order is allowed. *)
  Definition unit_candidates (f : option unit_filter) : sresult :=
    match f with
    | None => from_everything None
    | Some (FCourses cs) => from_courses 0 cs
    | Some (FLessons ls) => collect (imap from_lesson ls)
    | Some (FMetadata kv) => from_everything (Some kv)
    | Some FReviewList => from_review_list
    | Some (FDependents us) => from_graph (start_at us) None
    | Some (FDependencies us depth) =>
        from_graph (o_stack (os 1) 0 (start_at (mjoin (dependencies_at_depth env depth <$> us)))) None
    end.

  (** [ExerciseFilter] (src/data/filter.rs:376-384). *)
  Inductive exercise_filter := EUnit (f : unit_filter) | ESession (s : session_data).
  (** [get_session_filter] (src/scheduler/data.rs:325-338); the outer [None] is an error or a
      panic. *)
  Definition session_filter (checks : bool) (s : session_data) (time : Z) : option (option unit_filter) :=
    p ← get_part checks s time;
    match p with
    | PNone _ => Some None
    | PUnit f _ => Some (Some f)
    | PSaved id _ => f ← s_saved env id; Some (Some f)
    end.
  (** [get_initial_candidates] (src/scheduler.rs:968-1033) at the given time. *)
  Definition initial_candidates (checks : bool) (time : Z) (f : option exercise_filter) : sresult :=
    match f with
    | None => unit_candidates None
    | Some (EUnit f) => unit_candidates (Some f)
    | Some (ESession s) =>
        match session_filter checks s time with
        | Some f => unit_candidates f
        | None => Failed
        end
    end.
End candidates.

(** ** Batches *)

(** A batch of manifests, an error, a panic, or fuel used up. *)
Inductive batch_result := BatchOf (es : list exercise_manifest) | BatchError | BatchPanic | BatchNoFuel.

(** [get_exercise_batch] (src/scheduler.rs:1049-1095) from the candidates on. The frequencies
    are given by [s_freq] and their increments are not modelled. *)
Definition finish_batch (env : senv) (m : libm) (r : choices) (e : edges) (o : option_copies) (rate : f32)
    (pile : gset uid) (found : sresult) : batch_result :=
  match found with
  | NoFuel => BatchNoFuel
  | Failed => BatchError
  | Found cs =>
      match finish_candidates m r e o rate (clean_pile (inside_blacklisted env) pile) cs with
      | None => BatchPanic
      | Some batch =>
          match mapM (λ c, exercise_map (s_lib env) !! exercise_id c) batch with
          | None => BatchError
          | Some es => BatchOf es
          end
      end
  end.

(** [get_exercise_batch] (src/scheduler.rs:1049-1095) at the given time. *)
Definition get_exercise_batch (env : senv) (os : nat → orders) (fuel : nat) (checks : bool) (time : Z)
    (m : libm) (r : choices) (e : edges) (o : option_copies) (rate : f32) (pile : gset uid)
    (f : option exercise_filter) : batch_result :=
  finish_batch env m r e o rate pile (initial_candidates env os fuel checks time f).
