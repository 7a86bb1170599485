(** Model of the scores of units: src/scheduler/unit_scorer.rs, and of the calls that change
    what they are computed from: src/scheduler.rs:1097-1158, src/lib.rs:371-387.

    The caches are a state that is passed along. Hash orders are given by [ord]: a set is listed
    in the same order as long as it is not changed. *)
From stdpp Require Import gmap strings list.
From Coq Require Import ZArith.
From Verif Require Import F32 Graph Library Filters Options Sql Stores Scorer Propagate.
Local Open Scope bool_scope.

(** What a call ends in: a value, an error, a panic, or recursion deeper than the fuel. *)
Inductive outcome (A : Type) := Val (a : A) | Fail | Panic | NoFuel.
Arguments Val {A}. Arguments Fail {A}. Arguments Panic {A}. Arguments NoFuel {A}.

(** src/scheduler/unit_scorer.rs:20-35. *)
Record cached_score := Cached { ca_score : f32; ca_urgency : f32; ca_velocity : option f32; ca_trials : nat }.
(** src/scheduler/unit_scorer.rs:40-53: the five caches. *)
Record caches := Caches {
  c_exercise : gmap uid cached_score;
  c_lesson : gmap uid (option f32);
  c_course : gmap uid (option f32);
  c_lesson_trials : gmap uid (option f32);
  c_course_trials : gmap uid (option f32) }.
Definition no_caches : caches := Caches ∅ ∅ ∅ ∅ ∅.

Definition set_exercise (f : gmap uid cached_score → gmap uid cached_score) (c : caches) : caches :=
  Caches (f (c_exercise c)) (c_lesson c) (c_course c) (c_lesson_trials c) (c_course_trials c).
Definition set_lesson (f : gmap uid (option f32) → gmap uid (option f32)) (c : caches) : caches :=
  Caches (c_exercise c) (f (c_lesson c)) (c_course c) (c_lesson_trials c) (c_course_trials c).
Definition set_course (f : gmap uid (option f32) → gmap uid (option f32)) (c : caches) : caches :=
  Caches (c_exercise c) (c_lesson c) (f (c_course c)) (c_lesson_trials c) (c_course_trials c).
Definition set_lesson_trials (f : gmap uid (option f32) → gmap uid (option f32)) (c : caches) : caches :=
  Caches (c_exercise c) (c_lesson c) (c_course c) (f (c_lesson_trials c)) (c_course_trials c).
Definition set_course_trials (f : gmap uid (option f32) → gmap uid (option f32)) (c : caches) : caches :=
  Caches (c_exercise c) (c_lesson c) (c_course c) (c_lesson_trials c) (f (c_course_trials c)).

(** Programs that read and write the caches. *)
Definition prog (A : Type) : Type := caches → outcome A * caches.
Definition done_with {A} (a : A) : prog A := λ c, (Val a, c).
Definition then_do {A B} (m : prog A) (k : A → prog B) : prog B := λ c,
  match m c with
  | (Val a, c) => k a c
  | (Fail, c) => (Fail, c)
  | (Panic, c) => (Panic, c)
  | (NoFuel, c) => (NoFuel, c)
  end.
Definition out_of_fuel {A} : prog A := λ c, (NoFuel, c).
(** Write to the caches and go on. *)
Definition write (f : caches → caches) : prog unit := λ c, (Val tt, f c).
(** [unwrap_or_default] on a result. *)
Definition or_default {A} (d : A) (m : prog A) : prog A := λ c,
  match m c with (Fail, c) => (Val d, c) | r => r end.
Fixpoint each {A B} (f : A → prog B) (l : list A) : prog (list B) :=
  match l with
  | [] => done_with []
  | x :: l => then_do (f x) (λ y, then_do (each f l) (λ ys, done_with (y :: ys)))
  end.

(** What the scores are computed from, apart from the caches. [w_exercise] is the computation of
    lines 190-236 and 243. *)
Record world := World {
  w_graph : graph;
  w_banned : gset uid;
  w_exercise : uid → outcome cached_score;
  w_superseding_score : f32;
  w_ord : gset uid → list uid }.

(** [sum::<f32>() / len as f32]. *)
Definition average (l : list f32) : f32 := fdiv (fsum l) (f_of_nat (length l)).

Section scorer.
  Context (w : world).
  Let g := w_graph w.
  Let ord := w_ord w.

  Definition w_bans (u : uid) : bool := bool_decide (u ∈ w_banned w).
  Definition w_exercises (l : uid) : list uid := ord (default ∅ (get_lesson_exercises g l)).
  (** src/scheduler/data.rs:342-361 [all_valid_exercises_in_lesson]. *)
  Definition valid_in_lesson (l : uid) : list uid :=
    if w_bans l then []
    else if w_bans (default "" (get_lesson_course g l)) then []
    else List.filter (λ e, negb (w_bans e)) (w_exercises l).
  (** src/scheduler/data.rs:363-399 [all_valid_exercises]. *)
  Definition valid_in_unit (u : uid) : list uid :=
    match get_unit_type g u with
    | None => []
    | Some Exercise => if w_bans u then [] else [u]
    | Some Lesson => valid_in_lesson u
    | Some Course =>
        if w_bans u then []
        else mjoin (valid_in_lesson <$> ord (default ∅ (get_course_lessons g u)))
    end.

  (** lines 179-247 [get_exercise_score]; the whole entry, of which callers take a part. *)
  Definition exercise_entry (e : uid) : prog cached_score := λ c,
    match c_exercise c !! e with
    | Some x => (Val x, c)
    | None =>
        match w_exercise w e with
        | Val x => (Val x, set_exercise <[e := x]> c)
        | Fail => (Fail, c)
        | Panic => (Panic, c)
        | NoFuel => (NoFuel, c)
        end
    end.
  Definition exercise_score (e : uid) : prog f32 := then_do (exercise_entry e) (λ x, done_with (ca_score x)).
  (** lines 250-271 [get_exercise_urgency], 298-318 [get_exercise_num_trials]. *)
  Definition exercise_urgency (e : uid) : prog f32 := then_do (exercise_entry e) (λ x, done_with (ca_urgency x)).
  Definition exercise_num_trials (e : uid) : prog nat := then_do (exercise_entry e) (λ x, done_with (ca_trials x)).
  (** lines 274-294 [get_exercise_velocity]: a missing velocity calls [get_exercise_score],
      which finds the entry. *)
  Definition exercise_velocity (e : uid) : prog (option f32) := then_do (exercise_entry e) (λ x, done_with (ca_velocity x)).

  (** lines 321-336 [all_valid_exercises_have_scores]. *)
  Definition positive (s : option f32) : bool := match s with Some s => fgt s fzero | None => false end.
  Definition all_have_scores (u : uid) : prog bool :=
    match valid_in_unit u with
    | [] => done_with true
    | l => then_do (each (λ e, or_default None (then_do (exercise_score e) (λ s, done_with (Some s)))) l)
             (λ scores, done_with (forallb positive scores))
    end.

  Section unit.
    (** [get_unit_score], for the recursive calls. *)
    Context (unit_score : uid → prog (option f32)).

    (** lines 340-359 [is_superseded]. *)
    Definition reaches (s : option f32) : bool := match s with Some s => fge s (w_superseding_score w) | None => true end.
    Definition is_superseded (u : uid) (by_ : gset uid) : prog bool :=
      if bool_decide (by_ = ∅) then done_with false
      else then_do (all_have_scores u) (λ b,
        if b then then_do (each (λ s, or_default None (unit_score s)) (ord by_)) (λ scores, done_with (forallb reaches scores))
        else done_with false).
    (** lines 363-381 [replace_superseding]. *)
    Fixpoint replace_superseding (fuel : nat) (by_ : gset uid) : prog (gset uid) :=
      match fuel with
      | 0 => out_of_fuel
      | S fuel =>
          then_do (each (λ s,
            match get_superseded_by g s with
            | Some more => then_do (is_superseded s more) (λ b, if b then replace_superseding fuel more else done_with {[s]})
            | None => done_with {[s]}
            end) (ord by_)) (λ sets, done_with (⋃ sets))
      end.
    (** [get_superseding_recursive] (lines 385-388) followed by [is_superseded], as in lines
        407-410, 471-474 and 600-605. *)
    Definition superseded (fuel : nat) (u : uid) : prog bool :=
      match get_superseded_by g u with
      | None => done_with false
      | Some by_ => then_do (replace_superseding fuel by_) (λ by_, is_superseded u by_)
      end.

    (** lines 391-453 [get_lesson_score]. *)
    Definition lesson_score (fuel : nat) (l : uid) : prog (option f32) := λ c,
      match c_lesson c !! l with
      | Some s => (Val s, c)
      | None =>
          let store (s : option f32) := then_do (write (set_lesson <[l := s]>)) (λ _, done_with s) in
          (if w_bans l then store None
           else then_do (superseded fuel l) (λ b,
             if b then store None
             else
               match get_lesson_exercises g l with
               | None => store None
               | Some es =>
                   match List.filter (λ e, negb (w_bans e)) (ord es) with
                   | [] => store None
                   | valid => then_do (each exercise_score valid) (λ scores, store (Some (average scores)))
                   end
               end)) c
      end.

    (** lines 456-522 [get_course_score]. A lesson whose score is an error is left out, and a
        course without lesson scores is not cached. *)
    Definition course_score (fuel : nat) (u : uid) : prog (option f32) := λ c,
      match c_course c !! u with
      | Some s => (Val s, c)
      | None =>
          let store (s : option f32) := then_do (write (set_course <[u := s]>)) (λ _, done_with s) in
          (if w_bans u then store None
           else then_do (superseded fuel u) (λ b,
             if b then store None
             else
               match get_course_lessons g u with
               | None => store None
               | Some ls =>
                   then_do (each (λ l, or_default None (lesson_score fuel l)) (ord ls)) (λ scores,
                     match omap id scores with
                     | [] => done_with None
                     | valid => store (Some (average valid))
                     end)
               end)) c
      end.
  End unit.

  (** lines 527-540 [get_unit_score]. *)
  Fixpoint unit_score (fuel : nat) (u : uid) : prog (option f32) :=
    match fuel with
    | 0 => out_of_fuel
    | S fuel =>
        match get_unit_type g u with
        | None => λ c, (Fail, c)
        | Some Course => course_score (unit_score fuel) fuel u
        | Some Lesson => lesson_score (unit_score fuel) fuel u
        | Some Exercise => then_do (exercise_score u) (λ s, done_with (Some s))
        end
    end.

  (** lines 543-580 [get_lesson_num_trials]. *)
  Definition lesson_trials (l : uid) : prog (option f32) := λ c,
    match c_lesson_trials c !! l with
    | Some s => (Val s, c)
    | None =>
        match get_lesson_exercises g l with
        | None => (Val None, c)
        | Some es =>
            then_do (each (λ e, or_default None (then_do (exercise_num_trials e) (λ n, done_with (Some n))))
                       (List.filter (λ e, negb (w_bans e)) (ord es))) (λ ns,
              let s := match omap id ns with
                       | [] => None
                       | valid => Some (fdiv (f_of_nat (sum_list valid)) (f_of_nat (length valid)))
                       end in
              then_do (write (set_lesson_trials <[l := s]>)) (λ _, done_with s)) c
        end
    end.
  (** lines 583-627 [get_course_num_trials]. *)
  Definition course_trials (fuel : nat) (u : uid) : prog (option f32) := λ c,
    match c_course_trials c !! u with
    | Some s => (Val s, c)
    | None =>
        then_do (each (λ l, then_do (superseded (unit_score fuel) fuel l) (λ b, done_with (l, negb (w_bans l) && negb b)))
                   (ord (default ∅ (get_course_lessons g u)))) (λ ls,
          then_do (each lesson_trials (fst <$> List.filter snd ls)) (λ ns,
            let s := match omap id ns with [] => None | valid => Some (average valid) end in
            then_do (write (set_course_trials <[u := s]>)) (λ _, done_with s))) c
    end.
  (** lines 631-638 [get_avg_trials]. *)
  Definition avg_trials (fuel : nat) (u : uid) : prog (option f32) :=
    match get_unit_type g u with
    | Some Course => course_trials fuel u
    | Some Lesson => lesson_trials u
    | _ => done_with None
    end.
End scorer.

(** ** Invalidation *)

(** lines 101-155 [invalidate_cached_score]. *)
Definition forget_exercises (es : gset uid) (c : caches) : caches := set_exercise (λ m, filter (λ p, p.1 ∉ es) m) c.
Definition forget_lessons (ls : gset uid) (c : caches) : caches :=
  set_lesson_trials (λ m, filter (λ p, p.1 ∉ ls) m) (set_lesson (λ m, filter (λ p, p.1 ∉ ls) m) c).
Definition forget_courses (cs : gset uid) (c : caches) : caches :=
  set_course_trials (λ m, filter (λ p, p.1 ∉ cs) m) (set_course (λ m, filter (λ p, p.1 ∉ cs) m) c).
Definition one (o : option uid) : gset uid := match o with Some u => {[u]} | None => ∅ end.
Definition invalidate (g : graph) (u : uid) (c : caches) : caches :=
  let c := forget_courses {[u]} (forget_lessons {[u]} (forget_exercises {[u]} c)) in
  match get_unit_type g u with
  | Some Exercise =>
      match get_exercise_lesson g u with
      | Some l => forget_courses (one (get_lesson_course g l)) (forget_lessons {[l]} c)
      | None => c
      end
  | Some Lesson =>
      forget_exercises (default ∅ (get_lesson_exercises g u)) (forget_courses (one (get_lesson_course g u)) c)
  | Some Course =>
      let ls := default ∅ (get_course_lessons g u) in
      forget_exercises (⋃ ((λ l, default ∅ (get_lesson_exercises g l)) <$> elements ls)) (forget_lessons ls c)
  | None => c
  end.
(** lines 158-176 [invalidate_cached_scores_with_prefix]. *)
Definition keep_other {A} (p : string) (m : gmap uid A) : gmap uid A := filter (λ x, String.prefix p x.1 = false) m.
Definition invalidate_prefix (p : string) (c : caches) : caches :=
  Caches (keep_other p (c_exercise c)) (keep_other p (c_lesson c)) (keep_other p (c_course c))
    (keep_other p (c_lesson_trials c)) (keep_other p (c_course_trials c)).
