(** Model of how the methods of a library use its locks and the caches of the scores: for every
    method of [Trane] (src/lib.rs, lines 369-742) the guards it takes, in which order and what it
    does while it holds them. Definitions only.

    Only guards are kept of the code. A test of the data is a choice ([Either]), a loop over the
    data any number of rounds ([Repeat]), and a recursion is followed to a depth given as an
    argument; nothing is said about what is read or written. A call may stop after any of its steps:
    this is an early return, an error passed on with [?] or a panic, and the guards are given back
    on the way out ([Drop]). *)
From stdpp Require Import list.

(** * What is taken *)

(** The locks behind an open library: the fields of [Trane] (src/lib.rs, lines 137-177), those of
    the data of the scheduler (src/scheduler/data.rs, lines 26-61), the pile of exercises to learn
    again (src/scheduler/relearn_pile.rs, lines 14-21), the cache of the blacklist
    (src/blacklist.rs, lines 38-44) and the connections to the databases, each behind a mutex
    (src/blacklist.rs, practice_stats.rs, practice_deltas.rs, practice_rewards.rs and
    review_list.rs), called bases here. A mutex is a lock only taken exclusively. *)
Inductive lock :=
| Graph | Library | Filters | Preferences | Sessions
| Blacklist | BlacklistCache | BlacklistBase
| Stats | StatsBase | Deltas | DeltasBase | Rewards | RewardsBase
| ReviewList | ReviewListBase
| Frequencies | Counts | Pile.
(** The caches of scores, cells that a thread borrows without a lock,
    src/scheduler/unit_scorer.rs, lines 39-53. *)
Inductive cell := ExerciseScores | LessonScores | CourseScores | LessonTrials | CourseTrials.
Inductive resource := Lock (l : lock) | Cell (x : cell).
(** [read()] and [borrow()], or [write()], [lock()] and [borrow_mut()]. *)
Inductive mode := Shared | Exclusive.
Global Instance lock_eq_dec : EqDecision lock.
Proof. solve_decision. Defined.
Global Instance cell_eq_dec : EqDecision cell.
Proof. solve_decision. Defined.
Global Instance resource_eq_dec : EqDecision resource.
Proof. solve_decision. Defined.
Global Instance mode_eq_dec : EqDecision mode.
Proof. solve_decision. Defined.

(** * The shape of a method *)

Inductive code :=
| Done
| With (r : resource) (m : mode) (c : code)
| Then (c d : code)
| Either (c d : code)
| Repeat (c : code).
Definition steps (cs : list code) : code := foldr Then Done cs.
Definition maybe (c : code) : code := Either Done c.
Definition read (l : lock) (c : code) : code := With (Lock l) Shared c.
Definition write (l : lock) (c : code) : code := With (Lock l) Exclusive c.
Definition look (x : cell) : code := With (Cell x) Shared Done.
Definition put (x : cell) : code := With (Cell x) Exclusive Done.
(** One question to the graph or to the library. *)
Definition graph : code := read Graph Done.
Definition library : code := read Library Done.

(** * The stores *)

(** src/blacklist.rs, lines 92-101 and 191-193. *)
Definition has_entry : code := steps [read BlacklistCache Done; write BlacklistCache Done].
(** src/blacklist.rs, lines 104-119, 122-131, 134-155 and 158-171. *)
Definition blacklist_add : code := steps [has_entry; write BlacklistBase (write BlacklistCache Done)].
Definition blacklist_remove : code := write BlacklistBase (write BlacklistCache Done).
Definition blacklist_entries : code := write BlacklistBase Done.
(** src/practice_stats.rs, practice_deltas.rs, practice_rewards.rs and review_list.rs: every method
    takes the connection once and holds it to its end. *)
Definition scores : code := read Stats (write StatsBase Done).
Definition deltas : code := read Deltas (write DeltasBase Done).
Definition rewards : code := read Rewards (write RewardsBase Done).
Definition review_entries : code := read ReviewList (write ReviewListBase Done).
Definition change_scores : code := write Stats (write StatsBase Done).
Definition change_deltas : code := write Deltas (write DeltasBase Done).
Definition change_rewards : code := write Rewards (write RewardsBase Done).
Definition change_review_list : code := write ReviewList (write ReviewListBase Done).

(** * The data of the scheduler, src/scheduler/data.rs *)

(** Lines 131-134. *)
Definition blacklisted : code := read Blacklist has_entry.
(** Lines 137-151. *)
Definition inside_blacklisted : code :=
  read Blacklist (steps [has_entry; graph; has_entry; graph; has_entry]).
(** Lines 225-239. *)
Definition unit_exists : code := steps [graph; library].
(** Lines 268-305. *)
Definition passes_filter : code := maybe (steps [graph; Either library (steps [graph; library; library])]).
(** Lines 342-361. *)
Definition valid_in_lesson : code :=
  read Blacklist (steps [has_entry; graph; has_entry; graph; Repeat has_entry]).
(** Lines 365-399. *)
Definition all_valid : code :=
  steps [graph; read Blacklist (maybe (Either has_entry
    (Either valid_in_lesson (steps [has_entry; graph; Repeat valid_in_lesson]))))].

(** * The scores of units, src/scheduler/unit_scorer.rs *)

(** Lines 101-155. *)
Definition invalidate : code :=
  steps [put ExerciseScores; put LessonScores; put CourseScores; put LessonTrials; put CourseTrials;
    read Graph (With (Cell ExerciseScores) Exclusive (maybe (Either
      (steps [put LessonScores; put LessonTrials; put CourseScores; put CourseTrials])
      (Either
        (steps [put CourseScores; put CourseTrials])
        (With (Cell LessonScores) Exclusive (With (Cell LessonTrials) Exclusive Done))))))].
(** Lines 158-176. *)
Definition invalidate_prefix : code :=
  steps [put ExerciseScores; put LessonScores; put CourseScores; put LessonTrials; put CourseTrials].
(** Lines 179-247. *)
Definition exercise_score : code :=
  steps [look ExerciseScores; library; scores; deltas;
    read Graph (read Rewards (steps [write RewardsBase Done; write RewardsBase Done; put ExerciseScores]))].
(** Lines 250-271, 274-294 and 298-318: the urgency, the velocity and the number of trials. *)
Definition exercise_value : code := steps [look ExerciseScores; exercise_score; look ExerciseScores].
(** Lines 321-336. *)
Definition have_scores : code := steps [all_valid; Repeat exercise_score].
(** Lines 340-359, where [score] is the score of a superseding unit. *)
Definition is_superseded (score : code) : code := maybe (steps [have_scores; Repeat score]).
(** Lines 363-381, to the depth [n]. *)
Fixpoint replace_superseding (score : code) (n : nat) : code :=
  match n with
  | O => Done
  | S n => Repeat (steps [graph; maybe (is_superseded score); maybe (replace_superseding score n)])
  end.
(** Lines 385-388. *)
Definition superseding (score : code) (n : nat) : code :=
  steps [graph; maybe (replace_superseding score n)].
(** Lines 391-453. *)
Definition lesson_score (score : code) (n : nat) : code :=
  steps [look LessonScores;
    read Blacklist (steps [has_entry;
      Either (put LessonScores) (steps [superseding score n; maybe (is_superseded score);
        Either (put LessonScores)
          (steps [graph; Repeat has_entry; Repeat exercise_score; put LessonScores])])])].
(** Lines 456-522. *)
Definition course_score (score : code) (n : nat) : code :=
  steps [look CourseScores; blacklisted;
    Either (put CourseScores) (steps [superseding score n; maybe (is_superseded score);
      Either (put CourseScores)
        (steps [graph; Repeat (lesson_score score n); put CourseScores])])].
(** Lines 527-540, to the depth [n]. *)
Fixpoint unit_score (n : nat) : code :=
  match n with
  | O => Done
  | S n => steps [graph; Either (course_score (unit_score n) n)
                          (Either (lesson_score (unit_score n) n) exercise_score)]
  end.
(** Lines 543-580. *)
Definition lesson_trials : code :=
  steps [look LessonTrials;
    read Blacklist (steps [read Graph (Repeat has_entry); Repeat exercise_value; put LessonTrials])].
(** Lines 583-627. *)
Definition course_trials (n : nat) : code :=
  steps [look CourseTrials;
    read Blacklist (steps [
      read Graph (Repeat (steps [superseding (unit_score n) n; maybe (is_superseded (unit_score n)); has_entry]));
      Repeat lesson_trials; put CourseTrials])].
(** Lines 631-638. *)
Definition avg_trials (n : nat) : code := steps [graph; maybe (Either (course_trials n) lesson_trials)].

(** * The search, src/scheduler.rs *)

(** Lines 219-252. *)
Definition starting_units : code :=
  read Graph (steps [Repeat (Either unit_exists (steps [unit_exists; graph])); Repeat unit_exists]).
(** Lines 394-426. *)
Definition last_matching : code := read Graph (Repeat passes_filter).
(** Lines 429-520, to the depth [n]. *)
Fixpoint resolve (n : nat) : code :=
  match n with
  | O => Done
  | S n => steps [passes_filter; read Graph (steps [graph;
             Either (steps [graph; Repeat (resolve n)]) (steps [last_matching; Repeat (resolve n)])])]
  end.
(** Lines 538-571. *)
Definition satisfied_effective (n : nat) : code :=
  steps [blacklisted; graph; blacklisted; superseding (unit_score n) n;
    maybe (is_superseded (unit_score n)); unit_score n; avg_trials n].
(** Lines 575-589. *)
Definition satisfied (n : nat) : code := steps [resolve n; Repeat (satisfied_effective n)].
(** Lines 592-605. *)
Definition all_satisfied (n : nat) : code := read Graph (Repeat (satisfied n)).
(** Lines 256-275. *)
Definition starting_lessons (n : nat) : code := read Graph (Repeat (all_satisfied n)).
(** Lines 280-310. *)
Definition initial_stack (n : nat) : code := steps [starting_units; Repeat (starting_lessons n)].
(** Lines 609-619. *)
Definition valid_dependents (n : nat) : code := steps [graph; Repeat (all_satisfied n)].
(** Lines 623-655. *)
Definition skip_course (n : nat) : code :=
  steps [blacklisted; passes_filter; maybe graph; superseding (unit_score n) n; is_superseded (unit_score n)].
(** Lines 659-691. *)
Definition skip_lesson (n : nat) : code :=
  steps [blacklisted; passes_filter; superseding (unit_score n) n; is_superseded (unit_score n);
    graph; superseding (unit_score n) n; is_superseded (unit_score n)].
(** Lines 349-389. The frequencies are held while the exercises are scored. *)
Definition lesson_candidates (n : nat) : code :=
  steps [valid_in_lesson; graph;
    read Frequencies (Repeat (steps [unit_score n; exercise_value; exercise_value]))].
(** Lines 726-880. *)
Definition search (n : nat) : code :=
  Repeat (steps [graph; maybe (Either
    (steps [starting_lessons n; skip_course n; valid_dependents n])
    (steps [graph; maybe graph; maybe graph; valid_dependents n; skip_lesson n; lesson_candidates n;
            avg_trials n]))]).
(** Lines 883-890. *)
Definition whole_candidates (n : nat) : code := steps [initial_stack n; search n].
(** Lines 893-909. The graph is held during the search. *)
Definition course_candidates (n : nat) : code := read Graph (search n).
(** Lines 922-965. The frequencies are held while candidates are taken from courses and lessons. *)
Definition review_candidates (n : nat) : code :=
  steps [review_entries;
    read Frequencies (Repeat (steps [graph;
      Either (steps [graph; graph; unit_score n; exercise_value; exercise_value])
        (Either (course_candidates n) (lesson_candidates n))]))].
(** What a batch is requested from, lines 968-1033. *)
Inductive wanted := Everything | Courses | Lessons | Metadata | Reviews | Dependents | Dependencies.
Definition candidates (n : nat) (w : wanted) : code :=
  match w with
  | Everything | Metadata => whole_candidates n
  | Courses => course_candidates n
  | Lessons => Repeat (lesson_candidates n)
  | Reviews => review_candidates n
  | Dependents => search n
  | Dependencies => steps [Repeat graph; search n]
  end.
(** Lines 1022-1028, and src/scheduler/data.rs, lines 317-338: the filter of the part of a study
    session at this time. *)
Definition session_filter : code := maybe (read Filters Done).
(** src/scheduler/relearn_pile.rs, lines 44-67. The pile is held while blacklisted exercises are
    taken out of it. *)
Definition relearn : code := steps [write Pile (Repeat inside_blacklisted); read Pile Done].
(** Lines 1049-1095: the candidates, src/scheduler/review_knocker.rs, line 200,
    src/scheduler/filter.rs, line 262, the pile, the manifests and the frequencies. *)
Definition batch (c : code) : code :=
  steps [c; graph; read Counts Done; relearn; Repeat library; Repeat (write Frequencies Done)].
(** Lines 1097-1159, with src/scheduler/relearn_pile.rs, line 34, src/scheduler/data.rs, line 403,
    and src/scheduler/reward_propagator.rs, line 169. *)
Definition score_exercise (n : nat) : code :=
  steps [unit_score n; exercise_value; maybe change_deltas; change_scores; invalidate;
    write Pile Done; write Counts Done; graph; change_rewards; Repeat invalidate].

(** * The methods of a library, src/lib.rs, lines 369-736 *)

(** Methods taking [&self]: threads that share a library may call them at the same time. *)
Inductive call :=
| Blacklisted | BlacklistEntries
| Manifests | UnitIds
| Batch (w : wanted) | SessionBatch (w : wanted) | ScoreExercise | UnitScore
| Invalidate | InvalidatePrefix | SchedulerOptions
| FilterCalls | SessionCalls | GetPreferences
| GetRewards | GetDeltas | GetScores
| ReviewEntries | GraphCalls.
(** To the depth [n]. *)
Definition call_code (n : nat) (c : call) : code :=
  match c with
  (* lines 389-395 *)
  | Blacklisted => blacklisted
  | BlacklistEntries => read Blacklist blacklist_entries
  (* lines 400-416 and 430-434, then 418-428 with src/course_library.rs, lines 544-603 *)
  | Manifests => library
  | UnitIds => read Library graph
  (* lines 439-469 *)
  | Batch w => batch (candidates n w)
  | SessionBatch w => batch (steps [session_filter; candidates n w])
  | ScoreExercise => score_exercise n
  | UnitScore => unit_score n
  | Invalidate => invalidate
  | InvalidatePrefix => invalidate_prefix
  | SchedulerOptions => Done
  (* lines 486-492, 617-623 and 586-588 *)
  | FilterCalls => read Filters Done
  | SessionCalls => read Sessions Done
  | GetPreferences => read Preferences Done
  (* lines 497-505, 527-535 and 557-565 *)
  | GetRewards => rewards
  | GetDeltas => deltas
  | GetScores => scores
  (* lines 610-612 *)
  | ReviewEntries => review_entries
  (* lines 666-668, 674-684 and 690-736 *)
  | GraphCalls => graph
  end.
(** Methods taking [&mut self]: nobody else uses the library meanwhile. *)
Inductive change :=
| AddToBlacklist | RemoveFromBlacklist | RemovePrefixFromBlacklist
| SetOptions | SetPreferences
| ChangeRewards | ChangeDeltas | ChangeScores | ChangeReviewList | ChangeGraph.
Definition change_code (c : change) : code :=
  match c with
  (* lines 371-387 *)
  | AddToBlacklist => steps [invalidate; write Blacklist blacklist_add]
  | RemoveFromBlacklist => steps [invalidate; write Blacklist blacklist_remove]
  | RemovePrefixFromBlacklist => steps [invalidate_prefix; write Blacklist blacklist_remove]
  (* lines 471-481 and 590-597 *)
  | SetOptions => Done
  | SetPreferences => write Preferences Done
  (* lines 507-522, 537-552, 567-582 and 602-608 *)
  | ChangeRewards => change_rewards
  | ChangeDeltas => change_deltas
  | ChangeScores => change_scores
  | ChangeReviewList => change_review_list
  (* lines 628-664, 670-672 and 686-688 *)
  | ChangeGraph => write Graph Done
  end.
