# Formal model of trane: design

The code in `/repo` is read as text. The model is a set of executable Gallina
functions in `rocq/theories`, one per Rust function, each with a comment citing
file and lines. Theorems live in `P_*.v` files that contain only statements,
closed by `exact lemma.`, followed by `Print Assumptions`.

## Conventions

* Identifiers (`Ustr`) are Coq `string`s. Interning is not modelled.
* `HashMap` / `HashSet` / `UstrMap` / `UstrSet` are std++ `gmap` / `gset`.
  Iteration order is never fixed: a function that iterates in hash order, or
  shuffles, takes an oracle that returns an arbitrary permutation, and the
  theorem quantifies over the oracle.
* `usize` counts are natural numbers. Machine.v has the places where the code
  multiplies the batch size or reserves memory for it, with the limits of the
  machine word, and shows when they make no difference (C94).
* `Result` is a sum type; `panic!`/`unwrap` on `None` is an explicit error.
* Loops are folds, structural recursion or fuel. Fuel exhaustion is a separate
  result and a theorem shows it cannot happen at the fuel used.
* `f32` is the binary32 format of Flocq (`BinarySingleNaN.binary_float 24 128`,
  round to nearest even, with NaN, infinities and signed zeros). Its operations
  compute, but the proofs inside Flocq's addition, multiplication and division
  rest on the axioms of the standard library's real numbers, which therefore
  appear under theorems that mention these operations. `powf`, `ln`, `exp` and
  `sqrt` of libm are oracles with stated range hypotheses.
* SQLite tables are lists of rows in insertion (rowid) order with the few SQL
  statements used by the code written as list functions. Assumed of SQLite:
  `LIKE` has the wildcards `%` and `_` and folds ASCII case; `ORDER BY ... DESC`
  returns a permutation sorted by that key, with ties in any order (an oracle);
  a transaction that is not committed leaves no trace; statements outside a
  transaction are atomic one by one (so a multi-statement call may stop between
  statements, given by a `stop`/`fault` argument); a NaN bound to a column is
  stored as NULL, and reading NULL as a number fails.
  Opening a database runs the missing migrations in one transaction and refuses a file
  with more of them, as rusqlite_migration documents (Migrate.v).
* Locks and threads are modelled apart from the data (Locks.v): of each call, the locks and
  caches it takes and gives back, in every order that its branches and loops allow. That
  parking_lot gives a lock to nobody once a writer wants it is part of the trusted base
  (`possible` in LocksSpec.v). Threads.v has the steps of scores and questions about
  exercises with their data. In all other parts of the model calls are not interleaved.
* Of the serialization libraries, serde_json is modelled (Json.v, Serde.v). In the
  other parts of the model encoding and decoding are arguments of the theorem,
  with the laws they need as premises. The texts of fractions are an assumption:
  `exact_numbers` says that what serde_json writes for a finite `f32` is read as
  the same number.
* Files (`FileSystem.v`) are a map from paths to directories and contents. A
  program runs with an optional limit on the number of changes, so a statement
  about every limit covers every crash point. Assumed: `create_dir` and
  `File::create` are atomic, `write_all` appends byte by byte, and what was done
  before the crash is on disk. Links, permissions and `..` are not modelled.

## Plan per property

| Id | Modelled | Proof |
|----|----------|-------|
| C01 | all mutating methods of `InMemoryUnitGraph` | invariant by induction over operations |
| C02 | same | monotone type map, induction over operations |
| C03 | `check_graph_cycles` with arbitrary key and neighbour order | soundness and completeness against transitive closure |
| C04 | same | measure on (unvisited, path length) |
| C05 | `add_encompassed`, getters | invariant relating the two maps |
| C06 | weights as binary32 | invariant |
| C07 | same graph model | expected false: witness of a half-applied `add_lesson`; true part for the other operations |
| C08 | `update_dependency_sinks`, `update_starting_lessons`, `process_results` | invariant over load sequences |
| C09 | `update_starting_lessons` | direct |
| C10, C11 | `KeyValueFilter` | structural induction on filters |
| C12 | `get_part` with u32/i64 arithmetic | direct; overflow as witness |
| C13, C14 | score, delta and reward tables | refinement to per-unit sorted histories; witness for ties |
| C15 | SQL LIKE matcher | witness for wildcards/case; theorem for the safe alphabet |
| C16 | blacklist cache and table | invariant + refinement to a set |
| C17 | review list table | refinement to an ordered set |
| C18, C19 | reward table and cache | invariants; witness for the stale cache |
| C20-C22 | exercise scorer over binary32 with a power oracle | rounding lemmas from Flocq, invariant over the replay |
| C23, C24 | reward scorer, weighted average | as above |
| C25, C26 | options verification, windows, mastery scores | comparison reasoning; witnesses |
| C27-C33, C36-C39 | scheduler data, search, filter, relearn pile, shuffler, knocker, options copies | invariants over the search loop for every oracle; witnesses for the false parts |
| C34 | reward propagation | measure from fading reward/weight, invariant |
| C35 | unit scorer cache | invariant, also over removals by prefix that take along whole lessons and courses / witnesses |
| C40 | Trane facade methods | witness |
| C41-C44 | course generators: passage trees, transcription configurations, directories as lists of files with oracles for their contents | structural induction, string lemmas (components without colons are recovered from identifiers); witnesses for C42 and C44 |
| C45 | builder control flow over an abstract file system | witness |
| C46, C47 | `process_results`, serialization of manifests | refinement |
| C48 | managers | refinement |
| C49 | load and search | expected false: witness library with an unreachable lesson |
| C50 | `check_cycles`, unlocking rules | expected false: witness (a lesson that depends on its own course) |
| C51 | `score_exercise`, relearn pile, batch selection | expected false: witness (an unknown identifier scored low makes later batches fail) |
| C52 | candidate weights, window draws | lemma on IEEE floats: every weight is at least 0.05, even when the math library returns NaN |
| C53 | `get_exercise_batch` with filters | expected false: witness (the relearn pile ignores the filter); proved for the searched candidates |
| C54 | unit scorer | expected false: witness (a course that supersedes its own lesson) |
| C55, C56 | `get_exercise_batch`, search of the graph | proved outside the witnesses |
| C57, C58 | exercise scorer | monotonicity of rounding; witness at fifty days for every correctly rounded power |
| C59 | reward propagator | expected false: witness; for edges of weight 1, the reward is a function of the distance |
| C60 | unit scorer, stores | invariant over histories of calls: every stored value and cached score is in range |
| C62 | knowledge base generator | induction over files; witness for colons |
| C63 | literacy lesson files | the two loops are summed file by file; order by antisymmetry of the sort |
| C61 | `score_exercise`, stores | expected false: witnesses for two failing writes; frame theorem for calls that succeed |
| C64, C65 | configuration directory and preferences over a file system whose programs can stop after any step | exact description of runs that end well; relations kept by every step for all others; witness for a cut-off preferences file |
| C66, C67 | course builders over the same file system | the files written, as a list, compose; a relation kept by every step |
| C68, C69 | knowledge base builders over the same file system, and the generator on a listing of the result | the files of a lesson by name; a lesson directory holds exactly what was written; witnesses for stale lessons and interruptions |
| C70 | `generate_dot_graph` as a list of lines and their text | membership of lines by unfolding the loops, over histories of the graph; the text is injective on identifiers without quotes; witnesses |
| C71, C72 | unit scorer | the equations of the scores as a specification; the recursive scorer without caches satisfies them (fuel bound from acyclicity) and the cached one agrees with it; witness: a blacklisted superseding unit |
| C73, C74 | the directory walk of `LocalCourseLibrary::new`, over the file system of C64 to C67 | the walk is any listing of what is below the root; soundness and completeness of each level against a description of the disk; witness and general equation for relative roots |
| C75 | course builder and directory walk together | exact contents after a build (C66), classification of the written files by name, and a frame argument for the other courses; the converse for missing files |
| C76, C77 | `Trane::new_local` up to the databases | unfolding; frame argument for a changed preferences file; witnesses |
| C78 | `copy_library_dir` over the file system, the walk of C73 | invariant over the list of entries; every level of the walk depends only on the tree below the root; witness with an absolute ignored path |
| C79 | `verify_probs`, `interpolate_performance`, `get_score` with the weighted choice of the `rand` crate | bounds of each rounded operation; the chosen index is that of a positive weight by induction; witness with negative probabilities |
| C80 | `simulate_student` over any library given by its calls | invariant of batches, sessions and the loop; fuel is never used up; witness with frequency 0 |
| C81 | the texts of serde_json (Json.v) and the derived readers and writers of all saved types (Serde.v) | the reader undoes the writer, by induction over values, with the exact limit on the depth; a faithful codec for each type; witnesses |
| C82 | the same, with the file system of C64 | what is read does not depend on what follows it, so a prefix that is read is the whole value |
| C83 | the same | each field is found by its name; fields are independent of each other |
| C84 | which locks each call takes, while it holds which (Locks.v); threads that take steps under the policy of parking_lot | the locks are taken in increasing order of a rank, so no cycle of waiting threads; witness schedule for the review list |
| C85 | the same, with the caches of the unit scorer | no call borrows a cache while it holds it; witness schedule for every pair of calls that use scores |
| C86 | the steps of `score_exercise` and `get_exercise_score` between which other threads may run (Threads.v) | each thread writes its trial at most once, by induction over its steps, then over all schedules; one thread alone refines the call of C35; witness schedules |
| C87 | `candidate_cost` and `candidate_weight` (Batch.v) over functions `ln_1p`, `exp` and `sqrt` of which only order and range are assumed | each step of the cost is monotone, through the rounding; witness history whose cost is NaN |
| C88 | `compute_stability`, `apply_stability_transition`, `update_difficulty` and `compute_retrievability` (Scorer.v) | each step is written as a composition of rounded real operations, each monotone; bounds of real powers by integer powers for 0.9 and for the witness histories |
| C89 | `score` (Scorer.v) | the weighted average is monotone in the grades through the rounding; the witness history is bounded for all power functions by the replay with the constant power 1 |
| C90 | `score`, `compute_weighted_avg`, `compute_stability` (Scorer.v) | the formulas over the reals (ExactSpec.v); bounds of the rounding error of each operation, of `exp` and `ln` between the literals and the exact constants, and of quotients of sums |
| C91 | `score_rewards`, `compute_exercise` (Scorer.v, Practice.v) | the rewards that count are the same in floats and in reals if no weight is next to 0.05; then the bounds of C90 for quotients of sums |
| C92 | all calls that change the stores, the caches or the memory of the scheduler, requests for batches, and openings, as one machine (Session.v over Practice.v, Search.v, Batch.v) | invariants by induction over the calls: the counts, frequencies and pile are functions of the events since the opening; stores and caches stay in range, times stay sane; then C28–C30, C52, C54 and C55 apply to every state reached |
| C93 | `adjusted_mastery_windows`, `window_count`, `filter_candidates` (Batch.v), `success_rate` (Session.v) | thresholds: the gap between a fraction of at most a million scores and 9/10, 3/4 or 1/2 is larger than the spacing of floats; shares: error bounds of the operations of IEEE floats against formulas on real numbers; mix: what the draws and the filling steps take of each window, counted by distinct exercises |
| C94 | `times`, `with_capacity`, `reserve`, `batch_on` (Machine.v) | the products and reservations of a request over Z with the limits of the word; below the limit the machine result is that of `get_exercise_batch`, above it every search ends before it begins |
| C95 | `MRecordScores`, `MRecordDeltas`, `MRecordRewards` (Session.v) | direct recordings are calls of the lifetimes of C92; ranges and copies of options are invariants of lifetimes; two lifetimes with stale and infinite values as witnesses |
| C96 | the search of the whole graph | invariant of the loop of the search: every unit taken from the stack is offered, not passed or satisfied, and what is left waits for one of these; a superseded course as witness against the full statement; tidy libraries have no circular waiting (also C49, C50) |
| C97 | `unit_score`, `avg_trials` and `passes_threshold` together | whole thresholds times numbers of parts are exact floats, so sums and quotients stay above them; a course of three lessons at exactly 1.8 trials as witness against the full statement |
| C98 | `edit_step`, `edit_graph`: the calls of `UnitGraph` on an open `Trane`, with the search of `get_exercise_batch` on the changed graph | the invariants of the graph hold after any calls; a number that falls with the chains of units without manifests ends the replacement of missing units, and the search ends because what it visits is typed; two concrete libraries against the full statement |
| C99 | `velocity`, `score_exercise` with rounded sums | the four sums and four products are each within a power of (1 + 2^-24) of the exact ones; the centred and the plain form of the slope agree; the spread of the times bounds the denominator from below; computed lists against the full statement |
| C100 | `filter_candidates`, `get_exercise_batch` with an arbitrary draw | the draw that takes the exercise first is a possible draw; every candidate that is not knocked out is in a pool, and a pool gets at least one place; a computed library where everything is knocked out |
| C101 | `get_candidates_from_graph_helper` without a filter | an inductive set of what is within reach; invariant of the loop: whatever a visited unit leads to was visited, is on the stack, or is a course begun; everything on the stack is within reach; the hypotheses about the stores discharged for every lifetime of a session; a computed library against the full statement |
| C102 | `get_initial_candidates` for every `UnitFilter` | the sets of C101 with other starting points and with a metadata filter; a second set and invariant for searches inside courses; the review list and lesson filters entry by entry; hypotheses about the stores discharged for every lifetime |
| C103 | `get_exercise_batch` after every lifetime | C102 for lifetimes gives the candidates, C95 their ranges and the options of the filter, and the draw that favours one exercise of C100 then gives it |
| C104 | the migrations of the five databases and the order in which they are opened | statements on tables, columns and indexes; they look only at the schema, so a file of an earlier release goes the way of a new one; only dropping a table loses rows; induction over the releases |
| C105 | the manifests of src/data.rs as the course builders write them and opening reads them, over the JSON of C81 and the walk of C75 | the readers of the walk are the JSON decoders; a planned course meets the hypotheses of C75; induction over the courses, with what building a course leaves as it is |
| C106 | the course builders of C105, stopped at any point | what a path may hold while files are written (C67); a text that was cut off is read as given or not at all (C82); directories are matched with the lessons and exercises of the plan |
| C107 | literacy courses with and without dictation (`Generators.v`) in any library | the dictation lessons are a copy of the reading lessons that nothing else mentions; a circle lies wholly inside or outside the copy, and one inside is one of the reading lessons |

## Trusted base

* The Coq 8.16.1 kernel (and `vm_compute`).
* The reading of the Rust source recorded in the comments of the model files.
* What `Print Assumptions` lists under each theorem. No axioms are declared in
  this development.
* Hypotheses on the math library, written out as premises of the theorems that
  need them: `power_ok` (ranges of `powf`), `power_falls` (it falls where the
  true power does) and, for one refutation, `rounded_power` (correct rounding).
  PowerSample.v shows that the correctly rounded power satisfies all three.

## What is modelled

| Source | Model | Left out |
|---|---|---|
| `graph.rs` | Graph.v, Dot.v (C70) | messages of errors |
| `course_library.rs` | Library.v (loading, queries), Walk.v (directory walk) | the search index of tantivy, links, unreadable directories; reading a manifest is an argument (see Serde.v) |
| `data.rs` | Options.v, Library.v, Walk.v, FileSystem.v, Serde.v over Json.v | |
| `data/filter.rs` | Filters.v, Serde.v | |
| `data/course_generator/*.rs` | Generators.v | texts of instructions and flashcards, names of lessons |
| `course_builder.rs`, `course_builder/knowledge_base_builder.rs` | FileSystem.v, KbBuilder.v | the JSON of the builders themselves |
| `practice_stats.rs`, `practice_deltas.rs`, `practice_rewards.rs`, `blacklist.rs`, `review_list.rs` | Stores.v over Sql.v | migrations, connection pools, SQLite itself |
| `exercise_scorer.rs`, `reward_scorer.rs`, `utils.rs` | Scorer.v | `new_connection`; the clock is an argument |
| `scheduler.rs` | Search.v, Batch.v, Practice.v, Facade.v, Session.v (whole lifetimes), Machine.v (sizes), Locks.v (which locks are held when), Threads.v (steps of scores) | the clock is an argument |
| `scheduler/data.rs`, `filter.rs`, `relearn_pile.rs`, `review_knocker.rs`, `shuffler.rs` | Search.v, Batch.v, Session.v | random numbers are an oracle |
| `scheduler/unit_scorer.rs` | UnitScorer.v, Locks.v | |
| `scheduler/reward_propagator.rs` | Propagate.v | |
| `filter_manager.rs`, `study_session_manager.rs`, `preferences_manager.rs` | FileSystem.v, Serde.v | |
| `lib.rs` | Facade.v, Practice.v, FileSystem.v, Walk.v (`new_local` up to the databases), Locks.v (all calls) | delegation to the parts above |
| `benchmark.rs` | Benchmark.v | formatting of the report, panics of integer overflow |
| `bin/trane-benchmark.rs`, `test_utils.rs` | none | the drivers and the test helpers |

## Assumptions per theorem

What `Print Assumptions` prints for each theorem of the `P_*.v` files. All axioms are those of the
standard library: `classic` is `Classical_Prop.classic`, `funext` is
`FunctionalExtensionality.functional_extensionality_dep`, `sig_forall_dec` and `sig_not_dec` are
those of `ClassicalDedekindReals`. They come from the real numbers under Flocq's operations.

* **Closed under the global context** (190): `C01_encompassing_inverse_partial`, `C01_encompassing_inverse_refuted`, `C01_relations_inverse`, `C02_readd_rejected`, `C02_type_stable`, `C03_cycle_check`, `C03_rejected_only_for_cycles`, `C04_cycle_check_terminates`, `C05_dropping_maps_invisible`, `C06_weights_in_unit_interval`, `C07_failed_operations_partial`, `C07_failed_operations_refuted`, `C08_dependency_sinks`, `C09_order_irrelevant`, `C09_starting_lessons`, `C09_starting_lessons_of_library`, `C10_course_pass_means_lessons_pass`, `C11_filter_is_formula`, `C12_future_start_refuted`, `C12_overflow_refuted`, `C12_session_part_partial`, `C13_newest_first`, `C13_reads_succeed`, `C14_trim_partial`, `C14_trim_refuted`, `C15_blacklist_exact_partial`, `C15_blacklist_partial`, `C15_case_refuted`, `C15_scores_exact_partial`, `C15_scores_partial`, `C15_wildcard_refuted`, `C16_blacklist_coherent`, `C17_review_list_is_set`, `C31_resolution_returns`, `C32_shuffle`, `C33_last_score`, `C34_equal_weights`, `C36_get_partial`, `C40_forwarded_refuted`, `C40_same_partial`, `C41_dependencies`, `C41_distinct`, `C41_lessons`, `C41_names`, `C41_opens`, `C42_colon_refuted`, `C42_cycle_refuted`, `C42_distinct_partial`, `C42_inlined_refuted`, `C42_instruments_refuted`, `C42_lessons`, `C42_metadata`, `C42_offers`, `C42_opens_partial`, `C42_refers`, `C42_tracks`, `C43_distinct`, `C43_lesson_ids`, `C43_lessons`, `C44_kind_name`, `C44_literacy_kind_name`, `C44_literacy_name_kind`, `C44_name_kind_partial`, `C44_name_kind_refuted`, `C45_course_refuted`, `C45_exercise_refuted`, `C45_exists_partial`, `C45_lesson_refuted`, `C46_graph_agrees`, `C46_listings`, `C46_manifests_found`, `C46_opens_iff`, `C46_order_irrelevant`, `C47_any_order`, `C47_round_trip`, `C48_get`, `C48_list`, `C48_list_order`, `C48_opens`, `C48_order`, `C50_tidy_partial`, `C53_depth`, `C54_courses_partial`, `C62_distinct_partial`, `C62_distinct_refuted`, `C62_lessons`, `C62_opens_iff`, `C63_contents`, `C63_course`, `C63_opens_iff`, `C63_order`, `C64_crash`, `C64_exact`, `C64_frame`, `C64_opens`, `C64_resume_partial`, `C64_stuck_refuted`, `C65_can`, `C65_frame_partial`, `C65_lost_refuted`, `C65_set`, `C66_builds_partial`, `C66_contains_partial`, `C66_files`, `C66_lost_refuted`, `C67_inside`, `C67_outside`, `C68_listed`, `C68_round_trip`, `C69_again`, `C69_cards`, `C69_interrupted_refuted`, `C69_refused`, `C69_round_trip_partial`, `C69_stale_refuted`, `C70_arrow_twice_refuted`, `C70_arrows_once_partial`, `C70_bare_course_refuted`, `C70_content_partial`, `C70_deterministic`, `C70_quotes_refuted`, `C70_readable_partial`, `C73_complete`, `C73_exact`, `C73_opens`, `C73_order`, `C74_complete_partial`, `C74_exact_partial`, `C74_relative`, `C74_relative_refuted`, `C75_breaks`, `C75_breaks_refuted`, `C75_opens_partial`, `C75_round_trip_partial`, `C78_copied_partial`, `C78_ignored_refuted`, `C78_opens_partial`, `C78_succeeds_partial`, `C80_ends_partial`, `C80_reported_partial`, `C80_time_partial`, `C80_time_refuted`, `C81_deep_filter_refuted`, `C81_ends`, `C81_exercise`, `C81_filter_partial`, `C81_filters_partial`, `C81_json`, `C81_locked_refuted`, `C81_passages`, `C81_preferences`, `C81_session_partial`, `C81_sessions_partial`, `C82_exercise`, `C82_filter`, `C82_new`, `C82_passages`, `C82_preferences`, `C82_session`, `C82_set`, `C82_torn`, `C83_exercise`, `C83_exercise_needs`, `C83_exercise_once`, `C83_filter_needs`, `C83_filter_once`, `C83_preferences`, `C83_preferences_once`, `C83_session`, `C83_session_needs`, `C83_session_once`, `C84_calls_return_partial`, `C84_never_blocked_partial`, `C84_one_batcher_partial`, `C84_owner`, `C84_refuted`, `C84_runs_end`, `C85_one_user_partial`, `C85_owner`, `C85_refuted`, `C90_first`, `C104_again`, `C104_keeps`, `C104_newer`, `C104_opens`, `C104_other_kind_refuted`, `C104_resumes`, `C107_circle_refuted`, `C107_generates`, `C107_opens_partial`.
* **sig_forall_dec, funext** (1): `C26_float_value`.
* **sig_forall_dec, sig_not_dec, classic, funext** (226): `C14_trim_rewards`, `C15_rewards_exact_partial`, `C15_rewards_partial`, `C18_at_most_twenty`, `C18_failure_stores_nothing`, `C18_newest_of_all_written`, `C18_reports_written`, `C19_disorder_refuted`, `C19_dropped_similar_partial`, `C19_failure_refuted`, `C19_removal_refuted`, `C20_valid`, `C21_rejects`, `C21_store`, `C22_base`, `C22_ranges`, `C23_applied`, `C23_bounded`, `C23_few`, `C23_none`, `C23_overflow_refuted`, `C24_bounded_partial`, `C24_exact_refuted`, `C24_grades_partial`, `C24_none`, `C25_defaults_one_window`, `C25_defaults_verified`, `C25_gap_refuted`, `C25_one_window_partial`, `C25_overlap_refuted`, `C26_conversion`, `C26_roundtrip`, `C27_clean_partial`, `C27_review_refuted`, `C28_batch_defaults_partial`, `C28_batch_partial`, `C28_defaults_no_repeats`, `C28_lessons_refuted`, `C28_members`, `C28_no_repeats_partial`, `C28_overlap_refuted`, `C28_review_refuted`, `C29_default_size_partial`, `C29_maximum_refuted`, `C29_nonempty_partial`, `C29_nonempty_refuted`, `C29_size_partial`, `C30_batch_partial`, `C30_blank_refuted`, `C30_search_partial`, `C31_returns`, `C33_contribution`, `C33_default_share`, `C34_bounded`, `C34_complete`, `C34_distance`, `C34_ends`, `C34_unknown`, `C35_asking`, `C35_history_partial`, `C35_later_refuted`, `C35_prefix_partial`, `C35_questions`, `C35_remove_refuted`, `C35_superseding_refuted`, `C35_unban_prefix_refuted`, `C36_search_partial`, `C36_set_refuted`, `C36_stale`, `C36_unverified_refuted`, `C37_knocked_out`, `C38_all`, `C38_grows`, `C38_members`, `C38_none_refuted`, `C38_some_partial`, `C39_lessons_refuted`, `C39_limit_partial`, `C49_complete_partial`, `C49_hidden_refuted`, `C49_tidy_partial`, `C50_own_course_refuted`, `C51_unknown_refuted`, `C52_no_panic`, `C52_positive_weights`, `C53_asked_partial`, `C53_pile_refuted`, `C54_endless_refuted`, `C54_returns_partial`, `C55_no_failure_partial`, `C55_review_refuted`, `C56_own_course_partial`, `C56_side_door_refuted`, `C57_fades_partial`, `C57_fades_refuted`, `C58_urgency`, `C59_order_partial`, `C59_order_refuted`, `C60_in_range`, `C60_no_error`, `C61_delta`, `C61_delta_refuted`, `C61_failed_partial`, `C61_recorded`, `C61_trial_refuted`, `C71_averages_partial`, `C71_history_partial`, `C72_blacklisted_refuted`, `C72_mastered_partial`, `C76_absolute_partial`, `C76_elsewhere_refuted`, `C76_not_found_refuted`, `C76_process_partial`, `C77_reopens_partial`, `C77_zero_refuted`, `C79_ends_partial`, `C79_negative_refuted`, `C79_scores_partial`, `C81_course_only`, `C81_course_partial`, `C81_deep_piece_refuted`, `C81_lesson_only`, `C81_lesson_partial`, `C81_weight_refuted`, `C82_course`, `C82_lesson`, `C83_course`, `C83_course_needs`, `C83_course_once`, `C83_lesson`, `C83_lesson_needs`, `C83_lesson_once`, `C86_alone_ask`, `C86_alone_give`, `C86_asking_partial`, `C86_delta_refuted`, `C86_in_turn`, `C86_stale_refuted`, `C86_trials_partial`, `C87_as_good`, `C87_lost`, `C87_range_partial`, `C87_range_refuted`, `C88_better`, `C88_calms_partial`, `C88_calms_refuted`, `C88_difficulty_refuted`, `C88_good`, `C88_later`, `C88_new`, `C88_ninety`, `C88_poor`, `C88_single_delta`, `C89_newest_partial`, `C89_now_partial`, `C89_refuted`, `C90_average`, `C90_blend_refuted`, `C90_curve`, `C90_days`, `C90_estimate`, `C90_score`, `C90_step`, `C91_reward`, `C91_shown`, `C92_answers`, `C92_batches`, `C92_frequency`, `C92_graded`, `C92_lists`, `C92_only`, `C92_rate`, `C92_relearn`, `C92_returns`, `C93_default_quotas_partial`, `C93_default_quotas_refuted`, `C93_default_quotas_short`, `C93_harder_partial`, `C93_harder_refuted`, `C93_mix`, `C93_quota`, `C93_shares`, `C93_whole_partial`, `C93_whole_refuted`, `C94_agrees_partial`, `C94_limit`, `C94_memory`, `C94_sizes_refuted`, `C95_nonempty`, `C95_range_partial`, `C95_range_refuted`, `C95_seen_partial`, `C95_seen_refuted`, `C95_stored`, `C96_progress_partial`, `C96_superseded_refuted`, `C97_rounding_refuted`, `C97_whole_partial`, `C98_checked_partial`, `C98_endless_refuted`, `C98_fails_refuted`, `C98_gives_partial`, `C98_no_units_partial`, `C99_direction`, `C99_equal_grades_refuted`, `C99_few`, `C99_quick_refuted`, `C99_same_moment`, `C99_slope_partial`, `C100_batch_partial`, `C100_knocked_out_refuted`, `C100_request_partial`, `C101_lifetime_partial`, `C101_reach_partial`, `C101_unlocked_refuted`, `C102_filter_partial`, `C102_lifetime_partial`, `C102_unlocked_refuted`, `C103_comes_up`, `C103_found`, `C105_missing`, `C105_round_trip_partial`, `C105_unreadable`, `C105_weight_refuted`, `C106_part_partial`, `C106_whole_refuted`.
