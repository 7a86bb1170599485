{
 "claims": [
  {
   "property": "C01",
   "status": "partial",
   "theorems": [
    "C01_relations_inverse",
    "C01_encompassing_inverse_partial",
    "C01_encompassing_inverse_refuted",
    "C46_graph_agrees"
   ],
   "note": "Dependencies, supersedes and containment are proved for every history. The encompassing part is false for arbitrary histories (witness), true once an edge is recorded or the switch is set, and true for every opened library (C46_graph_agrees)."
  },
  {
   "property": "C02",
   "status": "proved",
   "theorems": [
    "C02_type_stable",
    "C02_readd_rejected"
   ],
   "note": ""
  },
  {
   "property": "C03",
   "status": "proved",
   "theorems": [
    "C03_cycle_check",
    "C03_rejected_only_for_cycles"
   ],
   "note": ""
  },
  {
   "property": "C04",
   "status": "proved",
   "theorems": [
    "C04_cycle_check_terminates"
   ],
   "note": "Holds for every graph record, reachable or not; the bound is 2 + number of edges per relation."
  },
  {
   "property": "C05",
   "status": "proved",
   "theorems": [
    "C05_dropping_maps_invisible"
   ],
   "note": ""
  },
  {
   "property": "C06",
   "status": "proved",
   "theorems": [
    "C06_weights_in_unit_interval"
   ],
   "note": ""
  },
  {
   "property": "C07",
   "status": "partial",
   "theorems": [
    "C07_failed_operations_partial",
    "C07_failed_operations_refuted"
   ],
   "note": "False as stated: a failing add_lesson or add_exercise can leave the type of the new unit registered. The partial theorem says this is the only change."
  },
  {
   "property": "C08",
   "status": "proved",
   "theorems": [
    "C08_dependency_sinks"
   ],
   "note": "Exact description of the sinks of every opened library."
  },
  {
   "property": "C09",
   "status": "proved",
   "theorems": [
    "C09_starting_lessons",
    "C09_order_irrelevant",
    "C09_starting_lessons_of_library"
   ],
   "note": ""
  },
  {
   "property": "C46",
   "status": "proved",
   "theorems": [
    "C46_opens_iff",
    "C46_graph_agrees",
    "C46_manifests_found",
    "C46_listings",
    "C46_order_irrelevant"
   ],
   "note": "For manifests that passed the consistency checks of process_*_manifest."
  },
  {
   "property": "C47",
   "status": "proved",
   "theorems": [
    "C47_round_trip",
    "C47_any_order"
   ],
   "note": "Conversion to and from the serializable struct; the postcard byte encoding is not modelled."
  },
  {
   "property": "C10",
   "status": "proved",
   "theorems": [
    "C10_course_pass_means_lessons_pass"
   ],
   "note": ""
  },
  {
   "property": "C11",
   "status": "proved",
   "theorems": [
    "C11_filter_is_formula"
   ],
   "note": ""
  },
  {
   "property": "C12",
   "status": "partial",
   "theorems": [
    "C12_session_part_partial",
    "C12_future_start_refuted",
    "C12_overflow_refuted"
   ],
   "note": "False for a start less than a minute ahead with an empty first part, and when minutes overflow u32. Proved otherwise."
  },
  {
   "property": "C13",
   "status": "proved",
   "theorems": [
    "C13_newest_first",
    "C13_reads_succeed"
   ],
   "note": "Histories include failed and interrupted calls. Reading can only fail if a NaN was recorded."
  },
  {
   "property": "C14",
   "status": "partial",
   "theorems": [
    "C14_trim_rewards",
    "C14_trim_partial",
    "C14_trim_refuted"
   ],
   "note": "Proved for rewards. False for scores and deltas with equal timestamps; the partial theorem describes exactly what is kept."
  },
  {
   "property": "C15",
   "status": "partial",
   "theorems": [
    "C15_scores_partial",
    "C15_rewards_partial",
    "C15_blacklist_partial",
    "C15_scores_exact_partial",
    "C15_rewards_exact_partial",
    "C15_blacklist_exact_partial",
    "C15_wildcard_refuted",
    "C15_case_refuted"
   ],
   "note": "False: LIKE wildcards and case folding remove other units. All units with the prefix are removed; with a plain prefix only units equal up to ASCII case. What is removed is described exactly by matching with wildcards and letters of either case."
  },
  {
   "property": "C16",
   "status": "proved",
   "theorems": [
    "C16_blacklist_coherent"
   ],
   "note": ""
  },
  {
   "property": "C17",
   "status": "proved",
   "theorems": [
    "C17_review_list_is_set"
   ],
   "note": ""
  },
  {
   "property": "C18",
   "status": "proved",
   "theorems": [
    "C18_at_most_twenty",
    "C18_reports_written",
    "C18_failure_stores_nothing",
    "C18_newest_of_all_written"
   ],
   "note": ""
  },
  {
   "property": "C19",
   "status": "partial",
   "theorems": [
    "C19_dropped_similar_partial",
    "C19_removal_refuted",
    "C19_failure_refuted",
    "C19_disorder_refuted"
   ],
   "note": "False after a prefix removal, after a failed call and for rewards out of order. Proved for successful recordings in order of time."
  },
  {
   "property": "C20",
   "status": "proved",
   "theorems": [
    "C20_valid"
   ],
   "note": "For every power function within the stated ranges (power_ok); the correctly rounded power is one."
  },
  {
   "property": "C21",
   "status": "proved",
   "theorems": [
    "C21_rejects",
    "C21_store"
   ],
   "note": "Includes every history the score store returns."
  },
  {
   "property": "C22",
   "status": "proved",
   "theorems": [
    "C22_ranges",
    "C22_base"
   ],
   "note": "Every state of a replay is the last state of a shorter history."
  },
  {
   "property": "C23",
   "status": "proved",
   "theorems": [
    "C23_none",
    "C23_bounded",
    "C23_few",
    "C23_applied",
    "C23_overflow_refuted"
   ],
   "note": "The conditions are exact for grades 1 to 5 when the age of the last trial fits 64 bits; the subtraction is unchecked and overflows otherwise (witness)."
  },
  {
   "property": "C24",
   "status": "partial",
   "theorems": [
    "C24_bounded_partial",
    "C24_grades_partial",
    "C24_none",
    "C24_exact_refuted"
   ],
   "note": "False to the letter because of rounding (witness: one value). Proved up to a relative error of 1/1000 (1/500 for grades) for up to 1000 values that are not tiny."
  },
  {
   "property": "C25",
   "status": "partial",
   "theorems": [
    "C25_one_window_partial",
    "C25_defaults_verified",
    "C25_defaults_one_window",
    "C25_gap_refuted",
    "C25_overlap_refuted"
   ],
   "note": "Verification accepts gaps and overlaps (two witnesses). Proved when the boundaries agree exactly and are in order, and for the defaults with any batch size."
  },
  {
   "property": "C26",
   "status": "proved",
   "theorems": [
    "C26_conversion",
    "C26_roundtrip",
    "C26_float_value"
   ],
   "note": "Exact characterisation over the reals."
  },
  {
   "property": "C27",
   "status": "partial",
   "theorems": [
    "C27_clean_partial",
    "C27_review_refuted"
   ],
   "note": "False for blacklisted exercises named on the review list (witness); the partial theorem says that is the only exception, for whole batches and every filter."
  },
  {
   "property": "C28",
   "status": "partial",
   "theorems": [
    "C28_no_repeats_partial",
    "C28_defaults_no_repeats",
    "C28_members",
    "C28_batch_partial",
    "C28_batch_defaults_partial",
    "C28_overlap_refuted",
    "C28_lessons_refuted",
    "C28_review_refuted"
   ],
   "note": "False for accepted options with overlapping windows, for lesson filters that repeat a lesson and for review lists with a unit and its exercise. Proved for whole batches otherwise."
  },
  {
   "property": "C29",
   "status": "partial",
   "theorems": [
    "C29_default_size_partial",
    "C29_size_partial",
    "C29_nonempty_partial",
    "C29_maximum_refuted",
    "C29_nonempty_refuted"
   ],
   "note": "The documented maximum is false (batch size 1 gives 5) and the knocker can empty a batch. Proved: max(5, b) + b/10 for default windows and b up to a million, a general bound, and non-emptiness when a candidate is not covered ten times."
  },
  {
   "property": "C30",
   "status": "partial",
   "theorems": [
    "C30_search_partial",
    "C30_batch_partial",
    "C30_blank_refuted"
   ],
   "note": "False when the blank identifier is blacklisted (witness). Proved otherwise, for unfiltered and metadata-filtered requests."
  },
  {
   "property": "C31",
   "status": "proved",
   "theorems": [
    "C31_returns",
    "C31_resolution_returns"
   ],
   "note": "Requests for batches with every filter, from opened libraries."
  },
  {
   "property": "C32",
   "status": "proved",
   "theorems": [
    "C32_shuffle"
   ],
   "note": "Includes that no course has two groups that could have been merged."
  },
  {
   "property": "C33",
   "status": "proved",
   "theorems": [
    "C33_last_score",
    "C33_contribution",
    "C33_default_share"
   ],
   "note": "The pile is in memory only; restarts are not part of the histories."
  },
  {
   "property": "C37",
   "status": "proved",
   "theorems": [
    "C37_knocked_out"
   ],
   "note": "For every graph, order and candidate list without repetition; terminates. Covering goes over at most seven steps: weights fall to four fifths with each step, and the traversal ends below 0.2."
  },
  {
   "property": "C38",
   "status": "partial",
   "theorems": [
    "C38_members",
    "C38_all",
    "C38_some_partial",
    "C38_grows",
    "C38_none_refuted"
   ],
   "note": "False with a minimum fraction of 0 (witness); proved otherwise."
  },
  {
   "property": "C39",
   "status": "partial",
   "theorems": [
    "C39_limit_partial",
    "C39_lessons_refuted"
   ],
   "note": "False for lesson filters (witness) and the review list; proved for all others."
  },
  {
   "property": "C49",
   "status": "partial",
   "theorems": [
    "C49_complete_partial",
    "C49_tidy_partial",
    "C49_hidden_refuted"
   ],
   "note": "False: a course without dependencies is skipped when one of its first lessons depends on another course (witness). Proved for libraries without such courses and without units that wait for themselves, and so for those whose lessons depend only on lessons of their own course and whose courses depend only on courses."
  },
  {
   "property": "C50",
   "status": "partial",
   "theorems": [
    "C50_tidy_partial",
    "C50_own_course_refuted"
   ],
   "note": "False (witness: a lesson that depends on its own course). Proved for libraries whose lessons depend only on lessons of their own course and whose courses depend only on courses."
  },
  {
   "property": "C51",
   "status": "partial",
   "theorems": [
    "C51_unknown_refuted"
   ],
   "note": "False (witness: a score of 1 for an unknown identifier makes every later batch fail)."
  },
  {
   "property": "C52",
   "status": "proved",
   "theorems": [
    "C52_no_panic",
    "C52_positive_weights"
   ],
   "note": "The weighted draw of the rand crate is assumed to succeed on positive weights."
  },
  {
   "property": "C53",
   "status": "partial",
   "theorems": [
    "C53_asked_partial",
    "C53_depth",
    "C53_pile_refuted"
   ],
   "note": "False for exercises from the relearn pile (witness); proved for all others and for every kind of filter."
  },
  {
   "property": "C55",
   "status": "partial",
   "theorems": [
    "C55_no_failure_partial",
    "C55_review_refuted"
   ],
   "note": "False for unknown units on the review list (witness) and in the relearn pile (C51); proved otherwise."
  },
  {
   "property": "C56",
   "status": "partial",
   "theorems": [
    "C56_own_course_partial",
    "C56_side_door_refuted"
   ],
   "note": "False when a lesson depends on a lesson of another course (witness); proved when lessons depend only on lessons of their own course."
  },
  {
   "property": "C57",
   "status": "partial",
   "theorems": [
    "C57_fades_partial",
    "C57_fades_refuted"
   ],
   "note": "False at the age of fifty days (for every correctly rounded power); proved before and after, when no delta is negative."
  },
  {
   "property": "C58",
   "status": "proved",
   "theorems": [
    "C58_urgency"
   ],
   "note": "For power functions that fall where the true power does (power_falls)."
  },
  {
   "property": "C34",
   "status": "proved",
   "theorems": [
    "C34_ends",
    "C34_bounded",
    "C34_complete",
    "C34_unknown",
    "C34_distance",
    "C34_equal_weights"
   ],
   "note": "For every graph and every order of neighbours; with weights of 1 the result is determined exactly."
  },
  {
   "property": "C59",
   "status": "partial",
   "theorems": [
    "C59_order_partial",
    "C59_order_refuted"
   ],
   "note": "False when edges have different weights (witness: two loading orders of one library); proved when all weights are 1."
  },
  {
   "property": "C35",
   "status": "partial",
   "theorems": [
    "C35_asking",
    "C35_questions",
    "C35_history_partial",
    "C35_prefix_partial",
    "C35_later_refuted",
    "C35_superseding_refuted",
    "C35_unban_prefix_refuted",
    "C35_remove_refuted"
   ],
   "note": "False on a later day, when a superseding lesson is blacklisted, after remove_prefix_from_blacklist and after remove_scores_with_prefix (four witnesses). Proved for all other histories at one time and units that nothing supersedes, and with removals by prefix from the blacklist as long as the lessons and courses of whatever is taken off start with the prefix too; a score whose write fails after its delta was stored is left out too."
  },
  {
   "property": "C54",
   "status": "partial",
   "theorems": [
    "C54_returns_partial",
    "C54_courses_partial",
    "C54_endless_refuted"
   ],
   "note": "False: a course may supersede its own lesson, and then the score of the lesson never returns once its exercises have scores (witness). Proved when no unit is below itself, in particular when no course supersedes a lesson."
  },
  {
   "property": "C60",
   "status": "proved",
   "theorems": [
    "C60_in_range",
    "C60_no_error"
   ],
   "note": "For libraries of at most three million exercises per lesson and lessons per course, and platform powers with the ranges of the true one (power_ok)."
  },
  {
   "property": "C61",
   "status": "partial",
   "theorems": [
    "C61_recorded",
    "C61_delta",
    "C61_failed_partial",
    "C61_delta_refuted",
    "C61_trial_refuted"
   ],
   "note": "False for calls that fail: the delta, or the trial itself, can already be stored (two witnesses). Proved for calls that succeed, and that a failing call adds no more than one of each."
  },
  {
   "property": "C41",
   "status": "proved",
   "theorems": [
    "C41_lessons",
    "C41_names",
    "C41_dependencies",
    "C41_distinct",
    "C41_opens"
   ],
   "note": "For every passage whose sub-passages form maps; acyclicity is stated as: the library opens exactly if it does without the generated lessons."
  },
  {
   "property": "C42",
   "status": "partial",
   "theorems": [
    "C42_lessons",
    "C42_refers",
    "C42_offers",
    "C42_tracks",
    "C42_metadata",
    "C42_distinct_partial",
    "C42_opens_partial",
    "C42_instruments_refuted",
    "C42_colon_refuted",
    "C42_inlined_refuted",
    "C42_cycle_refuted"
   ],
   "note": "False for repeated instruments, colons in track names, tracks both inlined and in the directory, and cyclic transcription dependencies (four witnesses). Proved otherwise; lessons, relations, skip flags and metadata are exact in every case."
  },
  {
   "property": "C43",
   "status": "proved",
   "theorems": [
    "C43_lessons",
    "C43_lesson_ids",
    "C43_distinct"
   ],
   "note": "For every directory and every order of listing and of the map of lessons."
  },
  {
   "property": "C44",
   "status": "partial",
   "theorems": [
    "C44_kind_name",
    "C44_name_kind_partial",
    "C44_name_kind_refuted",
    "C44_literacy_kind_name",
    "C44_literacy_name_kind",
    "C62_lessons"
   ],
   "note": "False for the name and the description of an exercise called lesson (witness); proved for all other files. The expansion of identifiers is in C62_lessons."
  },
  {
   "property": "C62",
   "status": "partial",
   "theorems": [
    "C62_opens_iff",
    "C62_lessons",
    "C62_distinct_partial",
    "C62_distinct_refuted"
   ],
   "note": "Distinctness is false when the name of a lesson contains a colon (witness); the rest is proved."
  },
  {
   "property": "C63",
   "status": "proved",
   "theorems": [
    "C63_opens_iff",
    "C63_contents",
    "C63_order",
    "C63_course"
   ],
   "note": "Names, descriptions and instructions only matter if they cannot be read."
  },
  {
   "property": "C36",
   "status": "partial",
   "theorems": [
    "C36_get_partial",
    "C36_search_partial",
    "C36_stale",
    "C36_set_refuted",
    "C36_unverified_refuted"
   ],
   "note": "False: the components that choose the exercises keep the options of the opening (C36_stale, for every history), so the new batch size is ignored (witness), and invalid options are accepted (witness). Proved: asking for the options gives the last ones set, and the search for candidates uses them."
  },
  {
   "property": "C40",
   "status": "partial",
   "theorems": [
    "C40_same_partial",
    "C40_forwarded_refuted"
   ],
   "note": "False: the call through the Trane object changes nothing (witness). Proved only when the switch is already set."
  },
  {
   "property": "C45",
   "status": "partial",
   "theorems": [
    "C45_exists_partial",
    "C45_course_refuted",
    "C45_lesson_refuted",
    "C45_exercise_refuted"
   ],
   "note": "False at all three levels: the answer of verify_paths is dropped (three witnesses). Proved: exactly which referred files exist after a successful build."
  },
  {
   "property": "C48",
   "status": "proved",
   "theorems": [
    "C48_opens",
    "C48_get",
    "C48_list",
    "C48_order",
    "C48_list_order"
   ],
   "note": "For both managers, every list of entries and every order of the directory and of the map; reading one entry as JSON is an oracle."
  },
  {
   "property": "C64",
   "status": "partial",
   "theorems": [
    "C64_opens",
    "C64_exact",
    "C64_frame",
    "C64_resume_partial",
    "C64_crash",
    "C64_stuck_refuted"
   ],
   "note": "False: an interruption between the creation of the preferences file and its last byte leaves a library that never opens again (for every new library). Proved for every other interruption; the databases are not modelled here. C82_new is the same for the text that is really written."
  },
  {
   "property": "C65",
   "status": "partial",
   "theorems": [
    "C65_set",
    "C65_can",
    "C65_frame_partial",
    "C65_lost_refuted"
   ],
   "note": "False for interrupted calls: both values can be lost (witness for every codec that rejects the empty text). Proved for calls that succeed, and that no other file ever changes."
  },
  {
   "property": "C66",
   "status": "partial",
   "theorems": [
    "C66_files",
    "C66_contains_partial",
    "C66_builds_partial",
    "C66_lost_refuted"
   ],
   "note": "False for two lessons with one directory name (witness). Proved exactly for every successful build, and in full when no two paths collide."
  },
  {
   "property": "C67",
   "status": "proved",
   "theorems": [
    "C67_outside",
    "C67_inside"
   ],
   "note": "For every number of steps after which the build stops and every failing step."
  },
  {
   "property": "C68",
   "status": "proved",
   "theorems": [
    "C68_round_trip",
    "C68_listed"
   ],
   "note": "For every way of writing and reading JSON that round-trips (finite weights). The condition on names is the one of the property; names contain no separators."
  },
  {
   "property": "C69",
   "status": "partial",
   "theorems": [
    "C69_round_trip_partial",
    "C69_again",
    "C69_cards",
    "C69_refused",
    "C69_stale_refuted",
    "C69_interrupted_refuted"
   ],
   "note": "False: lessons taken out of the configuration stay in the course (witness), and an interrupted build loses a lesson (witness). Proved if no other lesson directory was there."
  },
  {
   "property": "C70",
   "status": "partial",
   "theorems": [
    "C70_content_partial",
    "C70_arrows_once_partial",
    "C70_deterministic",
    "C70_readable_partial",
    "C70_bare_course_refuted",
    "C70_arrow_twice_refuted",
    "C70_quotes_refuted"
   ],
   "note": "False for courses without lessons, which are not drawn, for starting lessons that depend on their own course, whose arrow is drawn twice, and for identifiers with quotes, which are not escaped (three witnesses). Proved exactly otherwise."
  },
  {
   "property": "C71",
   "status": "partial",
   "theorems": [
    "C71_averages_partial",
    "C71_history_partial"
   ],
   "note": "Proved exactly, for libraries in which no unit is below itself (otherwise the computation may not end, C54), whatever was asked before; after histories only for units that nothing supersedes and calls that keep the caches right, since cached scores can be stale (C35)."
  },
  {
   "property": "C72",
   "status": "partial",
   "theorems": [
    "C72_mastered_partial",
    "C72_blacklisted_refuted"
   ],
   "note": "False: a superseding unit without a score counts as mastered, so blacklisting it, never practised, takes the score from the unit it supersedes (witness for every correctly rounded power function). Proved up to that: units with a score must reach the superseding score."
  },
  {
   "property": "C73",
   "status": "proved",
   "theorems": [
    "C73_exact",
    "C73_complete",
    "C73_opens",
    "C73_order"
   ],
   "note": "For every directory tree without links and every listing order; reading JSON and the generators are oracles (the generators have properties of their own)."
  },
  {
   "property": "C74",
   "status": "partial",
   "theorems": [
    "C74_exact_partial",
    "C74_complete_partial",
    "C74_relative",
    "C74_relative_refuted"
   ],
   "note": "False for relative roots: ignored paths are made absolute, the paths of the entries are not, so nothing is ever ignored (for every relative root). Proved for absolute roots."
  },
  {
   "property": "C75",
   "status": "partial",
   "theorems": [
    "C75_round_trip_partial",
    "C75_opens_partial",
    "C75_breaks",
    "C75_breaks_refuted"
   ],
   "note": "False: a build with a relative path that leads nowhere succeeds and makes the whole library unreadable (for every such builder). Proved if the paths lead somewhere and no two files of the builder collide."
  },
  {
   "property": "C76",
   "status": "partial",
   "theorems": [
    "C76_absolute_partial",
    "C76_process_partial",
    "C76_not_found_refuted",
    "C76_elsewhere_refuted"
   ],
   "note": "False: only the courses are looked for below the working directory; the configuration and the user data are relative to the directory of the process (two witnesses). Proved for absolute roots and if both directories agree."
  },
  {
   "property": "C77",
   "status": "partial",
   "theorems": [
    "C77_reopens_partial",
    "C77_zero_refuted"
   ],
   "note": "False: a batch size of zero is stored, and the library never opens again. Proved for all other batch sizes."
  },
  {
   "property": "C78",
   "status": "partial",
   "theorems": [
    "C78_copied_partial",
    "C78_succeeds_partial",
    "C78_opens_partial",
    "C78_ignored_refuted"
   ],
   "note": "False: a path that is ignored under its absolute name is not ignored in the copy. Proved: the copy has exactly the files of the original (so also its practice history, with which a simulated student then starts), and without absolute ignored paths it opens with the same units."
  },
  {
   "property": "C79",
   "status": "partial",
   "theorems": [
    "C79_scores_partial",
    "C79_ends_partial",
    "C79_negative_refuted"
   ],
   "note": "False: negative probabilities with the sum 1 are verified and make every simulation panic. Proved for all other verified students, for all trials and random numbers."
  },
  {
   "property": "C80",
   "status": "partial",
   "theorems": [
    "C80_reported_partial",
    "C80_ends_partial",
    "C80_time_partial",
    "C80_time_refuted"
   ],
   "note": "False: with no days between sessions, trials are recorded before earlier ones. Proved: all counts and times, and that time increases if a session fits before the next. Counters are unbounded in the model."
  },
  {
   "property": "C81",
   "status": "partial",
   "theorems": [
    "C81_preferences",
    "C81_exercise",
    "C81_passages",
    "C81_lesson_partial",
    "C81_course_partial",
    "C81_filter_partial",
    "C81_session_partial",
    "C81_filters_partial",
    "C81_sessions_partial",
    "C81_deep_filter_refuted",
    "C81_locked_refuted",
    "C81_deep_piece_refuted",
    "C81_weight_refuted",
    "C81_lesson_only",
    "C81_course_only",
    "C81_json",
    "C81_ends"
   ],
   "note": "False: a filter with 42 combined filters inside each other is saved and can never be read, and no filter of its directory can; the same holds for passages of music that are 63 levels deep and for weights that are not finite. Proved for preferences, exercises and transcriptions in full, for courses with exactly the remaining depths, for filters and sessions except for the depths 41 and 40. How serde_json writes a fraction and reads it again is an assumption."
  },
  {
   "property": "C82",
   "status": "proved",
   "theorems": [
    "C82_preferences",
    "C82_exercise",
    "C82_lesson",
    "C82_course",
    "C82_filter",
    "C82_session",
    "C82_passages",
    "C82_set",
    "C82_torn",
    "C82_new"
   ],
   "note": "For every prefix of the text, with blanks after it. Whether the file system keeps a prefix is the assumption of the model of files."
  },
  {
   "property": "C83",
   "status": "proved",
   "theorems": [
    "C83_exercise",
    "C83_lesson",
    "C83_course",
    "C83_preferences",
    "C83_session",
    "C83_exercise_needs",
    "C83_lesson_needs",
    "C83_course_needs",
    "C83_session_needs",
    "C83_filter_needs",
    "C83_exercise_once",
    "C83_lesson_once",
    "C83_course_once",
    "C83_preferences_once",
    "C83_session_once",
    "C83_filter_once"
   ],
   "note": "For the fields of the structures themselves; a file is given by the JSON value that it is read as."
  },
  {
   "property": "C84",
   "status": "partial",
   "theorems": [
    "C84_refuted",
    "C84_never_blocked_partial",
    "C84_calls_return_partial",
    "C84_runs_end",
    "C84_one_batcher_partial",
    "C84_owner"
   ],
   "note": "False: a batch from the review list holds the lock of the frequencies for reading (scheduler.rs:926) while it takes it again (scheduler.rs:359); if another request for a batch wants to write it in between (scheduler/data.rs:310), both wait for ever. Proved for any threads and calls if no batch is requested from the review list, or if only one thread requests batches."
  },
  {
   "property": "C85",
   "status": "partial",
   "theorems": [
    "C85_refuted",
    "C85_one_user_partial",
    "C85_owner"
   ],
   "note": "False: the caches of scores are RefCells (unit_scorer.rs:39-53), which the unsafe declarations of lib.rs:738-742 share between threads; any two calls that use scores can race (for every such pair). Proved if only one thread makes such calls, and that one thread alone never borrows a cache twice."
  },
  {
   "property": "C86",
   "status": "partial",
   "theorems": [
    "C86_stale_refuted",
    "C86_delta_refuted",
    "C86_trials_partial",
    "C86_asking_partial",
    "C86_in_turn",
    "C86_alone_ask",
    "C86_alone_give"
   ],
   "note": "False: a question that overlaps a score leaves the old score in the cache, and of two scores at once the delta can be missing (two witnesses, for every power function). Proved for all threads and schedules: no trial is lost or stored twice, and threads that only ask about exercises do not disturb each other. Each access to the caches is one step, although nothing makes it so (C85)."
  },
  {
   "property": "C87",
   "status": "partial",
   "theorems": [
    "C87_as_good",
    "C87_range_partial",
    "C87_range_refuted",
    "C87_lost"
   ],
   "note": "The order of the weights is proved. The range is false: after a grade of 5 and a grade of 1 an hour later the velocity is below -1, its ln_1p is NaN (filter.rs:117), and the exercise gets 0.05 whatever its urgency. Proved if the grades fall by at most one a day. Assumes that ln_1p, exp and sqrt are monotone and in range."
  },
  {
   "property": "C88",
   "status": "partial",
   "theorems": [
    "C88_ninety",
    "C88_good",
    "C88_poor",
    "C88_better",
    "C88_later",
    "C88_calms_partial",
    "C88_calms_refuted",
    "C88_difficulty_refuted",
    "C88_new",
    "C88_single_delta"
   ],
   "note": "Two parts are false: after two failures the best grade makes an exercise more urgent, because it lowers the estimated difficulty with which the whole history is replayed; and the difficulty reverts to 5 instead of the estimate (exercise_scorer.rs:375), so an exercise that only got best grades becomes harder. The urgency part is proved for exercises that were never failed."
  },
  {
   "property": "C89",
   "status": "partial",
   "theorems": [
    "C89_refuted",
    "C89_now_partial",
    "C89_newest_partial"
   ],
   "note": "False: a 3 instead of a 2 on the third of twelve days lowers the score seven weeks later, for every correctly rounded power function, because the estimated difficulty of the whole history changes. Proved at the time of the last trial for all better grades, and at all times for a better grade in the last trial that stays on the same side of 3 (with deltas that are not negative)."
  },
  {
   "property": "C90",
   "status": "partial",
   "theorems": [
    "C90_days",
    "C90_curve",
    "C90_estimate",
    "C90_first",
    "C90_step",
    "C90_average",
    "C90_blend_refuted",
    "C90_score"
   ],
   "note": "False in one point: the averages are blended 80/20 (exercise_scorer.rs:253), not 60/40 as documented (:218); a witness differs by more than 0.3. Proved step by step with the blend 80/20: each value is the formula of the values before it, with stated bounds of the error; the errors of all steps together are not bounded. The trend is compared with the exact slope in C99."
  },
  {
   "property": "C91",
   "status": "proved",
   "theorems": [
    "C91_reward",
    "C91_shown"
   ],
   "note": "Up to a stated error. No weight may be within 0.00001 of 0.05, where rounding decides whether the reward counts, and differences of times must not overflow."
  },
  {
   "property": "C92",
   "status": "proved",
   "theorems": [
    "C92_rate",
    "C92_frequency",
    "C92_relearn",
    "C92_graded",
    "C92_batches",
    "C92_returns",
    "C92_answers",
    "C92_lists",
    "C92_only"
   ],
   "note": "Requests whose filters name a lesson twice, or ask for the review list, may repeat exercises, and the review list may name blacklisted exercises (C28, C30). Returns: times below 2^62 seconds, only exercises are scored; that questions about units return needs that no unit is among those its score is computed from (C54). The size of batches is proved up to a batch size of a million."
  },
  {
   "property": "C93",
   "status": "partial",
   "theorems": [
    "C93_shares",
    "C93_whole_refuted",
    "C93_whole_partial",
    "C93_harder_refuted",
    "C93_harder_partial",
    "C93_quota",
    "C93_default_quotas_refuted",
    "C93_default_quotas_partial",
    "C93_default_quotas_short",
    "C93_mix"
   ],
   "note": "False in three points: accepted options have shares that add up to more than 1.1 after a good session; with a share above 50 percent a better session means fewer new exercises; and with the default options, a batch size that is a multiple of 10 and a success of 50 to 75 percent, the window of current exercises gets one exercise less than its 30 percent, for all such sizes up to a million, because 0.3 is rounded down. Proved otherwise, up to a million scores and a batch size of a million."
  },
  {
   "property": "C94",
   "status": "partial",
   "theorems": [
    "C94_sizes_refuted",
    "C94_limit",
    "C94_memory",
    "C94_agrees_partial"
   ],
   "note": "False: a search reserves memory for ten times the batch size before it starts (scheduler.rs:735-736), so a batch size of 2^60 in the preferences is accepted and makes every request without a filter panic, on every machine and with every library; smaller sizes abort the process for lack of memory. Proved: below the limit the machine words make no difference, which justifies the natural numbers of the other models. The memory that grows with the candidates found is not counted."
  },
  {
   "property": "C95",
   "status": "partial",
   "theorems": [
    "C95_stored",
    "C95_seen_refuted",
    "C95_seen_partial",
    "C95_range_refuted",
    "C95_range_partial",
    "C95_nonempty"
   ],
   "note": "False in two points, for every power function: recording trials directly (lib.rs:567-572) does not touch the caches, so an exercise that was asked about before keeps its old answer until it is invalidated or the library is opened again; and nothing checks the values, so that an infinite and a negative infinite trial give a score that is not a number. Proved for values in the ranges that scoring records; then batches are as in C92 and not empty if there is something to learn."
  },
  {
   "property": "C96",
   "status": "partial",
   "theorems": [
    "C96_progress_partial",
    "C96_superseded_refuted"
   ],
   "note": "False when a course is superseded (witness: a course that depends on it is unlocked but never reached). Proved without superseded courses, for libraries in which nothing waits for itself or hides behind a first lesson, and for scores of units that agree with those of their parts."
  },
  {
   "property": "C97",
   "status": "partial",
   "theorems": [
    "C97_whole_partial",
    "C97_rounding_refuted"
   ],
   "note": "False for the default options: a course of three lessons with exactly 1.8 trials on average each has an average just below 1.8 (witness, with the search that then offers only passed lessons). Proved for whole thresholds, so with the default options when lessons have two trials on average."
  },
  {
   "property": "C98",
   "status": "partial",
   "theorems": [
    "C98_endless_refuted",
    "C98_fails_refuted",
    "C98_checked_partial",
    "C98_no_units_partial",
    "C98_gives_partial"
   ],
   "note": "False in two points: with three accepted courses without manifests, two of which depend on each other, every request without a filter runs for ever (scheduler.rs:223-237), because the calls do not check for circles; and an exercise that is added to a lesson has no manifest, so that a request that selects it fails. Proved: requests return if the check for circles passes, and without it if no units are added; in that case they also give a batch. For histories that add units, only returning is proved."
  },
  {
   "property": "C99",
   "status": "partial",
   "theorems": [
    "C99_slope_partial",
    "C99_direction",
    "C99_few",
    "C99_same_moment",
    "C99_equal_grades_refuted",
    "C99_quick_refuted"
   ],
   "note": "Proved with a stated bound of the rounding error for 2 to 100 trials over at least a minute; the direction is right when the line rises or falls by length^2/25000 over the trials. False without allowance for rounding: three grades of 5 have a falling trend of -0.00004 a day. False within half a minute: the denominator is below f32::EPSILON (exercise_scorer.rs:435) and a rise from 1 to 5 counts as no change. Missing: more than 100 trials."
  },
  {
   "property": "C100",
   "status": "partial",
   "theorems": [
    "C100_knocked_out_refuted",
    "C100_batch_partial",
    "C100_request_partial"
   ],
   "note": "False for knocked out reviews: twenty mastered exercises of two courses that encompass each other are all left out, whatever the draw. Proved for every candidate whose score lies in a window and that is not both mastered and covered ten times by others, in a batch and in a whole request to an opened library; the review list and filters that name a lesson twice are left out, and the probability is not modelled, only that a draw exists."
  },
  {
   "property": "C101",
   "status": "partial",
   "theorems": [
    "C101_unlocked_refuted",
    "C101_reach_partial",
    "C101_lifetime_partial"
   ],
   "note": "False if everything unlocked is meant: a lesson behind a forgotten lesson is not offered although its own dependency is passed. Proved, in both directions, for what is within reach by the stated rules, with opened libraries, for any answers of the stores and for every lifetime of an opened library; averages that pass in one order of summation and fail in another are the only gap between the two directions. Filters are left out, as are options with which nothing of a passed lesson is offered."
  },
  {
   "property": "C102",
   "status": "partial",
   "theorems": [
    "C102_unlocked_refuted",
    "C102_filter_partial",
    "C102_lifetime_partial"
   ],
   "note": "False if every unlocked lesson of a course is meant: a lesson behind a forgotten lesson is not offered. Proved for every kind of filter, in both directions, with what is within reach by the stated rules, for any answers of the stores and for every lifetime of an opened library. Averages that pass in one order of summation and fail in another are the only gap between the directions. A lesson that is named among the courses of a course filter is left out. Options with which nothing of a passed lesson is offered are left out of the theorem."
  },
  {
   "property": "C103",
   "status": "proved",
   "theorems": [
    "C103_comes_up",
    "C103_found"
   ],
   "note": "What is within reach is that of C101, in whatever order scores are added up. Assumes that the passing options are numbers with which some of a passed lesson is offered, that the empty name is not blacklisted, and that what was recorded directly has the values of scores. The review list and filters that name a lesson twice are left out. That a draw exists is proved; probabilities are not modelled."
  },
  {
   "property": "C104",
   "status": "partial",
   "theorems": [
    "C104_opens",
    "C104_again",
    "C104_keeps",
    "C104_resumes",
    "C104_newer",
    "C104_other_kind_refuted"
   ],
   "note": "The last sentence is false: a blacklist in the place of the review list opens without an error, because only the number of migrations is compared, and then every call about the review list fails (witness). The rest is proved for every sequence of releases that know the first migrations of today. That SQLite runs the statements and transactions as documented, and rusqlite_migration the missing steps in one transaction, is assumed."
  },
  {
   "property": "C105",
   "status": "partial",
   "theorems": [
    "C105_round_trip_partial",
    "C105_unreadable",
    "C105_missing",
    "C105_weight_refuted"
   ],
   "note": "Proved for courses without generators whose weights are numbers and whose relative paths name assets of the same directory, for every way of writing numbers that can be read again exactly. False otherwise: a course with a weight that is not a number, with passages of music more than 62 levels deep or with a relative path that leads nowhere is written without an error and then nothing can be opened. Names .. in paths are not resolved."
  },
  {
   "property": "C106",
   "status": "partial",
   "theorems": [
    "C106_part_partial",
    "C106_whole_refuted"
   ],
   "note": "The first sentence is false: manifests are written before what belongs to them, so that a library opens without an error with a lesson whose exercise was not written yet (witness). The second is proved for every point of interruption and for courses without generators whose weights are numbers: the other courses are as before, and of the new one there are some lessons with some of their exercises, each as given. Files are written character by character and in order; what a file system may lose after a power failure is not modelled."
  },
  {
   "property": "C107",
   "status": "partial",
   "theorems": [
    "C107_generates",
    "C107_opens_partial",
    "C107_circle_refuted"
   ],
   "note": "False if a lesson of another course names a dictation lesson as its dependency and is itself one of the lesson that is dictated: without dictation the name leads nowhere and the library opens, with it the circle closes (witness). Proved for all libraries in which no manifest mentions a dictation lesson by its full name."
  }
 ]
}