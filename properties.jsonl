{"id": "C01", "title": "Graph relations are mutual inverses", "statement": "After any history of graph mutations (successful or failed), unit D is listed as a dependency of U exactly when U is listed as a dependent of D; U supersedes S exactly when S is superseded by U; U encompasses E with weight w exactly when E is encompassed by U with weight w; and a lesson is listed in a course exactly when the course is the lesson's course, likewise an exercise in a lesson.", "quantifier": "every finite sequence of unit-graph operations with arbitrary unit identifiers, lists and weights, starting from the empty graph", "why_tests_cant": "The scheduler walks both directions of each relation; a test fixes one library, while the agreement must hold after every possible sequence of insertions, including those that return an error half way.", "anchors": ["src/graph.rs: InMemoryUnitGraph, UnitGraph::add_dependencies, add_encompassed, add_superseded, add_lesson, add_exercise, get_dependents, get_supersedes"]}
{"id": "C02", "title": "A unit keeps its type for ever", "statement": "Once a unit identifier has been registered as a course, lesson or exercise, no later sequence of operations changes or forgets its type, and re-adding it as a lesson or exercise is rejected.", "quantifier": "every history of graph operations and every unit identifier", "why_tests_cant": "Needs an invariant over unbounded operation sequences, not a fixed script.", "anchors": ["src/graph.rs: update_unit_type, add_course_helper, add_lesson_helper, add_exercise_helper, get_unit_type"]}
{"id": "C03", "title": "Cycle check accepts exactly the acyclic graphs", "statement": "check_cycles succeeds if and only if the dependency, supersedes and encompassing relations contain no directed cycle; a graph built through the API is never rejected for an inconsistent reverse map.", "quantifier": "every graph reachable through the API and every iteration order of its hash maps and sets", "why_tests_cant": "The number of graphs and of hash iteration orders is unbounded; a missed cycle makes the scheduler loop or starve, a false alarm makes a valid library impossible to open.", "anchors": ["src/graph.rs: check_graph_cycles, check_cycles_helper, check_cycles"]}
{"id": "C04", "title": "Cycle check terminates", "statement": "check_cycles always returns: the number of paths popped from its work list is finite and bounded by a function of the graph, even when the graph is cyclic.", "quantifier": "every finite graph, cyclic or not, and every iteration order", "why_tests_cant": "Termination cannot be observed by running.", "anchors": ["src/graph.rs: check_graph_cycles"]}
{"id": "C05", "title": "Dropping a redundant encompassing graph is invisible", "statement": "When no manifest lists explicitly encompassed units, telling the graph that the encompassing relation equals the dependency relation (which deletes the stored encompassing maps) does not change, as a set of weighted edges, what get_encompasses and get_encompassed_by return for any unit.", "quantifier": "every library whose manifests list no encompassed units, every order in which it is loaded, and every unit", "why_tests_cant": "An equivalence of two representations over all libraries; a test compares a handful of units.", "anchors": ["src/graph.rs: set_encompasing_equals_dependency, get_encompasses, get_encompassed_by, add_encompassed_helper", "src/course_library.rs: process_results"]}
{"id": "C06", "title": "Encompassing weights stay in [0, 1]", "statement": "Every weight returned by get_encompasses or get_encompassed_by is a number between 0.0 and 1.0 inclusive and never NaN.", "quantifier": "every history of graph operations with arbitrary single-precision weights including NaN and infinities", "why_tests_cant": "All 2^32 float bit patterns in every operation history.", "anchors": ["src/graph.rs: add_encompassed_helper, get_encompasses, get_encompassed_by"]}
{"id": "C07", "title": "Failed graph operations leave the graph unchanged", "statement": "When add_course, add_lesson, add_exercise, add_dependencies, add_encompassed or add_superseded returns an error, every query on the graph gives the same answer as before the call.", "quantifier": "every reachable graph and every failing call", "why_tests_cant": "Requires comparing all observations before and after every possible failure.", "anchors": ["src/graph.rs: add_lesson_helper, add_exercise_helper, add_dependencies_helper, add_encompassed_helper, update_unit_type"]}
{"id": "C08", "title": "Dependency sinks are the units with nothing before them", "statement": "After a library has been loaded, the dependency sinks, from which an unfiltered search starts, are exactly the courses of the library and the missing units named as dependencies that have no dependencies themselves and are not lessons of a course, except courses one of whose starting lessons has dependencies that are all in the library (such a course is reached from those dependencies).", "quantifier": "every library (set of manifests) and every order in which its courses and lessons are processed", "why_tests_cant": "Depends on the interleaving of insertions; tests run one order.", "anchors": ["src/graph.rs: update_dependency_sinks, add_dependencies_helper, update_starting_lessons, get_dependency_sinks", "src/course_library.rs: process_results"]}
{"id": "C09", "title": "Starting lessons of a course", "statement": "After loading, the starting lessons of a course are exactly the lessons of the course none of whose dependencies is a lesson of the same course.", "quantifier": "every loaded library and every course", "why_tests_cant": "Quantifies over all libraries.", "anchors": ["src/graph.rs: update_starting_lessons, get_starting_lessons"]}
{"id": "C10", "title": "A course that passes a metadata filter lets all its lessons pass", "statement": "If a key-value filter accepts a course by its metadata alone, then it accepts every lesson of that course, whatever the lesson's own metadata.", "quantifier": "every filter tree of any depth, every course metadata and every lesson metadata", "why_tests_cant": "Unbounded filter trees; the scheduler relies on the implication when it skips checking lessons one by one.", "anchors": ["src/data/filter.rs: KeyValueFilter::apply_to_course, apply_to_lesson", "src/scheduler/data.rs: unit_passes_filter"]}
{"id": "C11", "title": "Metadata filters mean boolean formulas", "statement": "Applied to a lesson, a key-value filter evaluates exactly the boolean formula it spells: include/exclude tests membership of the value under the key in the right manifest, All is conjunction and Any is disjunction over the listed filters.", "quantifier": "every filter tree and all metadata", "why_tests_cant": "Denotational equivalence over an infinite syntax.", "anchors": ["src/data/filter.rs: FilterType::apply, KeyValueFilter::passes_filter, apply_to_lesson"]}
{"id": "C12", "title": "Study session part selection", "statement": "A study session with parts of d1..dn minutes uses, m minutes after its start, the i-th part when d1+..+d(i-1) <= m < d1+..+di, the first part if the start lies in the future, and the last part once the session has ended.", "quantifier": "every session, every start time and every current time", "why_tests_cant": "Includes overflow of the minute counters, which only appears at extreme durations.", "anchors": ["src/data/filter.rs: StudySessionData::get_part, SessionPart::duration"]}
{"id": "C13", "title": "Score history returns the newest trials first", "statement": "get_scores(exercise, n) returns the n most recent recorded trials of that exercise (all of them when fewer exist), newest first, and nothing recorded for other exercises, after any history of record, trim and prefix-removal calls.", "quantifier": "every history of score-store calls, every exercise, every n", "why_tests_cant": "History- and data-dependent; includes ties and unordered recording times.", "anchors": ["src/practice_stats.rs: record_exercise_scores_helper, get_scores_helper, trim_scores_helper, remove_scores_with_prefix_helper"]}
{"id": "C14", "title": "Trimming keeps exactly the newest n entries", "statement": "trim_scores(n), trim_deltas(n) and trim_rewards(n) leave, for each unit, exactly min(n, number of entries) entries and these are the most recent.", "quantifier": "every store content and every n", "why_tests_cant": "Equal timestamps make the difference and are rarely generated by tests.", "anchors": ["src/practice_stats.rs: trim_scores_helper", "src/practice_deltas.rs: trim_deltas_helper", "src/practice_rewards.rs: trim_rewards_helper"]}
{"id": "C15", "title": "Prefix removal removes exactly the units with that prefix", "statement": "remove_scores_with_prefix, remove_deltas_with_prefix, remove_rewards_with_prefix and remove_prefix_from_blacklist delete the data of every unit whose identifier starts with the given prefix and of no other unit.", "quantifier": "every prefix and every set of stored unit identifiers", "why_tests_cant": "The pattern language of the database gives special meaning to some characters, which example identifiers do not contain.", "anchors": ["src/practice_stats.rs: remove_scores_with_prefix_helper", "src/practice_rewards.rs: remove_rewards_with_prefix_helper", "src/practice_deltas.rs: remove_deltas_with_prefix_helper", "src/blacklist.rs: remove_prefix_from_blacklist_helper"]}
{"id": "C16", "title": "Blacklist answers agree with the stored entries", "statement": "After any history of add, remove, prefix-remove and query calls, blacklisted(u) is true exactly when u is among get_blacklist_entries(), entries never contains duplicates, every call succeeds, and closing and reopening the blacklist preserves both answers.", "quantifier": "every history of blacklist calls including reopen at any point", "why_tests_cant": "A write-through cache must stay coherent in every interleaving.", "anchors": ["src/blacklist.rs: LocalBlacklist::new, has_entry, add_to_blacklist_helper, remove_from_blacklist_helper, remove_prefix_from_blacklist_helper, all_blacklist_entries_helper"]}
{"id": "C17", "title": "The review list is a set", "statement": "After any history, the review list holds exactly the units added and not removed since, each once, in order of insertion.", "quantifier": "every history of review list calls", "why_tests_cant": "Unbounded histories.", "anchors": ["src/review_list.rs: LocalReviewList"]}
{"id": "C18", "title": "Reward store stays bounded and reports what it wrote", "statement": "After any history the reward store holds at most 20 rewards per unit, these are the most recent ones written, and record_unit_rewards returns exactly the units for which a reward was written in that call.", "quantifier": "every history of reward-store calls", "why_tests_cant": "Unbounded histories and data-dependent skipping.", "anchors": ["src/practice_rewards.rs: RewardCache, record_unit_rewards_helper, get_rewards_helper"]}
{"id": "C19", "title": "Rewards are only dropped when a similar stored reward exists", "statement": "record_unit_rewards skips a reward only if the store still holds, for the same unit, a reward of equal value, with weight closer than 0.1 and recorded less than a day apart.", "quantifier": "every history of reward-store calls", "why_tests_cant": "The in-memory cache and the database are updated separately; they must agree in all histories.", "anchors": ["src/practice_rewards.rs: RewardCache::has_similar_reward, record_unit_rewards_helper, remove_rewards_with_prefix_helper, trim_rewards_helper"]}
{"id": "C20", "title": "Exercise scores are always valid", "statement": "Whenever the trials are given newest first the exercise scorer succeeds, its score is a number in [0, 5], its urgency is in [0, 1], and neither is NaN.", "quantifier": "every list of trials with mastery scores 1 to 5 and arbitrary 64-bit timestamps, both exercise types, every current time, every base difficulty in range", "why_tests_cant": "All float rounding and clock skews (timestamps in the future) are covered at once.", "anchors": ["src/exercise_scorer.rs: PowerLawScorer, ExerciseScorer::score, compute_retrievability, compute_stability, compute_weighted_avg"]}
{"id": "C21", "title": "Trials out of order are rejected", "statement": "The exercise scorer returns an error exactly when some trial is older than the one listed after it; histories returned by the score store are never rejected.", "quantifier": "every trial list and every score-store history", "why_tests_cant": "Composition of two components over all histories.", "anchors": ["src/exercise_scorer.rs: score", "src/practice_stats.rs: get_scores_helper"]}
{"id": "C22", "title": "Stability and difficulty stay in their ranges", "statement": "During the replay of a history the memory stability stays within [0.5, 730] days and the difficulty within [1, 10], whatever the order of successes and failures.", "quantifier": "every trial history and any behaviour of the power function that respects its sign and range", "why_tests_cant": "Invariant of an unbounded float iteration.", "anchors": ["src/exercise_scorer.rs: apply_stability_transition, update_difficulty, compute_stability, estimate_difficulty"]}
{"id": "C23", "title": "Rewards never lift or lower a unit without evidence", "statement": "The reward of a unit with no rewards is 0, the reward of a unit is in [-1, 1] and has the sign of the stored rewards when they agree, and applying rewards to an exercise score is skipped unless the documented conditions hold.", "quantifier": "every list of rewards and every trial history", "why_tests_cant": "Float sums of arbitrary length.", "anchors": ["src/reward_scorer.rs: WeightedRewardScorer::score_rewards, apply_reward"]}
{"id": "C24", "title": "Weighted averages are bounded by their inputs", "statement": "A weighted average of values with non-negative weights lies between the smallest and the largest value, and is 0 for no values.", "quantifier": "every list of value/weight pairs", "why_tests_cant": "Unbounded list length.", "anchors": ["src/utils.rs: weighted_average", "src/scheduler/unit_scorer.rs: get_lesson_score, get_course_score"]}
{"id": "C25", "title": "Accepted options give every score exactly one mastery window", "statement": "If scheduler options pass verification, every score between 0 and 5 lies in exactly one of the five mastery windows; the default options pass verification and have this property.", "quantifier": "every options record accepted by verify and every single-precision score in [0, 5]", "why_tests_cant": "Quantifies over all floats, including NaN fields and windows that differ by less than the comparison tolerance.", "anchors": ["src/data.rs: SchedulerOptions::verify, MasteryWindow::in_window, SchedulerOptions::default"]}
{"id": "C26", "title": "Numeric mastery scores round-trip", "statement": "Converting a mastery score to its float value and back returns the same score, and every float that is not within tolerance of 1, 2, 3, 4 or 5 is rejected.", "quantifier": "every mastery score and every float", "why_tests_cant": "All float values.", "anchors": ["src/data.rs: MasteryScore::float_score, TryFrom<f32> for MasteryScore"]}
{"id": "C27", "title": "Batches contain no blacklisted material", "statement": "No exercise that is blacklisted, or whose lesson or course is blacklisted, is ever returned in an exercise batch.", "quantifier": "every library, blacklist, practice history, filter, random seed and options", "why_tests_cant": "Depends on graph shape, filter and randomness.", "anchors": ["src/scheduler.rs: get_exercise_batch, get_initial_candidates, get_candidates_from_graph, get_candidates_from_review_list", "src/scheduler/data.rs: all_valid_exercises_in_lesson, all_valid_exercises"]}
{"id": "C28", "title": "Batches contain no repeated exercise", "statement": "An exercise batch never contains the same exercise twice.", "quantifier": "every library, filter, relearn pile and random choice", "why_tests_cant": "The batch is merged from several random samples and a separate relearn pile.", "anchors": ["src/scheduler.rs: get_exercise_batch, candidates_to_exercises", "src/scheduler/filter.rs: filter_candidates", "src/scheduler/relearn_pile.rs: select_exercises"]}
{"id": "C29", "title": "Batch size is bounded", "statement": "A batch has at most the number of exercises derived from the configured batch size and the number of candidates, and is non-empty whenever a candidate exists.", "quantifier": "every candidate list, options and random choice", "why_tests_cant": "Float rounding of percentages and random selection.", "anchors": ["src/scheduler/filter.rs: dynamic_batch_size, filter_candidates, add_remainder, select_candidates"]}
{"id": "C30", "title": "Locked material stays locked", "statement": "An unfiltered search only offers exercises of lessons that are reachable from the starting units through units whose dependencies are all satisfied (missing, blacklisted, superseded, or scored at or above the passing threshold).", "quantifier": "every library, every score assignment and every shuffle", "why_tests_cant": "All graphs and random traversal orders.", "anchors": ["src/scheduler.rs: get_candidates_from_graph_helper, all_satisfied_dependencies, get_valid_dependents, satisfied_dependency"]}
{"id": "C31", "title": "The search terminates", "statement": "The candidate search returns for every library accepted by the cycle check, every filter, every score assignment and every shuffle.", "quantifier": "every loaded library and all random choices", "why_tests_cant": "Termination cannot be observed by running; nodes are re-pushed and courses are visited several times.", "anchors": ["src/scheduler.rs: get_candidates_from_graph_helper, get_all_starting_units, skip_course, skip_lesson"]}
{"id": "C32", "title": "Final shuffle only reorders the batch", "statement": "The batch shuffler returns a permutation of its input, keeps exercises with a score above the target window as singletons, and keeps low-scored exercises of one course in runs of at most three.", "quantifier": "every batch and every random choice", "why_tests_cant": "All permutations and random keys.", "anchors": ["src/scheduler/shuffler.rs: CandidateShuffler::shuffle"]}
{"id": "C33", "title": "Relearn pile follows the last score", "statement": "An exercise is in the relearn pile exactly when its most recent recorded score was one or two and no batch since then found it blacklisted; the pile contributes at most the configured share of a batch and never a blacklisted exercise.", "quantifier": "every sequence of recorded scores", "why_tests_cant": "Unbounded histories.", "anchors": ["src/scheduler/relearn_pile.rs: update, select_exercises"]}
{"id": "C34", "title": "Reward propagation terminates and fades", "statement": "Scoring an exercise propagates finitely many rewards, each of which has the sign of the initial reward, an absolute value no greater than it, and a weight in (0, 1]; no reward weaker than the documented thresholds is emitted, and each reached unit gets at most one reward per direction.", "quantifier": "every graph including cyclic ones, every score, every iteration order", "why_tests_cant": "Termination and the bound hold for all graphs.", "anchors": ["src/scheduler/reward_propagator.rs: propagate_rewards_helper, propagate_rewards, initial_reward, stop_propagation"]}
{"id": "C35", "title": "Cached unit scores match a fresh computation", "statement": "After any history of scoring, blacklisting and rewards, a cached score of an exercise, lesson or course equals what would be computed from the stores with an empty cache at the same moment.", "quantifier": "every history of Trane calls", "why_tests_cant": "Cache coherence over all histories.", "anchors": ["src/scheduler/unit_scorer.rs: get_unit_score, invalidate_cached_score, invalidate_cached_scores_with_prefix", "src/lib.rs: Trane::remove_scores_with_prefix, record_unit_rewards"]}
{"id": "C36", "title": "New scheduler options take effect", "statement": "After set_scheduler_options(o), subsequent batches are selected with o (batch size, mastery windows, relearn fraction).", "quantifier": "every options record and state", "why_tests_cant": "Several components hold copies of the options.", "anchors": ["src/scheduler.rs: DepthFirstScheduler::new, set_scheduler_options", "src/scheduler/filter.rs: CandidateFilter"]}
{"id": "C37", "title": "Knocked-out reviews are covered by others", "statement": "The review knocker only removes a candidate that is encompassed by other candidates above the documented threshold, never invents candidates, and keeps the order of the remaining ones.", "quantifier": "every candidate list and encompassing graph", "why_tests_cant": "All graphs and candidate lists.", "anchors": ["src/scheduler/review_knocker.rs: knock_out_reviews, compute_encompassing_map, remove_very_highly_encompassed"]}
{"id": "C38", "title": "Candidate share grows with the lesson score", "statement": "For a lesson with n candidate exercises the scheduler offers all of them when the score is at least 4.0 or below the passing score, otherwise at least one and at most all, and the offered exercises are distinct members of the lesson.", "quantifier": "every score, options and random choice", "why_tests_cant": "Float interpolation at every score.", "anchors": ["src/scheduler.rs: select_candidates"]}
{"id": "C39", "title": "Lessons in progress are limited", "statement": "Once the configured number of lessons in progress is reached, no exercises of further lessons in progress are added to the candidates.", "quantifier": "every graph, score assignment and shuffle", "why_tests_cant": "Depends on traversal order.", "anchors": ["src/scheduler.rs: extend_candidates, get_candidates_from_graph_helper"]}
{"id": "C40", "title": "The encompassing switch is forwarded", "statement": "Calling set_encompasing_equals_dependency through the Trane object has the same effect on later graph queries as calling it on the graph.", "quantifier": "every graph state", "why_tests_cant": "Delegation layers are rarely tested; the claim is about all later queries.", "anchors": ["src/lib.rs: impl UnitGraph for Trane"]}
{"id": "C41", "title": "Music piece courses are well-formed", "statement": "For any nested music passage, the generated course has exactly one lesson and one exercise per passage, all identifiers are distinct, every dependency names a generated lesson and the dependency relation is acyclic.", "quantifier": "every finite passage tree", "why_tests_cant": "Unbounded depth and width.", "anchors": ["src/data/course_generator/music_piece.rs: generate_lesson_id, generate_lesson_helper, generate_manifests"]}
{"id": "C42", "title": "Transcription courses are well-formed", "statement": "For any preferences and passages, the lessons generated by a transcription course have distinct identifiers, in-course dependencies name generated lessons, the dependency and supersedes relations are acyclic, and the skip flags remove exactly the lessons or exercises they name.", "quantifier": "every configuration, instrument list and passage list", "why_tests_cant": "Unbounded lists.", "anchors": ["src/data/course_generator/transcription.rs: generate_manifests, generate_exercise, generate_*_lesson"]}
{"id": "C43", "title": "Literacy courses are well-formed", "statement": "Every literacy lesson yields one reading lesson and, if enabled, one dictation lesson, with distinct identifiers; dictation lessons depend on their reading lesson; relations inside the course are translated to full identifiers and those outside are kept unchanged, except that dictation lessons drop dependencies outside the course.", "quantifier": "every lesson set and dependency list", "why_tests_cant": "Unbounded inputs.", "anchors": ["src/data/course_generator/literacy.rs: generate_manifests, generate_reading_lesson, generate_dictation_lesson"]}
{"id": "C44", "title": "Knowledge base file names determine their meaning", "statement": "Each file name is recognised as at most one kind of knowledge-base file; printing a kind and parsing it returns the same kind and short identifier; short identifiers of lessons in the same course are expanded to full identifiers and others are left alone.", "quantifier": "every file name and every set of lessons", "why_tests_cant": "All strings.", "anchors": ["src/data/course_generator/knowledge_base.rs: KnowledgeBaseFile::try_from, convert_to_full_ids, create_exercise, filter_matching_exercises"]}
{"id": "C45", "title": "Builders refuse to produce courses with missing files", "statement": "If an exercise, lesson or course builder succeeds, every file referred to by the written manifest exists on disk.", "quantifier": "every builder input", "why_tests_cant": "Universally quantified over manifests and file systems.", "anchors": ["src/course_builder.rs: ExerciseBuilder::build, LessonBuilder::build, CourseBuilder::build", "src/data.rs: VerifyPaths"]}
{"id": "C46", "title": "Opening a library is all or nothing and agrees with its manifests", "statement": "When opening a library succeeds, get_course_ids, get_lesson_ids and get_exercise_ids list exactly the manifests found, sorted and without duplicates, and the graph's dependencies, supersedes relations and types agree with the manifests; duplicate lesson or exercise identifiers make opening fail.", "quantifier": "every list of processed course manifests in every order", "why_tests_cant": "All libraries and processing orders.", "anchors": ["src/course_library.rs: process_results, get_course_ids, get_lesson_ids, get_exercise_ids, get_all_exercise_ids"]}
{"id": "C47", "title": "Serialized library round-trips", "statement": "Serializing a library's manifests and rebuilding the library from them yields the same manifests and the same graph answers.", "quantifier": "every library", "why_tests_cant": "All libraries.", "anchors": ["src/course_library.rs: SerializedCourseLibrary, LocalCourseLibrary::new_from_serialized"]}
{"id": "C48", "title": "Saved filters and study sessions are unambiguous", "statement": "A manager opened on a directory rejects two files with the same identifier; otherwise it lists each saved item once, sorted by identifier, and looking up a listed identifier returns that item.", "quantifier": "every list of files in every directory order", "why_tests_cant": "All directory contents and orders.", "anchors": ["src/filter_manager.rs: LocalFilterManager::scan_filters", "src/study_session_manager.rs: LocalStudySessionManager"]}
{"id": "C49", "title": "Mastering everything makes everything reachable", "statement": "In a library that passes the cycle check, when every exercise is mastered an unfiltered search considers every lesson that is not blacklisted.", "quantifier": "every library accepted at opening", "why_tests_cant": "Needs all shapes of dependency graphs; a lesson that silently never appears raises no error.", "anchors": ["src/graph.rs: update_starting_lessons, update_dependency_sinks", "src/scheduler.rs: get_initial_stack, get_candidates_from_graph_helper"]}
{"id": "C50", "title": "Accepted libraries have no unit waiting for itself", "statement": "A library accepted at opening has no course or lesson that can only be unlocked after itself, counting that a lesson waits for its course and a course dependency waits for the lessons of that course.", "quantifier": "every library accepted at opening", "why_tests_cant": "All dependency shapes.", "anchors": ["src/graph.rs: check_cycles", "src/scheduler.rs: satisfied_dependency, get_candidates_from_graph_helper"]}
{"id": "C51", "title": "Scoring an unknown exercise does no harm", "statement": "Recording a score for an identifier that is not an exercise of the library either fails or has no effect on later batches.", "quantifier": "every identifier, score and later batch", "why_tests_cant": "Needs all identifiers and all later calls; the failure shows only in a later call.", "anchors": ["src/scheduler.rs: score_exercise, candidates_to_exercises", "src/scheduler/relearn_pile.rs: update"]}
{"id": "C52", "title": "Selecting a batch never panics", "statement": "Once the candidates are found, a batch is selected without a panic: every candidate has a positive weight, so the weighted draw always succeeds.", "quantifier": "every list of candidates, any behaviour of the math library including NaN and infinities, every random choice", "why_tests_cant": "Needs all floating point values, including NaN and infinities.", "anchors": ["src/scheduler/filter.rs: candidate_cost, candidate_weight, select_candidates"]}
{"id": "C53", "title": "Batches respect the filter", "statement": "A batch requested with a course or lesson filter contains only exercises of those courses or lessons.", "quantifier": "every library, filter, history and random choice", "why_tests_cant": "Needs all histories: the relearn pile carries exercises from one batch to another.", "anchors": ["src/scheduler.rs: get_exercise_batch, get_initial_candidates", "src/scheduler/relearn_pile.rs: select_exercises"]}
{"id": "C54", "title": "Scoring a unit always returns", "statement": "Asking for the score of a course, lesson or exercise returns for every library accepted at opening.", "quantifier": "every library accepted at opening, every history of scores and every unit", "why_tests_cant": "Needs all superseding relations; the failure is an unbounded recursion.", "anchors": ["src/scheduler/unit_scorer.rs: get_unit_score, get_lesson_score, get_course_score, is_superseded"]}
{"id": "C55", "title": "A batch request does not fail on a usable library", "statement": "On a library accepted at opening, a request for a batch gives a batch and no error, whatever is on the blacklist, the review list and in the history of scores.", "quantifier": "every library, filter, blacklist, review list and history", "why_tests_cant": "Needs all combinations of lists with libraries that change between runs.", "anchors": ["src/scheduler.rs: get_exercise_batch, get_candidates_from_review_list, candidates_to_exercises"]}
{"id": "C56", "title": "Lessons of a locked course stay locked", "statement": "An unfiltered search offers no exercise of a course whose own dependencies are not satisfied.", "quantifier": "every library accepted at opening, every score assignment and blacklist", "why_tests_cant": "Needs all dependency shapes, in particular lessons that depend on lessons of other courses.", "anchors": ["src/scheduler.rs: get_candidates_from_graph_helper, get_valid_dependents, all_satisfied_dependencies"]}
{"id": "C57", "title": "Scores fade while nothing is practised", "statement": "With no new trial, the score of an exercise never rises as time passes.", "quantifier": "every history of trials and deltas and every pair of times", "why_tests_cant": "Needs all pairs of times; the failure is at one particular age.", "anchors": ["src/exercise_scorer.rs: score, apply_old_good_retrievability_floor, compute_retrievability"]}
{"id": "C58", "title": "Urgency grows while nothing is practised", "statement": "With no new trial, the urgency of an exercise never falls as time passes.", "quantifier": "every history of trials and every pair of times, any power function that falls where the true one does", "why_tests_cant": "Needs all histories and pairs of times, with rounding.", "anchors": ["src/exercise_scorer.rs: score, compute_retrievability"]}
{"id": "C59", "title": "Rewards do not depend on the order of loading", "statement": "The rewards that a score sends through the graph depend on the units and their encompassing relations, not on the order in which these were read.", "quantifier": "every graph, every order in which its units and relations are added or listed, every score", "why_tests_cant": "Needs all graphs and orders; the failure needs two paths of different length and weight.", "anchors": ["src/scheduler/reward_propagator.rs: propagate_rewards_helper", "src/graph.rs: add_encompassed, get_encompasses, get_encompassed_by"]}
{"id": "C60", "title": "Every reported score is in range in every history", "statement": "After any history of scores, blacklist changes and removals, on any day, with whatever is cached and whatever writes failed, the score reported for an exercise, lesson or course is between 0 and 5 and the urgency of an exercise between 0 and 1.", "quantifier": "every library accepted at opening with at most three million exercises in a lesson and lessons in a course, every history of calls, every time", "why_tests_cant": "Needs all histories: cached values, deltas and rewards of any age are combined in single precision.", "anchors": ["src/scheduler/unit_scorer.rs: get_unit_score, get_exercise_score", "src/exercise_scorer.rs: score", "src/reward_scorer.rs: score_rewards"]}
{"id": "C61", "title": "A score is recorded once or not at all", "statement": "A call that scores an exercise and succeeds adds exactly one trial, with the score and time given, to that exercise and to no other, and removes nothing; a call that fails leaves the stores as they were.", "quantifier": "every history of calls, every exercise and score, every point at which a write can fail", "why_tests_cant": "Needs all points of failure; three databases are written one after the other.", "anchors": ["src/scheduler.rs: score_exercise", "src/practice_stats.rs: record_exercise_scores", "src/practice_deltas.rs: record_exercise_deltas", "src/practice_rewards.rs: record_unit_rewards"]}
{"id": "C62", "title": "Knowledge bases are well-formed", "statement": "A knowledge base course has exactly one lesson for each lesson directory and exactly one exercise for each flashcard front in it; settings and exercise types are those of the files, relations inside the course are expanded and others kept, and all identifiers are distinct.", "quantifier": "every course directory and every order in which its entries are listed", "why_tests_cant": "Needs all directories and file names, in particular names that look alike.", "anchors": ["src/data/course_generator/knowledge_base.rs: KnowledgeBaseLesson::open_lesson, create_lesson, create_exercise, generate_manifests"]}
{"id": "C63", "title": "Literacy lessons contain what their files say", "statement": "A literacy lesson opens exactly when all its recognised files can be read; its examples and exceptions are those of the files, each with the answer of the same short identifier; the order in which the directory is listed makes no difference.", "quantifier": "every directory and every order in which it is listed", "why_tests_cant": "Needs all directories and orders: two loops over the same listing.", "anchors": ["src/data/course_generator/literacy.rs: LiteracyFile::try_from, create_lesson, open_lesson"]}
{"id": "C64", "title": "Opening a library survives interruptions", "statement": "Opening a library creates what is missing of its configuration directory and changes nothing that exists; if the process dies at any point of the first opening, the next one succeeds and gives the same result.", "quantifier": "every state of the directory and every point at which the process stops", "why_tests_cant": "Crash points between two system calls are not reachable from unit tests.", "anchors": ["src/lib.rs: Trane::init_config_directory, Trane::new_local", "src/preferences_manager.rs: LocalPreferencesManager"]}
{"id": "C65", "title": "Preferences are replaced atomically", "statement": "After set_user_preferences(p) succeeds, get_user_preferences returns p and no other file has changed; if the call is interrupted, the old or the new preferences can be read.", "quantifier": "every preferences value, every file state, every crash point", "why_tests_cant": "Crash points and all values.", "anchors": ["src/preferences_manager.rs: LocalPreferencesManager::set_user_preferences"]}
{"id": "C66", "title": "A successful build contains everything it was given", "statement": "If a course builder succeeds, every manifest and asset it was given is on disk with its contents, and apart from the directories they need nothing else was written; a build into a new directory with distinct names succeeds.", "quantifier": "every course builder and file system", "why_tests_cant": "All trees of lessons, exercises and assets.", "anchors": ["src/course_builder.rs: CourseBuilder::build, LessonBuilder::build, ExerciseBuilder::build, AssetBuilder::build"]}
{"id": "C67", "title": "A failed or interrupted build damages nothing else", "statement": "However a build ends, nothing outside the directory of the course has changed except for missing parent directories, and inside it each path is as before, a new directory or the start of a file to be written there.", "quantifier": "every course builder, file system and crash point", "why_tests_cant": "Crash points.", "anchors": ["src/course_builder.rs: CourseBuilder::build"]}
{"id": "C68", "title": "A knowledge base is opened as it was built", "statement": "If the knowledge base builder writes a course, opening the directory gives one lesson for each lesson of the builder and one exercise for each of its exercises, with the dependencies, superseded and encompassed units, metadata and types given; this holds if each exercise has a front and additional files do not have reserved names.", "quantifier": "every course builder, every state of the disk, every order in which directories are listed", "why_tests_cant": "Needs all builders and all names: one component writes file names that another one has to recognise.", "anchors": ["src/course_builder/knowledge_base_builder.rs: CourseBuilder::build, LessonBuilder::build, ExerciseBuilder::build", "src/data/course_generator/knowledge_base.rs: open_lesson, generate_manifests"]}
{"id": "C69", "title": "A simple knowledge base can be built again", "statement": "Building a simple knowledge base from its configuration, in a new directory or over an earlier version, leaves a course with exactly the lessons and exercises of the configuration; building it again changes nothing; an invalid configuration is refused before anything is written; an interruption leaves the old or the new version of each lesson.", "quantifier": "every configuration, every earlier state of the directory, every crash point", "why_tests_cant": "Needs all earlier states and crash points.", "anchors": ["src/course_builder/knowledge_base_builder.rs: SimpleKnowledgeBaseCourse::build, SimpleKnowledgeBaseLesson::generate_lesson_builder, SimpleKnowledgeBaseExercise::generate_exercise_builder"]}
{"id": "C70", "title": "The picture of the graph shows the graph", "statement": "generate_dot_graph gives one node for every course and every lesson and an arrow exactly from each unit to the units that depend on it and from each course to its starting lessons, each once; with courses_only it shows the courses and the arrows between them; the text is the same whatever the hash order, and the nodes and arrows can be read off it.", "quantifier": "every history of graph operations, every hash order, every identifier", "why_tests_cant": "Needs all graphs and all identifiers; the tests compare the text of one graph.", "anchors": ["src/graph.rs: InMemoryUnitGraph::generate_dot_graph", "src/lib.rs: Trane::generate_dot_graph"]}
{"id": "C71", "title": "Scores of lessons and courses are averages of their parts", "statement": "The score of a lesson is the average of the scores of its exercises outside the blacklist, the score of a course is the average of the scores of its lessons that have one, and the average number of trials of a unit is computed from the same parts; a unit that is blacklisted or superseded has no score. This does not depend on hash orders or on what was asked before.", "quantifier": "every library, every history of trials and blacklist, every hash order, every sequence of earlier questions", "why_tests_cant": "Needs all libraries and all orders in which cached answers were produced; the equations are mutual through superseding units.", "anchors": ["src/scheduler/unit_scorer.rs: get_lesson_score, get_course_score, get_lesson_num_trials, get_course_num_trials, is_superseded, replace_superseding"]}
{"id": "C72", "title": "A unit is superseded only by mastered units", "statement": "A unit loses its score and its place in batches to the units that supersede it only if its exercises were practised and every one of those units has a score of at least the superseding score.", "quantifier": "every library and every history of trials and blacklist changes", "why_tests_cant": "Needs all combinations of superseding units with and without scores.", "anchors": ["src/scheduler/unit_scorer.rs: is_superseded, replace_superseding, get_superseding_recursive"]}
{"id": "C73", "title": "Opening a library finds exactly the courses on disk", "statement": "A library that is opened contains exactly the courses whose manifests are in directories below its root at any depth, each with the lessons of the directories in it and those of its generator, and each lesson with the exercises of the directories in it; it opens exactly if all of them can be read, name their parents, refer to existing files and fit together; the order in which directories are listed does not matter.", "quantifier": "every state of the disk, every order in which directories are listed", "why_tests_cant": "Needs all directory trees and listing orders.", "anchors": ["src/course_library.rs: LocalCourseLibrary::new, open_course, process_course_manifest, process_lesson_manifest, verify_exercise_manifest, verify_lesson_manifest"]}
{"id": "C74", "title": "Ignored paths are left out and nothing else", "statement": "The courses of an opened library are those on disk except for the ones at or below the ignored paths of the preferences, which are absolute or relative to the root of the library.", "quantifier": "every state of the disk, every list of ignored paths, absolute and relative roots", "why_tests_cant": "Needs all combinations of absolute and relative paths; the tests use absolute roots.", "anchors": ["src/course_library.rs: LocalCourseLibrary::new", "src/data.rs: UserPreferences::ignored_paths"]}
{"id": "C75", "title": "A course that was built can be opened", "statement": "After a course builder has succeeded in a library that can be opened, the library can still be opened and has the new course, as described by the builder, next to the courses it had.", "quantifier": "every course builder, every state of the disk", "why_tests_cant": "Needs all builders and all libraries: it connects two components that only share file names.", "anchors": ["src/course_builder.rs: CourseBuilder::build", "src/course_library.rs: LocalCourseLibrary::new", "src/data.rs: NormalizePaths"]}
{"id": "C76", "title": "Relative library roots are resolved against the working directory", "statement": "Opening a library with a relative root does what opening the same root below the working directory does: the courses are read from there and the user data are stored there.", "quantifier": "every working directory, every directory of the process, every state of the disk", "why_tests_cant": "Needs the directory of the process to differ from the one given; tests run with absolute paths.", "anchors": ["src/lib.rs: Trane::new_local"]}
{"id": "C77", "title": "Preferences that are accepted do not prevent opening", "statement": "After the preferences of an open library have been changed, the library opens again with the same units and the new batch size.", "quantifier": "every library, every batch size", "why_tests_cant": "Needs all states of the disk and all preferences.", "anchors": ["src/lib.rs: Trane::new_local, Trane::create_scheduler_options", "src/preferences_manager.rs: set_user_preferences", "src/data.rs: SchedulerOptions::verify"]}
{"id": "C78", "title": "A library can be copied or moved", "statement": "The copy of a library that a benchmark makes has exactly the files of the original and changes nothing else, and a library opened from another place has the same units.", "quantifier": "every library, every state of the disk, every two places, every order of directory listings", "why_tests_cant": "Needs all directory trees and all orders in which a directory is listed.", "anchors": ["src/benchmark.rs: Benchmark::copy_library_dir", "src/course_library.rs: LocalCourseLibrary::new"]}
{"id": "C79", "title": "A benchmark that verifies can be run", "statement": "If the benchmark verifies, each simulated student gives a score at every trial: the lapse score after stable performance, and otherwise a score with a positive probability at that trial, which is the given one at first and from the stable trial on.", "quantifier": "every verified profile, every trial number, all random numbers", "why_tests_cant": "Rounding and all random numbers are involved; tests use profiles with a single possible score.", "anchors": ["src/benchmark.rs: verify_probs, Benchmark::interpolate_performance, Benchmark::get_score, Benchmark::verify"]}
{"id": "C80", "title": "A benchmark reports what was simulated", "statement": "A simulation ends; the reported exercises are those scored, each completed session has the configured number of them, time increases from each to the next, each score is drawn for the number of trials of that exercise so far, and mastery is reported only if every course has reached the threshold.", "quantifier": "every profile, every library and scheduler, all random numbers", "why_tests_cant": "Needs all batches a scheduler may return and all lengths of simulations; tests run one small library.", "anchors": ["src/benchmark.rs: Benchmark::simulate_student, Benchmark::check_mastery, Benchmark::session_timestamp, Benchmark::exercise_timestamp"]}
{"id": "C81", "title": "Everything that is saved can be read again", "statement": "The preferences, the manifests of courses, lessons and exercises, the saved filters and study sessions and the files of transcriptions are read again as they were saved, whether they are written in one line or in several.", "quantifier": "every value that the types allow", "why_tests_cant": "Texts with any characters, any nesting and any numbers are involved; tests save a few values.", "anchors": ["src/data.rs: ExerciseManifest, LessonManifest, CourseManifest, UserPreferences", "src/data/filter.rs: KeyValueFilter, UnitFilter, SavedFilter, StudySession", "src/data/course_generator/music_piece.rs: MusicPassage", "src/preferences_manager.rs", "src/filter_manager.rs: LocalFilterManager::new"]}
{"id": "C82", "title": "A file that was cut off is never read as other data", "statement": "If writing the preferences, a manifest, a filter or a session is interrupted anywhere, what is on the disk is read as the value that was written, or reading it is an error.", "quantifier": "every value, every number of bytes that were written", "why_tests_cant": "Needs all the points at which the writing of all values can stop.", "anchors": ["src/preferences_manager.rs: set_user_preferences", "src/lib.rs: Trane::init_config_directory", "src/course_builder.rs: CourseBuilder::build"]}
{"id": "C83", "title": "Files written by hand are read as documented", "statement": "In a manifest, the preferences or a study session, fields can be in any order, fields with a default can be left out and unknown fields are ignored. Without one of the other fields, or with a field given twice, the file is not read.", "quantifier": "every value, every order and choice of fields, every further field", "why_tests_cant": "Needs all the ways in which a file can be written.", "anchors": ["src/data.rs: serde attributes of the manifests and the preferences", "src/data/filter.rs: StudySession"]}
{"id": "C84", "title": "Threads that share a library never block each other for ever", "statement": "When several threads share a library and make any of the calls that do not need exclusive access, they never all wait for each other: every call returns. A thread that has the library to itself never blocks.", "quantifier": "every number of threads, every list of calls of each thread, every schedule of their steps", "why_tests_cant": "A deadlock needs one rare interleaving; tests run on one thread.", "anchors": ["src/lib.rs: Trane", "src/scheduler.rs: DepthFirstScheduler::get_candidates_from_review_list", "src/scheduler/data.rs: SchedulerData::increment_exercise_frequency"]}
{"id": "C85", "title": "A library can be shared by threads", "statement": "The library is declared to be safe to share (`Sync`): no two threads ever use one of its caches at the same time, one of them for writing, and one thread never borrows a cache that it is already changing.", "quantifier": "every number of threads, every list of calls of each thread, every schedule of their steps", "why_tests_cant": "A data race is undefined behaviour that appears only in some schedules; tests run on one thread.", "anchors": ["src/lib.rs: unsafe impl Send for Trane, unsafe impl Sync for Trane", "src/scheduler/unit_scorer.rs: UnitScorer"]}
{"id": "C86", "title": "Calls of threads have the effect of some order of them", "statement": "Scores that are given and asked by several threads at once have the effect of giving and asking them one after the other in some order; in particular each accepted score is stored exactly once, and the score that is shown afterwards is the one that follows from what is stored.", "quantifier": "every number of threads, every schedule of their steps, every state of the stores and caches", "why_tests_cant": "The overlap of a question and a score takes microseconds; tests run on one thread.", "anchors": ["src/scheduler.rs: DepthFirstScheduler::score_exercise", "src/scheduler/unit_scorer.rs: UnitScorer::get_exercise_score, UnitScorer::get_exercise_num_trials, UnitScorer::invalidate_cached_score"]}
{"id": "C87", "title": "The weight of an exercise in a draw follows the documented measures", "statement": "When the scheduler draws exercises, an exercise never has a smaller weight than another if it is at least as urgent, as deep and as fast improving, covers at least as much of the other exercises, is covered no more by them, was scheduled no more often and is a dead end if the other one is. Since the cost is limited the weight is at least a tenth of the urgency and at most five times the urgency or 0.05.", "quantifier": "every pair of candidates, every history of trials, every implementation of ln_1p, exp and sqrt that is monotone and in range", "why_tests_cant": "Nine measures are combined with rounding; a test compares a few candidates.", "anchors": ["src/scheduler/filter.rs: CandidateFilter::candidate_cost, CandidateFilter::candidate_weight", "src/exercise_scorer.rs: PowerLawScorer::velocity"]}
{"id": "C88", "title": "What a trial does to the memory of an exercise follows the documented rules", "statement": "The chance to recall an exercise falls to 0.9 after a number of days that a trial graded 3 or better never lowers and a trial graded 3 or worse never raises. A better grade, or a good trial after a longer time, never gives a lower one. One more good trial never makes an exercise more urgent when asked as long after it. Good grades reduce the difficulty of an exercise. An exercise without trials has score 0 and full urgency.", "quantifier": "every history of trials, every grade and time of a further trial, every power function that is correctly rounded or monotone and in range", "why_tests_cant": "The rules range over all histories; tests compare a few.", "anchors": ["src/exercise_scorer.rs: PowerLawScorer::compute_stability, PowerLawScorer::apply_stability_transition, PowerLawScorer::update_difficulty, PowerLawScorer::compute_retrievability, PowerLawScorer::score"]}
{"id": "C89", "title": "A better grade never lowers the score of an exercise", "statement": "If the grades of some trials of an exercise were better, and all else the same, the score of the exercise would at no time be lower.", "quantifier": "every history of trials, every choice of better grades, every time", "why_tests_cant": "Needs all pairs of histories; the tests compare histories in which all grades change.", "anchors": ["src/exercise_scorer.rs: PowerLawScorer::score, PowerLawScorer::compute_weighted_avg, PowerLawScorer::estimate_difficulty"]}
{"id": "C90", "title": "The score of an exercise is what the documented formulas give", "statement": "The days since a trial, the chance of recall, the stability and the difficulty after each trial, the average of the grades (60 percent weighted by time and 40 percent by position), the score and the urgency are the values of the documented formulas over the real numbers, except for an error that stays far below what a user can notice.", "quantifier": "every history of up to 1000 trials and deltas, every time, every power function that is correctly rounded", "why_tests_cant": "Tests compare a few values with a tolerance; a wrong constant changes the scores of all other histories.", "anchors": ["src/exercise_scorer.rs: PowerLawScorer::score, PowerLawScorer::compute_weighted_avg, PowerLawScorer::compute_stability, PowerLawScorer::compute_retrievability, PowerLawScorer::apply_stability_transition, PowerLawScorer::update_difficulty, PowerLawScorer::estimate_difficulty"]}
{"id": "C91", "title": "The reward of an exercise is the documented mean of the rewards of its lesson and course", "statement": "The reward that is added to the score of an exercise is the mean of what is left of the rewards of its lesson and of its course: half of a reward and of its weight is lost in 14 days, rewards with less than 0.05 of weight left are ignored, and the lesson counts 70 and the course 30 percent if both have rewards.", "quantifier": "every list of up to 1000 rewards of the lesson and of the course, every time, every exercise, every power function that is correctly rounded", "why_tests_cant": "Tests compare a few lists of rewards; a wrong weight or a lesson taken for a course changes the score of all other exercises.", "anchors": ["src/reward_scorer.rs: WeightedRewardScorer::score_rewards, WeightedRewardScorer::weighted_average, WeightedRewardScorer::decayed_reward", "src/scheduler/unit_scorer.rs: UnitScorer::get_exercise_score"]}
{"id": "C92", "title": "A library can be used for a lifetime without surprises", "statement": "However scores, requests for batches, changes of the blacklist, of the review list and of the options, trims, removals, questions, and closing and opening of the library follow each other: the success rate is the share of scores of 3 or more since the opening; the frequency of an exercise is how often it was offered since; the exercises to relearn are those whose last score since is 1 or 2, unless found blacklisted; the blacklist, the review list and the options are what was last put there, and no call changes what it is not about; every batch has only exercises of the library that are not blacklisted (or that the review list names, if it was asked for), without repetitions unless the request names a lesson twice or is for the review list, that were asked for or wait to be relearned, and not too many; and no call panics or runs for ever, if times are plausible, only exercises are scored and no unit supersedes itself in a roundabout way.", "quantifier": "every sequence of calls and openings, every outcome of writes that may fail, every time, every choice and order of a request", "why_tests_cant": "Tests make a few calls on a fresh library; what is kept in memory, in caches and in the stores interacts over arbitrarily long histories.", "anchors": ["src/scheduler.rs: DepthFirstScheduler::get_exercise_batch, DepthFirstScheduler::score_exercise", "src/scheduler/data.rs: SchedulerData::update_success_rate, SchedulerData::get_success_rate, SchedulerData::increment_exercise_frequency", "src/scheduler/relearn_pile.rs: RelearnPile::update, RelearnPile::select_exercises", "src/lib.rs: Trane::new_local"]}
{"id": "C93", "title": "The mix of a batch follows the success of the session", "statement": "The shares of the five mastery windows are moved by the success of the session as documented: 5 percent towards the harder windows above 90 percent of success, none from 75 percent, 5 percent back from 50 percent and 10 percent below, each share kept between 5 and 50 percent and the window of current exercises taking the rest, so that the shares are a whole again; a better session never leads to a smaller share of harder exercises. A batch has of each window at least its share, at most five tenths more of the new exercises and three tenths more of those of the target window, and is left short of three quarters of its size only if there is nothing more to take.", "quantifier": "all options, all numbers of successes and failures, all batch sizes, all candidates and all random choices", "why_tests_cant": "Tests try a few success rates with the default options and a few candidates; rounding of shares, cut-off shares and the filling of batches depend on all of them together.", "anchors": ["src/scheduler/filter.rs: CandidateFilter::adjusted_mastery_windows, CandidateFilter::filter_candidates, CandidateFilter::add_remainder, CandidateFilter::dynamic_batch_size", "src/scheduler/data.rs: SchedulerData::get_success_rate"]}
{"id": "C94", "title": "A batch size that is accepted can be used", "statement": "With every batch size that the user preferences or the options may contain and that is accepted, a request for a batch returns; the size of the machine word and of the memory make no difference.", "quantifier": "all accepted options, all libraries and histories, all filters, all target machines with 64 bits, builds with and without overflow checks", "why_tests_cant": "Tests use batch sizes of a few exercises; the limit depends on the layout of a structure and on the machine.", "anchors": ["src/scheduler.rs: DepthFirstScheduler::get_candidates_from_graph_helper", "src/scheduler/filter.rs: CandidateFilter::dynamic_batch_size, CandidateFilter::add_remainder, CandidateFilter::filter_candidates", "src/data.rs: SchedulerOptions::verify", "src/lib.rs: Trane::create_scheduler_options"]}
{"id": "C95", "title": "Trials recorded directly count like those of scored exercises", "statement": "Trials, deltas and rewards that a program records directly, such as an import from another program, are stored as given, count at once in every answer, and never bring a score out of the range from 0 to 5; batches after an import are like those after scoring.", "quantifier": "every sequence of calls, openings and direct recordings, every value and time that is recorded", "why_tests_cant": "Tests record a few good values in an empty library and ask only afterwards; infinite values and cached answers need other histories.", "anchors": ["src/lib.rs: Trane::record_exercise_scores, Trane::record_exercise_deltas, Trane::record_unit_rewards, Trane::invalidate_cached_score", "src/practice_stats.rs: LocalPracticeStats::record_exercise_scores", "src/scheduler/unit_scorer.rs: UnitScorer::get_exercise_score, UnitScorer::invalidate_cached_score", "src/exercise_scorer.rs: PowerLawScorer::score"]}
{"id": "C96", "title": "There is always something to work on", "statement": "A request without a filter offers exercises of a lesson that was not passed, unless as many lessons as are allowed at a time are in progress or all lessons are passed, blacklisted or superseded; and it offers something if there is anything to offer.", "quantifier": "every library accepted at opening, every blacklist, every state of the scores, all accepted options, every order of the search", "why_tests_cant": "Tests practise a few libraries to the end; a student who is stuck sees no error, and whether they get stuck depends on the shape of the library and on all scores together.", "anchors": ["src/scheduler.rs: DepthFirstScheduler::get_candidates_from_graph_helper, DepthFirstScheduler::get_initial_stack, DepthFirstScheduler::satisfied_dependency, DepthFirstScheduler::get_candidates_from_lesson_helper"]}
{"id": "C97", "title": "A course is passed when all of its lessons are", "statement": "When every lesson of a course has a score and a number of trials that are enough to pass, so has the course, and what depends on the course is unlocked; the same holds for a lesson and its exercises.", "quantifier": "every library, every number of lessons and exercises, all scores and trials, all accepted options", "why_tests_cant": "Averages of averages are rounded; whether a threshold that is met exactly survives depends on the numbers of lessons and trials together.", "anchors": ["src/scheduler/unit_scorer.rs: UnitScorer::get_course_score, UnitScorer::get_lesson_score, UnitScorer::get_avg_trials", "src/scheduler.rs: DepthFirstScheduler::passes_threshold, DepthFirstScheduler::satisfied_dependency", "src/data.rs: PassingScoreOptions"]}
{"id": "C98", "title": "A library stays usable while its graph is changed", "statement": "The calls that change the graph of an open library leave it usable: after any such calls that were accepted, every request for a batch returns, and gives a batch.", "quantifier": "every library that opens, every history of calls that add units, dependencies, encompassed and superseded units or update the starting lessons, accepted or not, every filter, blacklist and state of the scores, every order of the search", "why_tests_cant": "The tests change graphs that no scheduler uses; the request that hangs needs units without manifests that depend on each other.", "anchors": ["src/lib.rs: impl UnitGraph for Trane", "src/scheduler.rs: DepthFirstScheduler::get_all_starting_units, DepthFirstScheduler::get_exercise_batch", "src/scheduler/data.rs: SchedulerData::unit_exists", "src/graph.rs: InMemoryUnitGraph"]}
{"id": "C99", "title": "The trend of an exercise is the slope of its grades", "statement": "The trend reported with the score of an exercise is the slope per day of the line of best fit through its grades: it rises when the grades rise and falls when they fall, is zero when nothing changes, and is absent before the second trial.", "quantifier": "every list of trials with grades from 1 to 5, any times in order and any numbers of trials", "why_tests_cant": "Sums of products of rounded numbers are subtracted from each other; how much of the slope survives depends on all grades and times together.", "anchors": ["src/exercise_scorer.rs: PowerLawScorer::velocity, PowerLawScorer::score"]}
{"id": "C100", "title": "Every exercise that comes into question can be chosen", "statement": "Whatever else competes for a place in a batch, every exercise that a request may give can be given: for each of them there is a random draw with which the batch contains it, so that no exercise is left out for ever.", "quantifier": "every library, every list of candidates, all accepted options and batch sizes, all scores, every success rate, every filter", "why_tests_cant": "A test sees some draws; that an exercise is never drawn cannot be seen in any number of them.", "anchors": ["src/scheduler/filter.rs: CandidateFilter::filter_candidates, CandidateFilter::select_candidates, CandidateFilter::add_remainder", "src/scheduler/review_knocker.rs: ReviewKnocker::knock_out_reviews", "src/scheduler.rs: DepthFirstScheduler::get_exercise_batch"]}
{"id": "C101", "title": "What is offered is what is within reach", "statement": "A request without a filter offers exercises of exactly the lessons within the reach of the student: those where the library begins, those that depend on lessons the student passed or on courses all of whose lessons are within reach, and so on, as long as all of their dependencies are satisfied. A lesson within reach is left out only when ten times the batch size was found or as many lessons as allowed are in progress.", "quantifier": "every library that can be opened, all scores, blacklists and superseded units, every order in which the units are visited", "why_tests_cant": "The search keeps counts of lessons still to be seen in each course and goes over the graph in a random order with early exits; whether it misses something depends on the whole graph and the order.", "anchors": ["src/scheduler.rs: DepthFirstScheduler::get_candidates_from_graph_helper, get_initial_stack, skip_course, skip_lesson, extend_candidates, get_valid_dependents"]}
{"id": "C102", "title": "What a filter asks for is what is offered", "statement": "A request with a filter offers what the filter names and what is within reach of it: for lessons each of them, even if it is locked; for courses what can be reached from their first lessons inside them; for metadata what is within reach of the whole library when units that do not match are passed over; for dependents and dependencies what is within reach of the named units or of their dependencies at the given depth; for the review list each of its entries. Nothing else is offered, and what is asked for is left out only when ten times the batch size was found or as many lessons as allowed are in progress.", "quantifier": "every library that can be opened, every filter, all scores, blacklists and superseded units, every order in which the units are visited, every history of calls", "why_tests_cant": "Each kind of filter starts the search elsewhere and restricts it differently; whether something that was asked for is missed depends on the whole graph, the scores and the order of the visit.", "anchors": ["src/scheduler.rs: DepthFirstScheduler::get_initial_candidates, get_candidates_from_course, get_candidates_from_lesson, get_candidates_from_review_list, get_candidates_from_graph_helper, resolve_effective_dependencies", "src/data/filter.rs: UnitFilter, KeyValueFilter", "src/scheduler/data.rs: SchedulerData::get_dependencies_at_depth"]}
{"id": "C103", "title": "What a student still has to learn can come up", "statement": "Whatever the history of a library, every exercise of a lesson that is within the reach of the student and whose average is below the passing score comes up in the next batch without a filter for some random draw, if its own score is below 4.5. It is left out for certain only when ten times the batch size was found or as many lessons as are allowed at a time are in progress. With any filter, everything that the search finds can come up unless it is mastered and covered ten times by the rest.", "quantifier": "every library that can be opened, every history of calls, every time, every blacklist, every order in which the units are visited", "why_tests_cant": "The search, the knocker of reviews, the windows and the random draw all have to let the exercise through, in every state that a history of calls can leave; a test sees a few states and draws.", "anchors": ["src/scheduler.rs: DepthFirstScheduler::get_exercise_batch, get_initial_candidates", "src/scheduler/filter.rs: CandidateFilter::filter_candidates", "src/scheduler/review_knocker.rs: ReviewKnocker::knock_out_reviews"]}
{"id": "C104", "title": "Opening keeps what earlier releases stored", "statement": "Opening a library whose practice history, rewards, blacklist and review list were created by any earlier release, or opened by several in turn, brings the databases up to date without losing or adding an entry, and afterwards all calls find the tables they need. This also holds when the program ends while it is opening the library. A database of a later release is refused and stays as it is. A database that opens can be used.", "quantifier": "every sequence of earlier releases and everything they wrote, every point where opening is interrupted, for each of the five databases", "why_tests_cant": "A test opens a new database; what is in a file of an earlier release, and which steps are missing, depends on its history.", "anchors": ["src/practice_stats.rs: LocalPracticeStats::migrations, init", "src/practice_deltas.rs: LocalPracticeDeltas::migrations", "src/practice_rewards.rs: LocalPracticeRewards::migrations", "src/blacklist.rs: LocalBlacklist::migrations, new", "src/review_list.rs: LocalReviewList::migrations", "src/lib.rs: Trane::new_local_helper"]}
{"id": "C105", "title": "A library that is built is the library that is opened", "statement": "When any number of courses are written with the course builders into an empty library and the library is opened, it has exactly these courses, with the lessons, exercises, dependencies, weights, superseded units, metadata and exercise types that their manifests were given, and it answers every question like one made from the manifests directly, whatever characters the identifiers, names and texts contain.", "quantifier": "all lists of courses with all contents of their manifests, every root and working directory, every order in which directories are listed", "why_tests_cant": "Writing, directory layout, JSON in both directions and the walk over the library all have to fit together for every text and every number; a test writes a few courses with plain names.", "anchors": ["src/course_builder.rs: CourseBuilder::build, LessonBuilder::build, ExerciseBuilder::build", "src/course_library.rs: LocalCourseLibrary::open_manifest, process_course_manifest, process_lesson_manifest, new", "src/data.rs: CourseManifest, LessonManifest, ExerciseManifest, NormalizePaths"]}
{"id": "C106", "title": "A course whose writing was interrupted is not taken for a finished one", "statement": "When the program ends at any point while a course is written with the course builders, the library that is opened next has either the whole course or none of it, or it refuses to open. In any case the other courses are as they were, and whatever is read of the new course is as its manifests were given.", "quantifier": "all courses, every point between two written characters, every library that was there before", "why_tests_cant": "A test would have to stop the program between any two writes and open what is on the disk then; the states are as many as the characters of the course.", "anchors": ["src/course_builder.rs: CourseBuilder::build, LessonBuilder::build, ExerciseBuilder::build, AssetBuilder::build", "src/course_library.rs: LocalCourseLibrary::new, process_course_manifest, process_lesson_manifest"]}
{"id": "C107", "title": "Dictation never keeps a library from opening", "statement": "A literacy course can be read with its dictation lessons exactly if it can be read without them, and a library with the dictation lessons opens exactly if it does without them: the lessons that are added bring no circle of dependencies, encompassed or superseded units and no weight that is refused.", "quantifier": "all literacy courses with any relations of their lessons, all libraries around them, every order in which directories are listed", "why_tests_cant": "Whether a circle is closed depends on the relations of all courses of the library together, over any number of steps; a test tries a few small courses alone.", "anchors": ["src/data/course_generator/literacy.rs: LiteracyLesson::generate_dictation_lesson, generate_reading_lesson, LiteracyConfig::generate_manifests", "src/course_library.rs: LocalCourseLibrary::new", "src/graph.rs: check_cycles"]}
