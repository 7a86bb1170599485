(** C78 to C80: copies of a library and the benchmark. *)
From stdpp Require Import gmap strings list.
From Coq Require Import ZArith Lia.
From Verif Require Import F32 Graph GraphSpec Library LibrarySpec LibraryQueries Options FileSystem FileSpec FileSample Walk WalkSpec WalkSample Benchmark BenchSpec BenchProofs BenchRun CopyProofs BenchSample.
Local Open Scope string_scope.
Local Open Scope list_scope.

(** C78, partial: a copy has all files of the original, among them the history of the user, and
    nothing else changes. It succeeds if the target is an empty directory elsewhere. *)
Theorem C78_copied_partial : ∀ walk, walks walk → ∀ src dst n f n' f', tree f → f !! src = Some Dir → ¬ src `prefix_of` dst → ¬ dst `prefix_of` src →
  (∀ r, r ≠ [] → f !! (dst ++ r) = None) → copy_library walk src dst n f = Over () n' f' →
  (∀ r, f' !! (dst ++ r) = f !! (src ++ r)) ∧ ∀ p, ¬ dst `prefix_of` p → ¬ p `prefix_of` dst → f' !! p = f !! p.
Proof. exact copied. Qed.
Print Assumptions C78_copied_partial.
Theorem C78_succeeds_partial : ∀ walk, walks walk → parents_first walk → ∀ src dst f, tree f → f !! src = Some Dir → ¬ src `prefix_of` dst → ¬ dst `prefix_of` src →
  f !! dst = Some Dir → (∀ r, r ≠ [] → f !! (dst ++ r) = None) → ∃ f', copy_library walk src dst None f = Over () None f'.
Proof. exact copy_can. Qed.
Print Assumptions C78_succeeds_partial.
(** A library that is in another place is opened with the same units, if no ignored path is
    absolute. *)
Theorem C78_opens_partial : ∀ rd walk walk' o o', walks walk → walks walk' → generates_anywhere rd → generates_consistently rd → order_ok o → order_ok o' →
  ∀ f src f' dst cwd cwd' ignored lib, same_tree f src f' dst → all_relative ignored →
  open_from_disk rd walk o cwd f (Given true src) ignored = Some lib →
  ∃ lib', open_from_disk rd walk' o' cwd' f' (Given true dst) ignored = Some lib' ∧ agree lib lib'.
Proof. exact opens_moved. Qed.
Print Assumptions C78_opens_partial.
(** C78, false: with an absolute ignored path, the copy has courses that the original has not. *)
Theorem C78_ignored_refuted : ∃ rd walk f src f' dst ignored cs, walks walk ∧ generates_anywhere rd ∧ same_tree f src f' dst ∧
  scan_courses rd walk [] f (Given true src) ignored = Some [] ∧ scan_courses rd walk [] f' (Given true dst) ignored = Some cs ∧ cs ≠ [].
Proof. exact ignored_reappears. Qed.
Print Assumptions C78_ignored_refuted.
Example C78_nonvacuous : walks down_walk ∧ parents_first down_walk ∧ tree before_copy ∧ before_copy !! ["lib"] = Some Dir ∧ before_copy !! ["tmp"] = Some Dir ∧
  (∀ r, r ≠ [] → before_copy !! (["tmp"] ++ r) = None) ∧ copy_library down_walk ["lib"] ["tmp"] None before_copy = Over () None after_copy ∧
  generates_anywhere (some_readers (Some (Markdown (Relative ["course.md"]))) (Some (Markdown (Relative ["notes"; "lesson.md"]))) None) ∧
  scan_courses (some_readers (Some (Markdown (Relative ["course.md"]))) (Some (Markdown (Relative ["notes"; "lesson.md"]))) None) down_walk [] after_copy (Given true ["tmp"]) [] = Some [c_course].
Proof. exact copy_shown. Qed.

(** C79, partial: a student whose probabilities are verified and not negative gives a score at
    every trial: Two if the student lapses, and otherwise one that is possible at that trial. *)
Theorem C79_scores_partial : ∀ x trial u pick,
  five_probabilities (initial x) ∧ five_probabilities (stable x) ∧ verify_profile x = true ∧ counted (before_stable x) → counted trial → picks_below pick →
  ∃ s, get_score x trial u pick = Some s ∧
    ((s = Two ∧ flt u (lapse_rate x) = true ∧ (before_stable x < trial)%Z) ∨
     ∃ p, performance x trial !! score_place s = Some p ∧ flt fzero p = true).
Proof. exact draws. Qed.
Print Assumptions C79_scores_partial.
(** The probabilities are those given for the first trial at first, and those given for stable
    trials from the given trial on. *)
Theorem C79_ends_partial : ∀ x trial,
  five_probabilities (initial x) ∧ five_probabilities (stable x) ∧ verify_profile x = true ∧ counted (before_stable x) → counted trial →
  ((before_stable x ≤ trial)%Z → Forall2 (λ a b, feq a b = true) (performance x trial) (stable x)) ∧
  (trial = 0%Z → (0 < before_stable x)%Z → Forall2 (λ a b, feq a b = true) (performance x trial) (initial x)).
Proof. exact performance_ends. Qed.
Print Assumptions C79_ends_partial.
(** C79, false: a negative probability is verified, and the student panics at the first trial. *)
Theorem C79_negative_refuted : ∃ x, verify_profile x = true ∧ length (initial x) = 5%nat ∧ length (stable x) = 5%nat ∧ counted (before_stable x) ∧
  ∀ u pick, get_score x 0 u pick = None.
Proof. exact negative_panics. Qed.
Print Assumptions C79_negative_refuted.
Example C79_nonvacuous : ∀ x, x ∈ students → five_probabilities (initial x) ∧ five_probabilities (stable x) ∧ verify_profile x = true ∧ counted (before_stable x).
Proof. exact students_ok. Qed.

(** C80, partial: a simulation that ends reports the number of exercises scored; every session
    before the last has the given number of them; the time of each is the start of its session and
    one second for each exercise before; its score is that of its number of trials so far; and
    mastery is reported for the day of the last session, when all courses had the threshold. *)
Theorem C80_reported_partial : ∀ (T : Type) get_batch score_exercise unit_score draw anchor frequency per, (0 ≤ per)%Z → ∀ advanced threshold courses max (t : T) r s,
  simulate get_batch score_exercise unit_score draw advanced threshold courses max anchor frequency per t = Simulated r s →
  (exercises_practiced r = Z.of_nat (length (sim_log s)) ∧ 0 ≤ sessions_run r ≤ Z.of_nat max ∧
  (∀ i e sc ts, reverse (sim_log s) !! i = Some (e, sc, ts) →
    draw (Z.of_nat i) (times_scored e (take i (reverse (sim_log s)))) = Some sc ∧
    ts = anchor + (Z.of_nat i / per) * frequency * 86400 + Z.of_nat i mod per) ∧
  match days_to_mastery r with
  | Some d =>
      0 < sessions_run r ∧ d = (sessions_run r - 1) * frequency ∧ exercises_practiced r = sessions_run r * per ∧
      (let now := anchor + d * 86400 + per in ∀ c, c = advanced ∨ c ∈ courses → ∃ x, unit_score (sim_trane s) now c = Some x ∧ fle threshold x = true)
  | None =>
      (sessions_run r = Z.of_nat max ∧ exercises_practiced r = sessions_run r * per) ∨
      (sessions_run r < Z.of_nat max ∧ sessions_run r * per ≤ exercises_practiced r < (sessions_run r + 1) * per)
  end)%Z.
Proof. exact @simulate_reported. Qed.
Print Assumptions C80_reported_partial.
(** It ends if no call of the library fails. *)
Theorem C80_ends_partial : ∀ (T : Type) get_batch score_exercise unit_score draw anchor frequency per, (0 ≤ per)%Z → ∀ advanced threshold courses max (t : T),
  (∀ t now, is_Some (get_batch t now)) → (∀ t e sc now, is_Some (score_exercise t e sc now)) → (∀ n k, (0 ≤ k)%Z → is_Some (draw n k)) →
  ∃ r s, simulate get_batch score_exercise unit_score draw advanced threshold courses max anchor frequency per t = Simulated r s.
Proof. exact @simulate_calm. Qed.
Print Assumptions C80_ends_partial.
(** C80, false: trials are recorded in the past of earlier ones if sessions have no days in
    between, which is accepted. *)
Theorem C80_time_refuted : ∃ (T : Type) get_batch score_exercise unit_score draw advanced threshold courses max anchor frequency per (t : T) r s i j x y,
  simulate get_batch score_exercise unit_score draw advanced threshold courses max anchor frequency per t = Simulated r s ∧ (0 ≤ frequency)%Z ∧ (0 < per)%Z ∧
  reverse (sim_log s) !! i = Some x ∧ reverse (sim_log s) !! j = Some y ∧ (i < j)%nat ∧ (y.2 < x.2)%Z.
Proof. exact overlaps. Qed.
Print Assumptions C80_time_refuted.
(** Otherwise time passes from each trial to the next. *)
Theorem C80_time_partial : ∀ (T : Type) get_batch score_exercise unit_score draw anchor frequency per, (0 ≤ per)%Z → ∀ advanced threshold courses max (t : T) r s i j x y,
  (per ≤ 86400 * frequency)%Z → simulate get_batch score_exercise unit_score draw advanced threshold courses max anchor frequency per t = Simulated r s →
  reverse (sim_log s) !! i = Some x → reverse (sim_log s) !! j = Some y → (i < j)%nat → (x.2 < y.2)%Z.
Proof. exact @time_passes. Qed.
Print Assumptions C80_time_partial.
Example C80_nonvacuous : (∃ s, two_run 2 3 = Simulated (StudentResult (Some 2%Z) 2 6) s ∧ (reverse (sim_log s)).*2 = [1000; 1001; 1002; 173800; 173801; 173802]%Z).
Proof. exact two_ends. Qed.
