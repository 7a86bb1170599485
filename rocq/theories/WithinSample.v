(** Students for P_Within.v. *)
From stdpp Require Import gmap strings list relations.
From Verif Require Import F32 Graph GraphSpec GraphMore Library LibrarySpec LibraryQueries LibrarySample Filters Options OptionsSpec
  OptionsProofs Batch BatchSpec BatchSample Search SearchSpec ProgressSpec WithinSpec LibFacts ResolveProofs CandidateProofs TermProofs ShareProofs
  CompleteProofs WholeProofs SearchSample SearchMore ProgressProofs ProgressSample.
Local Open Scope string_scope.
Local Open Scope list_scope.

Lemma few_in_progress env cs l : (∀ c, c ∈ cs → lesson_id c = l) → 1 < max_lessons_in_progress (s_options env) → ¬ enough_in_progress env cs.
Proof.
  intros Hone Hlt (P & Hm & HP). assert (Hsub : P ⊆ {[l]}).
  { intros l' Hl. destruct (HP l' Hl) as (c & x & Hc & <- & _). apply elem_of_singleton. by apply Hone. }
  apply subseteq_size in Hsub. rewrite size_singleton in Hsub. lia.
Qed.

(** The second of three lessons was passed, the first one was forgotten. *)
Definition row_library : list open_course :=
  a_library [("A", [], [("A::1", [], ["A::1::x"]); ("A::2", ["A::1"], ["A::2::x"]); ("A::3", ["A::2"], ["A::3::x"])])].
Definition row_ranks : list (uid * nat) := [("A::1", 1); ("A::2", 2); ("A::3", 3)].
Definition second_passed : list uid := ["A::2"; "A::2::x"].
Lemma forgotten_first : ∃ env fuel cs, opened (s_lib env) ∧ (∀ i, orders_ok (plain i)) ∧ verify_options (s_options env) = true ∧
  passing_numbers env ∧ fgt (min_fraction (passing_score (s_options env))) fzero = true ∧
  answers_exercises env ∧ steady env ∧ well_ordered env ∧ s_banned env = ∅ ∧ (∀ u, s_superseded env u = false) ∧
  unit_candidates env plain fuel None = Found cs ∧
  lesson_of env "A::3" "A" ∧ unlocked env None "A" ∧ unlocked env None "A::3" ∧ (∀ d, depends_on (s_graph env) "A::3" d ↔ d = "A::2") ∧
  passed env "A::2" ∧ not_passed env "A::3" ∧ exercise_of env "A::3::x" "A::3" ∧ clean env "A::3::x" ∧
  (∀ c, c ∈ cs → lesson_id c ≠ "A::3") ∧ ¬ max_candidates env ≤ length cs ∧ ¬ enough_in_progress env cs.
Proof.
  destruct (library_checked (λ lib, same_ids_as (found_ids (from_everything (half_env second_passed [] lib) plain 30 None))
    ["A::1::x"] && (half_check second_passed [] lib && ranked row_ranks lib && hides_none lib && unit_free lib &&
    bool_decide (get_unit_type (lib_graph lib) "A::3" = Some Lesson) && bool_decide (get_unit_type (lib_graph lib) "A::2" = Some Lesson) &&
    in_lesson lib "A::1::x" "A::1" && in_lesson lib "A::3::x" "A::3" && in_course lib "A::3" "A" && has_deps lib "A" [] && has_deps lib "A::3" ["A::2"])) row_library)
    as (lib & Ho & H); [apply a_library_consistent|vm_compute; reflexivity|].
  unfold in_lesson, in_course in H. rewrite !andb_true_iff, !bool_decide_eq_true in H.
  destruct H as [H [[[[[[[[[[H1 H2] H3] H4] H5] H6] H7] H8] H9] H10] H11]]. apply found_is in H as (cs & H & Hids).
  pose proof (opened_ok lib Ho) as K. set (env := half_env second_passed [] lib) in *. exists env, 30, cs.
  destruct (default_numbers second_passed [] lib) as (N1 & N2 & N3).
  assert (Hone : ∀ c, c ∈ cs → lesson_id c = "A::1").
  { intros c Hc. pose proof (elem_of_list_fmap_1 exercise_id _ _ Hc) as Hin. rewrite Hids in Hin. apply elem_of_list_singleton in Hin.
    destruct (candidates_in_place env K plain plain_ok 30 None cs c H Hc) as [[Hp _] _]. unfold exercise_of in Hp. rewrite Hin in Hp.
    change (get_exercise_lesson (lib_graph lib) "A::1::x" = Some (lesson_id c)) in Hp. congruence. }
  assert (Hlen : length cs = 1) by (rewrite <-(fmap_length exercise_id), Hids; done).
  assert (Hpass : passed env "A::2").
  { intros s t Hs Ht. cbn [env half_env s_score s_trials] in Hs, Ht. rewrite H6 in Hs. rewrite bool_decide_eq_true_2 in Hs by left.
    injection Hs as <-. injection Ht as <-. split; vm_compute; reflexivity. }
  split; [exact Ho|]. split; [exact plain_ok|]. split; [exact N1|]. split; [exact N2|]. split; [exact N3|].
  split; [by apply half_answers|]. split; [by apply half_steady|]. split; [by apply (ranked_ordered row_ranks)|]. split; [done|].
  split; [done|]. split; [exact H|]. split; [exact H9|].
  split. { intros d t Hd Ht. apply (has_deps_iff env "A" [] H10) in Hd. by apply elem_of_nil in Hd. }
  split. { intros d t Hd Ht. apply (has_deps_iff env "A::3" ["A::2"] H11), elem_of_list_singleton in Hd. subst d.
    apply stands_plain in Ht. subst t. do 4 right. exact Hpass. }
  split. { intros d. rewrite (has_deps_iff env "A::3" ["A::2"] H11). apply elem_of_list_singleton. }
  split; [exact Hpass|].
  split; [apply (half_not_passed second_passed [] lib Ho H1 "A::3" H5); apply (bool_decide_unpack _); vm_compute; exact I|].
  split; [exact H8|].
  split. { split; [apply not_elem_of_empty|]. intros ? _. split; [apply not_elem_of_empty|]. intros ? _. apply not_elem_of_empty. }
  split. { intros c Hc. rewrite (Hone c Hc). apply (bool_decide_unpack _). vm_compute. exact I. }
  split; [rewrite Hlen; change (¬ 500 ≤ 1); lia|]. apply (few_in_progress env cs "A::1" Hone). change (1 < 10). lia.
Qed.

(** The first of two lessons was passed. *)
Lemma within_example : ∃ env cs, opened (s_lib env) ∧ (∀ i, orders_ok (plain i)) ∧
  passing_numbers env ∧ fgt (min_fraction (passing_score (s_options env))) fzero = true ∧
  answers_exercises env ∧ (∀ l x, lesson_score env l x → fis_nan x = false) ∧
  (∀ u s, missing env u → s_score env u ≠ Some (Some s)) ∧ "" ∉ s_banned env ∧
  in_reach env None (starts env None) (surely_leads env None) "A::2" ∧ ¬ passed_over env None "A::2" ∧ exercise_of env "A::2::x" "A::2" ∧ clean env "A::2::x" ∧
  (∃ c, lesson_of env "B::1" c) ∧ unit_candidates env plain 30 None = Found cs ∧
  exercise_id <$> cs = ["A::1::x"; "A::1::y"; "A::2::x"] ∧ length cs < max_candidates env.
Proof.
  destruct (library_checked (λ lib, same_ids_as (found_ids (from_everything (half_env first_passed [] lib) plain 30 None))
    ["A::1::x"; "A::1::y"; "A::2::x"] && (half_check first_passed [] lib && hides_none lib &&
    bool_decide (get_unit_type (lib_graph lib) "A::1" = Some Lesson) && bool_decide (get_unit_type (lib_graph lib) "A" = Some Course) &&
    in_lesson lib "A::2::x" "A::2" && in_course lib "A::1" "A" && in_course lib "B::1" "B" &&
    has_deps lib "A" [] && has_deps lib "A::1" [] && has_deps lib "A::2" ["A::1"])) tour_library)
    as (lib & Ho & H); [apply a_library_consistent|vm_compute; reflexivity|].
  unfold in_lesson, in_course in H. rewrite !andb_true_iff, !bool_decide_eq_true in H.
  destruct H as [H [[[[[[[[[H1 H2] H3] H4] H5] H6] H7] H8] H9] H10]]. apply found_is in H as (cs & H & Hids).
  pose proof (opened_ok lib Ho) as K. set (env := half_env first_passed [] lib) in *. exists env, cs.
  destruct (default_numbers first_passed [] lib) as (_ & N2 & N3).
  pose proof (half_steady first_passed [] lib Ho H1) as SY.
  assert (Hno : ∀ u d, has_deps lib u [] = true → ¬ depends_on (s_graph env) u d).
  { intros u d Hu Hd. apply (has_deps_iff env u [] Hu) in Hd. by apply elem_of_nil in Hd. }
  split; [exact Ho|]. split; [exact plain_ok|]. split; [exact N2|]. split; [exact N3|].
  split; [by apply half_answers|]. split; [exact (sy_number _ SY)|]. split; [exact (sy_missing _ SY)|]. split; [apply not_elem_of_empty|].
  split.
  - eapply in_next with "A::1".
    + apply in_start; [right; exists "A"; split; [|split]|by right].
      * split; [intros d Hd; by destruct (Hno "A" d H8)|]. split; [left; exact H4|]. by apply hides_none_hidden.
      * split; [exact H6|]. intros d Hd. by destruct (Hno "A::1" d H9).
      * intros d t Hd. by destruct (Hno "A::1" d H9).
    + exact H3.
    + right. intros x Hx t Ht. apply (half_lesson first_passed [] lib Ho H1) in Hx as [Hx _].
      rewrite bool_decide_eq_true_2 in Hx by left. injection Ht as <-. split; [exact Hx|vm_compute; reflexivity].
    + apply (has_deps_iff env "A::2" ["A::1"] H10). left.
    + intros d t Hd Ht. apply (has_deps_iff env "A::2" ["A::1"] H10), elem_of_list_singleton in Hd. subst d.
      apply stands_plain in Ht. subst t. do 4 right. intros s t Hs Ht. cbn [env half_env s_score s_trials] in Hs, Ht.
      rewrite H3 in Hs. rewrite bool_decide_eq_true_2 in Hs by left. injection Hs as <-. injection Ht as <-. split; vm_compute; reflexivity.
  - split. { intros [Hx|[Hx|[Hx|(c & _ & Hx)]]]; [by destruct Hx|by apply elem_of_empty in Hx|done|done]. }
    split; [exact H5|].
    split. { split; [apply not_elem_of_empty|]. intros ? _. split; [apply not_elem_of_empty|]. intros ? _. apply not_elem_of_empty. }
    split; [exists "B"; exact H7|]. split; [exact H|]. split; [exact Hids|].
    rewrite <-(fmap_length exercise_id), Hids. change (3 < 500). lia.
Qed.

(** A request for one course: the same two students. *)
Lemma forgotten_inside : ∃ env fuel cs, opened (s_lib env) ∧ (∀ i, orders_ok (plain i)) ∧ verify_options (s_options env) = true ∧
  passing_numbers env ∧ fgt (min_fraction (passing_score (s_options env))) fzero = true ∧
  answers_exercises env ∧ s_banned env = ∅ ∧ (∀ u, s_superseded env u = false) ∧
  unit_candidates env plain fuel (Some (FCourses ["A"])) = Found cs ∧
  lesson_of env "A::3" "A" ∧ unlocked env None "A" ∧ unlocked env None "A::3" ∧ exercise_of env "A::3::x" "A::3" ∧
  (∀ c, c ∈ cs → lesson_id c ≠ "A::3") ∧ ¬ max_candidates env ≤ length cs ∧ ¬ enough_in_progress env cs.
Proof.
  destruct (library_checked (λ lib, same_ids_as (found_ids (unit_candidates (half_env second_passed [] lib) plain 30 (Some (FCourses ["A"]))))
    ["A::1::x"] && (half_check second_passed [] lib &&
    bool_decide (get_unit_type (lib_graph lib) "A::2" = Some Lesson) &&
    in_lesson lib "A::1::x" "A::1" && in_lesson lib "A::3::x" "A::3" && in_course lib "A::3" "A" && has_deps lib "A" [] && has_deps lib "A::3" ["A::2"])) row_library)
    as (lib & Ho & H); [apply a_library_consistent|vm_compute; reflexivity|].
  unfold in_lesson, in_course in H. rewrite !andb_true_iff, !bool_decide_eq_true in H.
  destruct H as [H [[[[[[H1 H6] H7] H8] H9] H10] H11]]. apply found_is in H as (cs & H & Hids).
  pose proof (opened_ok lib Ho) as K. set (env := half_env second_passed [] lib) in *. exists env, 30, cs.
  destruct (default_numbers second_passed [] lib) as (N1 & N2 & N3).
  assert (Hone : ∀ c, c ∈ cs → lesson_id c = "A::1").
  { intros c Hc. pose proof (elem_of_list_fmap_1 exercise_id _ _ Hc) as Hin. rewrite Hids in Hin. apply elem_of_list_singleton in Hin.
    destruct (candidates_in_place env K plain plain_ok 30 (Some (FCourses ["A"])) cs c H Hc) as [[Hp _] _]. unfold exercise_of in Hp. rewrite Hin in Hp.
    change (get_exercise_lesson (lib_graph lib) "A::1::x" = Some (lesson_id c)) in Hp. congruence. }
  assert (Hlen : length cs = 1) by (rewrite <-(fmap_length exercise_id), Hids; done).
  split; [exact Ho|]. split; [exact plain_ok|]. split; [exact N1|]. split; [exact N2|]. split; [exact N3|].
  split; [by apply half_answers|]. split; [done|]. split; [done|]. split; [exact H|]. split; [exact H9|].
  split. { intros d t Hd Ht. apply (has_deps_iff env "A" [] H10) in Hd. by apply elem_of_nil in Hd. }
  split. { intros d t Hd Ht. apply (has_deps_iff env "A::3" ["A::2"] H11), elem_of_list_singleton in Hd. subst d.
    apply stands_plain in Ht. subst t. do 4 right. intros s t Hs Ht. cbn [env half_env s_score s_trials] in Hs, Ht.
    rewrite H6 in Hs. rewrite bool_decide_eq_true_2 in Hs by left. injection Hs as <-. injection Ht as <-. split; vm_compute; reflexivity. }
  split; [exact H8|].
  split. { intros c Hc. rewrite (Hone c Hc). apply (bool_decide_unpack _). vm_compute. exact I. }
  split; [rewrite Hlen; change (¬ 500 ≤ 1); lia|]. apply (few_in_progress env cs "A::1" Hone). change (1 < 10). lia.
Qed.
Lemma inside_example : ∃ env cs, opened (s_lib env) ∧ (∀ i, orders_ok (plain i)) ∧
  passing_numbers env ∧ fgt (min_fraction (passing_score (s_options env))) fzero = true ∧
  answers_exercises env ∧ (∀ l x, lesson_score env l x → fis_nan x = false) ∧
  (∀ u s, missing env u → s_score env u ≠ Some (Some s)) ∧ "" ∉ s_banned env ∧
  in_courses env None ["A"] (surely_leads env None) "A::2" ∧ ¬ passed_over env None "A::2" ∧ exercise_of env "A::2::x" "A::2" ∧ clean env "A::2::x" ∧
  unit_candidates env plain 30 (Some (FCourses ["A"])) = Found cs ∧
  exercise_id <$> cs = ["A::1::x"; "A::1::y"; "A::2::x"] ∧ length cs < max_candidates env.
Proof.
  destruct (library_checked (λ lib, same_ids_as (found_ids (unit_candidates (half_env first_passed [] lib) plain 30 (Some (FCourses ["A"]))))
    ["A::1::x"; "A::1::y"; "A::2::x"] && (half_check first_passed [] lib &&
    bool_decide (get_unit_type (lib_graph lib) "A::1" = Some Lesson) &&
    in_lesson lib "A::2::x" "A::2" && in_course lib "A::1" "A" && in_course lib "A::2" "A" &&
    has_deps lib "A::1" [] && has_deps lib "A::2" ["A::1"])) tour_library)
    as (lib & Ho & H); [apply a_library_consistent|vm_compute; reflexivity|].
  unfold in_lesson, in_course in H. rewrite !andb_true_iff, !bool_decide_eq_true in H.
  destruct H as [H [[[[[[H1 H3] H5] H6] H7] H9] H10]]. apply found_is in H as (cs & H & Hids).
  pose proof (opened_ok lib Ho) as K. set (env := half_env first_passed [] lib) in *. exists env, cs.
  destruct (default_numbers first_passed [] lib) as (_ & N2 & N3).
  pose proof (half_steady first_passed [] lib Ho H1) as SY.
  split; [exact Ho|]. split; [exact plain_ok|]. split; [exact N2|]. split; [exact N3|].
  split; [by apply half_answers|]. split; [exact (sy_number _ SY)|]. split; [exact (sy_missing _ SY)|]. split; [apply not_elem_of_empty|].
  split.
  - apply inside_next with "A::1" "A".
    + apply inside_first with "A"; [left| |apply (bool_decide_unpack _); vm_compute; exact I].
      split; [exact H6|]. intros d Hd. apply (has_deps_iff env "A::1" [] H9) in Hd. by apply elem_of_nil in Hd.
    + right. intros x Hx t Ht. apply (half_lesson first_passed [] lib Ho H1) in Hx as [Hx _].
      rewrite bool_decide_eq_true_2 in Hx by left. injection Ht as <-. split; [exact Hx|vm_compute; reflexivity].
    + apply (has_deps_iff env "A::2" ["A::1"] H10). left.
    + intros d t Hd Ht. apply (has_deps_iff env "A::2" ["A::1"] H10), elem_of_list_singleton in Hd. subst d.
      apply stands_plain in Ht. subst t. do 4 right. intros s t Hs Ht. cbn [env half_env s_score s_trials] in Hs, Ht.
      rewrite H3 in Hs. rewrite bool_decide_eq_true_2 in Hs by left. injection Hs as <-. injection Ht as <-. split; vm_compute; reflexivity.
    + exact H7.
    + left.
    + apply (bool_decide_unpack _). vm_compute. exact I.
  - split. { intros [Hx|[Hx|[Hx|(c & _ & Hx)]]]; [by destruct Hx|by apply elem_of_empty in Hx|done|done]. }
    split; [exact H5|].
    split. { split; [apply not_elem_of_empty|]. intros ? _. split; [apply not_elem_of_empty|]. intros ? _. apply not_elem_of_empty. }
    split; [exact H|]. split; [exact Hids|].
    rewrite <-(fmap_length exercise_id), Hids. change (3 < 500). lia.
Qed.
