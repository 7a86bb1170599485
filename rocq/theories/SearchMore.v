(** Mastered libraries, waiting units, and examples for P_Search.v. *)
From stdpp Require Import gmap strings list relations.
From Coq Require Import ZArith.
From Verif Require Import F32 Graph GraphSpec GraphMore Library LibrarySpec LibraryQueries LibrarySample Filters Options OptionsSpec
  OptionsProofs Batch BatchSpec BatchSample BatchMore FinishProofs Search SearchSpec LibFacts CandidateProofs TermProofs ShareProofs CompleteProofs WholeProofs SearchSample.
Local Open Scope string_scope.
Local Open Scope list_scope.

(** ** Everything mastered *)
Definition top_env (lib : library) : senv :=
  SEnv lib ∅ (λ _, false) (λ _, Some (Some f_5)) (λ _, Some fzero) (λ _, Some None) (λ _, Some f_20) (λ _, 0)
    default_options [] (λ _, None).
Definition small_lessons (lib : library) : bool :=
  bool_decide (map_Forall (λ _ s, size s ≤ 2) (lesson_exercise_map (lib_graph lib))).
Lemma top_mastered lib : opened lib → small_lessons lib = true → mastered (top_env lib).
Proof.
  intros Ho Hsm%bool_decide_eq_true. pose proof (opened_ok lib Ho) as K. constructor.
  - intros u s t [= <-] [= <-]. split; vm_compute; reflexivity.
  - intros l x (es & scores & [Hnd Hes] & Hne & Hf & ->).
    assert (Hlen : length es ≤ 2).
    { assert (Hsub : (list_to_set es : gset uid) ⊆ default ∅ (get_lesson_exercises (s_graph (top_env lib)) l)).
      { intros e He. apply elem_of_list_to_set, Hes in He as [He _]. by apply exercise_elem. }
      apply subseteq_size in Hsub. rewrite size_list_to_set in Hsub by done.
      unfold get_lesson_exercises, s_graph in Hsub. simpl in Hsub.
      destruct (lesson_exercise_map (lib_graph lib) !! l) as [s|] eqn:E; simpl in Hsub.
      - specialize (Hsm l s E). simpl in Hsm. lia.
      - change (length es ≤ 0) in Hsub. lia. }
    assert (scores = replicate (length es) f_5) as ->.
    { clear -Hf. induction Hf as [|e s es scores (o & Ho & ->) _ IH]; [done|]. simpl. f_equal; [|done]. simpl in Ho. injection Ho as <-. done. }
    destruct es as [|a [|b [|]]]; [done| | |simpl in Hlen; lia]; simpl; split_and!; vm_compute; reflexivity.
  - intros u t [= <-]. vm_compute. reflexivity.
Qed.
Lemma top_answers lib : answers_exercises (top_env lib).
Proof. intros e l _. simpl. eauto. Qed.

(** A course without dependencies; one of its first lessons depends on a lesson of another course,
    so neither the course nor its other first lesson is reached. *)
Definition hidden_library : list open_course :=
  a_library [("C", [], [("C::1", ["D::1"], ["C::1::x"]); ("C::2", [], ["C::2::x"])]); ("D", [], [("D::1", [], ["D::1::x"])])].
Lemma lesson_never_reached : ∃ env os fuel cs e,
  opened (s_lib env) ∧ (∀ i, orders_ok (os i)) ∧ s_options env = default_options ∧ mastered env ∧ answers_exercises env ∧
  s_banned env = ∅ ∧ (∀ u, s_superseded env u = false) ∧ (∃ l, exercise_of env e l) ∧
  from_everything env os fuel None = Found cs ∧ e ∉ exercise_id <$> cs.
Proof.
  destruct (library_checked (λ lib, same_ids_as (found_ids (from_everything (top_env lib) plain 30 None)) ["D::1::x"; "C::1::x"] &&
    (small_lessons lib && in_lesson lib "C::2::x" "C::2")) hidden_library)
    as (lib & Ho & H); [apply a_library_consistent|vm_compute; reflexivity|].
  rewrite !andb_true_iff in H. destruct H as [H [H1 H2]]. apply found_is in H as (cs & H & Hids). apply bool_decide_eq_true in H2.
  exists (top_env lib), plain, 30, cs, "C::2::x". split; [exact Ho|]. split; [exact plain_ok|]. split; [done|].
  split; [by apply top_mastered|]. split; [apply top_answers|]. split; [done|]. split; [done|]. split; [by exists "C::2"|].
  split; [exact H|]. rewrite Hids. apply (bool_decide_unpack _). vm_compute. exact I.
Qed.
(** A lesson that depends on its own course. *)
Definition waiting_library : list open_course := a_library [("C", [], [("C::1", ["C"], ["C::1::x"])])].
Lemma waits_for_itself : ∃ env os fuel cs l,
  opened (s_lib env) ∧ (∀ i, orders_ok (os i)) ∧ s_options env = default_options ∧ is_lesson env l ∧ waits env l l ∧
  from_everything env os fuel None = Found cs ∧ cs = [].
Proof.
  set (mk := an_env default_options [("C", fzero)] [] []).
  destruct (library_checked (λ lib, same_ids_as (found_ids (from_everything (mk lib) plain 30 None)) [] &&
    (has_deps lib "C::1" ["C"] && in_course lib "C::1" "C")) waiting_library)
    as (lib & Ho & H); [apply a_library_consistent|vm_compute; reflexivity|].
  rewrite !andb_true_iff in H. destruct H as [H [H1 H2]]. apply found_is in H as (cs & H & Hids). apply bool_decide_eq_true in H2.
  exists (mk lib), plain, 30, cs, "C::1". split; [exact Ho|]. split; [exact plain_ok|]. split; [done|].
  split; [by apply (lesson_of_types (mk lib) (opened_ok lib Ho) "C::1" "C")|].
  split; [|split; [exact H|by destruct cs]].
  apply (waits_lessons _ "C::1" "C"); [|exact H2]. apply (has_deps_iff (mk lib) "C::1" ["C"] H1). left.
Qed.

(** ** A library that meets the hypotheses of the completeness theorem *)
Definition rank_of (ranks : list (uid * nat)) (u : uid) : nat := default 0 ((list_to_map ranks : gmap uid nat) !! u).
Definition ranked (ranks : list (uid * nat)) (lib : library) : bool :=
  let g := lib_graph lib in
  bool_decide (map_Forall (λ u ds, set_Forall (λ d, rank_of ranks d < rank_of ranks u ∧
    set_Forall (λ l, rank_of ranks l < rank_of ranks u) (default ∅ (get_course_lessons g d))) ds) (dependency_graph g)) &&
  bool_decide (map_Forall (λ l c, rank_of ranks c < rank_of ranks l) (lesson_course_map g)).
Lemma ranked_waits ranks env : LibOK (s_lib env) → ranked ranks (s_lib env) = true → ∀ u, ¬ tc (waits env) u u.
Proof.
  intros K H. apply andb_true_iff in H as [H1%bool_decide_eq_true H2%bool_decide_eq_true].
  assert (Hd : ∀ u d, depends_on (s_graph env) u d → rank_of ranks d < rank_of ranks u ∧
    ∀ l, lesson_of env l d → rank_of ranks l < rank_of ranks u).
  { intros u d Hd. unfold depends_on, get_dependencies, s_graph in Hd.
    destruct (dependency_graph (lib_graph (s_lib env)) !! u) as [ds|] eqn:E; [|done]. simpl in Hd.
    destruct (H1 u ds E d Hd) as [A B]. split; [done|]. intros l Hl. apply B. by apply course_lesson_elem. }
  assert (Hw : ∀ u v, waits env u v → rank_of ranks v < rank_of ranks u).
  { intros u v [x y Hx|x c l Hx Hl|l c Hl]; [by apply Hd|by eapply Hd|]. by apply (H2 l c). }
  assert (Ht : ∀ u v, tc (waits env) u v → rank_of ranks v < rank_of ranks u).
  { intros u v. induction 1 as [u v H|u v w H _ IH]; [by apply Hw|]. apply Hw in H. lia. }
  intros u Hu. apply Ht in Hu. lia.
Qed.
Definition hides (lib : library) (c : uid) : bool :=
  let g := lib_graph lib in
  bool_decide (default ∅ (get_dependencies g c) = ∅) &&
  existsb (λ l, negb (bool_decide (default ∅ (get_dependencies g l) = ∅)) &&
    forallb (λ d, bool_decide (is_Some (get_unit_type g d))) (elements (default ∅ (get_dependencies g l))))
    (elements (default ∅ (get_starting_lessons g c))).
Definition hides_none (lib : library) : bool :=
  bool_decide (map_Forall (λ c (_ : unit_type), hides lib c = false) (type_map (lib_graph lib))).
Lemma hides_none_hidden env : LibOK (s_lib env) → hides_none (s_lib env) = true → ∀ c, ¬ hidden_course env c.
Proof.
  intros K H%bool_decide_eq_true c (Hc & Hnd & l & Hl & [d Hd] & Hall).
  specialize (H c Course Hc). simpl in H. apply andb_false_iff in H as [H|H].
  - apply bool_decide_eq_false in H. apply H. apply set_eq. intros x. rewrite elem_of_empty. split; [|done].
    intros Hx. by apply (Hnd x), dependency_elem.
  - assert (Ht : existsb (λ l, negb (bool_decide (default ∅ (get_dependencies (lib_graph (s_lib env)) l) = ∅)) &&
      forallb (λ d, bool_decide (is_Some (get_unit_type (lib_graph (s_lib env)) d))) (elements (default ∅ (get_dependencies (lib_graph (s_lib env)) l))))
      (elements (default ∅ (get_starting_lessons (lib_graph (s_lib env)) c))) = true); [|congruence].
    apply existsb_exists. exists l. split; [apply elem_of_list_In, elem_of_elements; by apply starting_elem|].
    apply andb_true_iff. split.
    + apply negb_true_iff, bool_decide_eq_false. intros He. apply dependency_elem in Hd. unfold all_dependencies, s_graph in Hd.
      rewrite He in Hd. by apply elem_of_empty in Hd.
    + apply forallb_forall. intros x Hx. apply elem_of_list_In, elem_of_elements in Hx. apply bool_decide_eq_true.
      assert (Hx' : depends_on (s_graph env) l x) by by apply dependency_elem. apply Hall in Hx'. unfold missing, s_graph in Hx'.
      destruct (get_unit_type (lib_graph (s_lib env)) x); [eauto|done].
Qed.
Definition no_exercise_deps (lib : library) : bool :=
  bool_decide (map_Forall (λ _ ds, set_Forall (λ d, get_unit_type (lib_graph lib) d ≠ Some Exercise) ds) (dependency_graph (lib_graph lib))).
Lemma no_exercise_deps_true env : no_exercise_deps (s_lib env) = true →
  ∀ c e, is_course env c → depends_on (s_graph env) c e → get_unit_type (s_graph env) e ≠ Some Exercise.
Proof.
  intros H%bool_decide_eq_true c e _ Hd. unfold depends_on, get_dependencies, s_graph in *.
  destruct (dependency_graph (lib_graph (s_lib env)) !! c) as [ds|] eqn:E; [|done]. by apply (H c ds E e).
Qed.
Definition tour_library : list open_course :=
  a_library [("A", [], [("A::1", [], ["A::1::x"; "A::1::y"]); ("A::2", ["A::1"], ["A::2::x"])]);
             ("B", ["A"; "missing"], [("B::1", [], ["B::1::x"]); ("B::2", ["B::1"; "A::2"], ["B::2::x"])])].
Definition tour_ranks : list (uid * nat) := [("A::1", 1); ("A::2", 2); ("B", 3); ("B::1", 4); ("B::2", 5)].
Lemma tour_example : ∃ env, opened (s_lib env) ∧ (∀ i, orders_ok (plain i)) ∧ mastered env ∧ answers_exercises env ∧
  (∀ u, ¬ tc (waits env) u u) ∧ (∀ c, ¬ hidden_course env c) ∧
  (∀ c e, is_course env c → depends_on (s_graph env) c e → get_unit_type (s_graph env) e ≠ Some Exercise) ∧
  found_ids (from_everything env plain 30 None) = Some ["A::1::x"; "A::1::y"; "A::2::x"; "B::2::x"; "B::1::x"].
Proof.
  destruct (library_checked (λ lib, same_ids_as (found_ids (from_everything (top_env lib) plain 30 None))
    ["A::1::x"; "A::1::y"; "A::2::x"; "B::2::x"; "B::1::x"] &&
    (small_lessons lib && ranked tour_ranks lib && hides_none lib && no_exercise_deps lib)) tour_library)
    as (lib & Ho & H); [apply a_library_consistent|vm_compute; reflexivity|].
  rewrite !andb_true_iff in H. destruct H as [H [[[H1 H2] H3] H4]]. apply bool_decide_eq_true in H.
  pose proof (opened_ok lib Ho) as K. exists (top_env lib). split; [exact Ho|]. split; [exact plain_ok|].
  split; [by apply top_mastered|]. split; [apply top_answers|]. split; [by apply (ranked_waits tour_ranks)|].
  split; [by apply hides_none_hidden|]. split; [by apply no_exercise_deps_true|]. exact H.
Qed.

(** ** A search in the middle of a course *)
(** A::1 was passed, A::2 was not, A::1::y is blacklisted; B waits for A. *)
Definition middle_scores : list (uid * f32) :=
  [("A", f_2); ("A::1", f_4_5); ("A::1::x", f_4_5); ("A::2", f_1); ("A::2::x", f_1)].
Definition middle_env : library → senv := an_env default_options middle_scores ["A::1::y"] ["B::1"; "A::2::x"].
Definition middle_session : session_data := SessionData 0 [PUnit (FCourses ["B"]) 1].
Lemma middle_scores_range lib x s : s_score (middle_env lib) x = Some (Some s) → score_in_range s.
Proof.
  cbn [middle_env an_env s_score]. unfold scores_of. intros H. apply (inj Some) in H.
  apply (elem_of_list_to_map_2 (M := gmap uid)) in H.
  unfold middle_scores in H. rewrite !elem_of_cons in H.
  destruct H as [H|[H|[H|[H|[H|H]]]]]; try (injection H as _ ->; split; vm_compute; reflexivity). by apply elem_of_nil in H.
Qed.
Lemma middle_example : ∃ env, opened (s_lib env) ∧ (∀ i, orders_ok (plain i)) ∧ choices_ok first_choices ∧
  edges_of (s_graph env) (graph_edges (s_graph env)) ∧ verify_options (s_options env) = true ∧ answers_exercises env ∧
  "" ∉ s_banned env ∧ review_known env ∧ (∀ x s, s_score env x = Some (Some s) → score_in_range s) ∧
  uses env true 0 (Some (ESession middle_session)) (Some (FCourses ["B"])) ∧
  (∀ x, x ∈ ({["A::2::x"]} : gset uid) → get_unit_type (s_graph env) x = Some Exercise) ∧
  batch_of_ids (a_batch env ∅ None) = Some ["A::2::x"; "A::1::x"] ∧
  batch_of_ids (a_batch env {["A::2::x"]} None) = Some ["A::2::x"; "A::1::x"] ∧
  batch_of_ids (a_batch env ∅ (Some (ESession middle_session))) = Some ["B::1::x"] ∧
  batch_of_ids (a_batch env ∅ (Some (EUnit (FLessons ["B::2"; "A::1"])))) = Some ["B::2::x"; "A::1::x"] ∧
  batch_of_ids (a_batch env ∅ (Some (EUnit FReviewList))) = Some ["A::2::x"; "B::1::x"] ∧
  batch_of_ids (a_batch env ∅ (Some (EUnit (FDependents ["B"])))) = Some ["B::1::x"] ∧
  batch_of_ids (a_batch env ∅ (Some (EUnit (FDependencies ["B::2"] 1)))) = Some ["A::2::x"; "B::1::x"].
Proof.
  destruct (library_checked (λ lib, let env := middle_env lib in
    same_ids_as (batch_of_ids (a_batch env ∅ None)) ["A::2::x"; "A::1::x"] &&
    same_ids_as (batch_of_ids (a_batch env {["A::2::x"]} None)) ["A::2::x"; "A::1::x"] &&
    same_ids_as (batch_of_ids (a_batch env ∅ (Some (ESession middle_session)))) ["B::1::x"] &&
    same_ids_as (batch_of_ids (a_batch env ∅ (Some (EUnit (FLessons ["B::2"; "A::1"]))))) ["B::2::x"; "A::1::x"] &&
    same_ids_as (batch_of_ids (a_batch env ∅ (Some (EUnit FReviewList)))) ["A::2::x"; "B::1::x"] &&
    same_ids_as (batch_of_ids (a_batch env ∅ (Some (EUnit (FDependents ["B"]))))) ["B::1::x"] &&
    same_ids_as (batch_of_ids (a_batch env ∅ (Some (EUnit (FDependencies ["B::2"] 1))))) ["A::2::x"; "B::1::x"] &&
    bool_decide (get_unit_type (lib_graph lib) "A::2::x" = Some Exercise) &&
    bool_decide (get_unit_type (lib_graph lib) "B::1" = Some Lesson)) tour_library)
    as (lib & Ho & H); [apply a_library_consistent|vm_compute; reflexivity|].
  rewrite !andb_true_iff in H. destruct H as [[[[[[[[H1 H2] H3] H4] H5] H6] H7] H8] H9].
  apply bool_decide_eq_true in H1, H2, H3, H4, H5, H6, H7, H8, H9.
  exists (middle_env lib). split; [exact Ho|]. split; [exact plain_ok|]. split; [apply first_choices_ok|].
  split; [apply graph_edges_of|]. split; [vm_compute; reflexivity|]. split; [apply an_env_answers|].
  split; [apply (bool_decide_unpack _); vm_compute; exact I|]. split.
  { intros u Hu. unfold missing, s_graph. simpl in *. rewrite !elem_of_cons in Hu. destruct Hu as [->|[->|Hu]]; [congruence|congruence|].
    by apply elem_of_nil in Hu. }
  split; [apply middle_scores_range|]. split; [eexists; split; [vm_compute; reflexivity|reflexivity]|].
  split; [intros x Hx%elem_of_singleton; by subst x|]. done.
Qed.

(** A lesson with three exercises and a score of 4.5, and one with four and the passing score. *)
Definition share_library : list open_course :=
  a_library [("A", [], [("A::1", [], ["A::1::1"; "A::1::2"; "A::1::3"]);
                        ("A::2", [], ["A::2::1"; "A::2::2"; "A::2::3"; "A::2::4"])])].
Definition share_scores : list (uid * f32) :=
  [("A::1::1", f_4_5); ("A::1::2", f_4_5); ("A::1::3", f_4_5); ("A::2::1", f_3); ("A::2::2", f_3); ("A::2::3", f_3); ("A::2::4", f_3)].
Definition share_of (x : option (list candidate * f32)) : option (list uid) := (λ y : list candidate * f32, exercise_id <$> y.1) <$> x.
Lemma share_example : ∃ env, opened (s_lib env) ∧ orders_ok plain_orders ∧ passing_numbers env ∧
  fgt (min_fraction (passing_score (s_options env))) fzero = true ∧
  (∃ es, open_exercises env "A::1" es ∧ es ≠ []) ∧
  share_of (lesson_candidates env plain_orders 0 ("A::1", 0)) = Some ["A::1::2"; "A::1::1"; "A::1::3"] ∧
  share_of (lesson_candidates env plain_orders 0 ("A::2", 0)) = Some ["A::2::4"; "A::2::2"].
Proof.
  set (mk := an_env default_options share_scores [] []).
  destruct (library_checked (λ lib,
    bool_decide (share_of (lesson_candidates (mk lib) plain_orders 0 ("A::1", 0)) = Some ["A::1::2"; "A::1::1"; "A::1::3"]) &&
    bool_decide (share_of (lesson_candidates (mk lib) plain_orders 0 ("A::2", 0)) = Some ["A::2::4"; "A::2::2"]) &&
    bool_decide (valid_exercises (mk lib) elements "A::1" ≠ [])) share_library)
    as (lib & Ho & H); [apply a_library_consistent|vm_compute; reflexivity|].
  rewrite !andb_true_iff, !bool_decide_eq_true in H. destruct H as [[H1 H2] H3].
  exists (mk lib). split; [exact Ho|]. split; [apply (plain_ok 0)|]. split; [split_and!; vm_compute; reflexivity|].
  split; [vm_compute; reflexivity|]. split; [|split; [exact H1|exact H2]].
  exists (valid_exercises (mk lib) elements "A::1"). split; [|exact H3]. by apply (valid_open (mk lib) (opened_ok lib Ho)).
Qed.

(** B waits for A; lessons depend on lessons of their own course. *)
Definition own_library : list open_course :=
  a_library [("A", [], [("A::1", [], ["A::1::x"; "A::1::y"]); ("A::2", ["A::1"], ["A::2::x"])]);
             ("B", ["A"], [("B::1", [], ["B::1::x"]); ("B::2", ["B::1"], ["B::2::x"])])].
Definition own_deps (lib : library) : bool :=
  let g := lib_graph lib in
  bool_decide (map_Forall (λ l c, set_Forall (λ d, get_lesson_course g d = Some c) (default ∅ (get_dependencies g l))) (lesson_course_map g)).
Lemma own_course_example : ∃ env, opened (s_lib env) ∧ (∀ i, orders_ok (plain i)) ∧ "" ∉ s_banned env ∧
  (∀ l d c, lesson_of env l c → depends_on (s_graph env) l d → lesson_of env d c) ∧
  found_ids (from_everything env plain 30 None) = Some ["A::1::x"; "A::1::y"; "A::2::x"].
Proof.
  set (mk := an_env default_options [("A", f_1)] [] []).
  destruct (library_checked (λ lib, own_deps lib &&
    same_ids_as (found_ids (from_everything (mk lib) plain 30 None)) ["A::1::x"; "A::1::y"; "A::2::x"]) own_library)
    as (lib & Ho & H); [apply a_library_consistent|vm_compute; reflexivity|].
  rewrite !andb_true_iff in H. destruct H as [H1%bool_decide_eq_true H2%bool_decide_eq_true].
  exists (mk lib). split; [exact Ho|]. split; [exact plain_ok|]. split; [apply not_elem_of_empty|]. split; [|exact H2].
  intros l d c Hl Hd. apply dependency_elem in Hd. exact (H1 l c Hl d Hd).
Qed.
