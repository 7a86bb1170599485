(** Libraries and searches for the examples and refutations of P_Search.v. *)
From stdpp Require Import gmap strings list relations.
From Coq Require Import ZArith.
From Verif Require Import F32 Graph GraphSpec Library LibrarySpec LibraryQueries LibrarySample GraphMore Filters Options OptionsSpec
  OptionsProofs Batch BatchSpec BatchSample BatchMore FinishProofs KnockProofs Search SearchSpec LibFacts WholeProofs.
Local Open Scope string_scope.
Local Open Scope list_scope.

Definition plain_orders : orders := Orders (λ _ s, elements s) (λ _ l, l) (λ _ l, l) (λ _ l, l).
Definition plain (_ : nat) : orders := plain_orders.
Lemma plain_ok i : orders_ok (plain i).
Proof. constructor; done. Qed.

(** ** Libraries *)
Definition a_lesson (l c : uid) (deps es : list uid) : lesson_manifest * list exercise_manifest :=
  (LessonManifest l c deps [] [] None, (λ e, sample_exercise e l c) <$> es).
Definition a_course (c : uid) (deps : list uid) (lessons : list (uid * list uid * list uid)) : open_course :=
  OpenCourse (CourseManifest c deps [] [] None) ((λ x, a_lesson x.1.1 c x.1.2 x.2) <$> lessons).
Lemma a_course_consistent c deps lessons : consistent (a_course c deps lessons).
Proof.
  intros lm exs H. cbn [a_course oc_lessons] in H. apply elem_of_list_fmap in H as (x & H & _).
  unfold a_lesson in H. injection H as -> ->. split; [done|]. simpl. intros em Hem.
  by apply elem_of_list_fmap in Hem as (e & -> & _).
Qed.
Definition a_library (courses : list (uid * list uid * list (uid * list uid * list uid))) : list open_course :=
  (λ x, a_course x.1.1 x.1.2 x.2) <$> courses.
Lemma a_library_consistent courses : Forall consistent (a_library courses).
Proof. apply Forall_fmap, Forall_true. intros x. apply a_course_consistent. Qed.

Definition library_check (P : library → bool) (courses : list open_course) : bool :=
  match open_library sample_order courses with Some lib => P lib | None => false end.
Lemma library_checked P courses : Forall consistent courses → library_check P courses = true →
  ∃ lib, opened lib ∧ P lib = true.
Proof.
  unfold library_check. destruct (open_library _ _) as [lib|] eqn:E; [|done]. intros Hc H. exists lib. split; [|done].
  exists sample_order, courses. split; [apply sample_order_ok|done].
Qed.

(** ** Searches *)
Definition f_20 : f32 := lit false 10485760 (-19) eq_refl.
Definition scores_of (l : list (uid * f32)) (u : uid) : option (option f32) :=
  Some ((list_to_map l : gmap uid f32) !! u).
(** A search with the given scores, twenty trials of everything that has a score, and no urgency. *)
Definition an_env (o : scheduler_options) (scores : list (uid * f32)) (ban review : list uid) (lib : library) : senv :=
  SEnv lib (list_to_set ban) (λ _, false) (scores_of scores) (λ _, Some fzero) (λ _, Some None)
    (λ u, (λ _, f_20) <$> ((list_to_map scores : gmap uid f32) !! u)) (λ _, 0) o review (λ _, None).
Lemma an_env_answers o scores ban review lib : answers_exercises (an_env o scores ban review lib).
Proof. intros e l _. split_and!; simpl; unfold scores_of; eauto. Qed.
Definition a_batch (env : senv) (pile : gset uid) (f : option exercise_filter) : batch_result :=
  get_exercise_batch env plain 30 true 0 no_libm first_choices (graph_edges (s_graph env)) (same_options (s_options env)) f_1 pile f.
Definition found_ids (r : sresult) : option (list uid) :=
  match r with Found cs => Some (exercise_id <$> cs) | _ => None end.
Definition batch_of_ids (b : batch_result) : option (list uid) :=
  match b with BatchOf es => Some (em_id <$> es) | _ => None end.
Definition is_error (b : batch_result) : bool := match b with BatchError => true | _ => false end.
Definition same_ids_as (x : option (list uid)) (l : list uid) : bool := bool_decide (x = Some l).
Lemma found_is r l : same_ids_as (found_ids r) l = true → ∃ cs, r = Found cs ∧ exercise_id <$> cs = l.
Proof. intros H%bool_decide_eq_true. destruct r as [cs| |]; [|done|done]. injection H as H. by exists cs. Qed.
Lemma batch_is b l : same_ids_as (batch_of_ids b) l = true → ∃ es, b = BatchOf es ∧ em_id <$> es = l.
Proof. intros H%bool_decide_eq_true. destruct b as [es| | |]; try done. injection H as H. by exists es. Qed.
Lemma error_is b : is_error b = true → b = BatchError.
Proof. by destruct b. Qed.
Definition in_lesson (lib : library) (e l : uid) : bool := bool_decide (get_exercise_lesson (lib_graph lib) e = Some l).
Definition in_course (lib : library) (l c : uid) : bool := bool_decide (get_lesson_course (lib_graph lib) l = Some c).
Definition has_deps (lib : library) (u : uid) (ds : list uid) : bool :=
  bool_decide (default ∅ (get_dependencies (lib_graph lib) u) = list_to_set ds).
Lemma has_deps_iff env u ds : has_deps (s_lib env) u ds = true → ∀ d, depends_on (s_graph env) u d ↔ d ∈ ds.
Proof.
  intros H%bool_decide_eq_true d. unfold depends_on. rewrite <-answers_default. unfold s_graph. rewrite H.
  apply elem_of_list_to_set.
Qed.

(** ** A blacklisted exercise in the review list *)
Definition one_library : list open_course := a_library [("A", [], [("A::1", [], ["A::1::x"])])].
Lemma review_blacklisted : ∃ env os fuel checks time m r e oc rate es em,
  opened (s_lib env) ∧ (∀ i, orders_ok (os i)) ∧ choices_ok r ∧ edges_of (s_graph env) e ∧ verify_options (s_options env) = true ∧
  get_exercise_batch env os fuel checks time m r e oc rate ∅ (Some (EUnit FReviewList)) = BatchOf es ∧
  em ∈ es ∧ em_id em ∈ s_banned env.
Proof.
  set (mk := an_env default_options [] ["A::1::x"] ["A::1::x"]).
  destruct (library_checked (λ lib, same_ids_as (batch_of_ids (a_batch (mk lib) ∅ (Some (EUnit FReviewList)))) ["A::1::x"]) one_library)
    as (lib & Ho & H); [apply a_library_consistent|vm_compute; reflexivity|].
  apply batch_is in H as (es & H & Hes). destruct es as [|em [|]]; try discriminate. injection Hes as Hem.
  exists (mk lib). eexists plain, 30, true, 0%Z, no_libm, first_choices, _, _, f_1, [em], em.
  split; [exact Ho|]. split; [exact plain_ok|]. split; [apply first_choices_ok|].
  split; [|split; [|split; [exact H|]]]; [apply graph_edges_of|vm_compute; reflexivity|].
  split; [left|]. rewrite Hem. apply elem_of_list_to_set. left.
Qed.

(** ** Repeated exercises *)
Lemma repeated_lesson : ∃ env os fuel checks time m r e rate es l,
  opened (s_lib env) ∧ (∀ i, orders_ok (os i)) ∧ choices_ok r ∧ edges_of (s_graph env) e ∧ s_options env = default_options ∧
  (∀ x s, s_score env x = Some (Some s) → score_in_range s) ∧
  get_exercise_batch env os fuel checks time m r e (same_options default_options) rate ∅ (Some (EUnit (FLessons [l; l]))) = BatchOf es ∧
  ¬ NoDup (em_id <$> es).
Proof.
  set (mk := an_env default_options [] [] []).
  destruct (library_checked (λ lib, same_ids_as (batch_of_ids (a_batch (mk lib) ∅ (Some (EUnit (FLessons ["A::1"; "A::1"])))))
    ["A::1::x"; "A::1::x"]) one_library) as (lib & Ho & H); [apply a_library_consistent|vm_compute; reflexivity|].
  apply batch_is in H as (es & H & Hes).
  exists (mk lib). eexists plain, 30, true, 0%Z, no_libm, first_choices, _, f_1, es, "A::1".
  split; [exact Ho|]. split; [exact plain_ok|]. split; [apply first_choices_ok|].
  split; [|split; [|split; [|split; [exact H|]]]]; [apply graph_edges_of|done| |].
  - intros x s Hs. discriminate Hs.
  - rewrite Hes. intros N. apply NoDup_cons in N as [N _]. apply N. left.
Qed.
Lemma repeated_entry : ∃ env os fuel checks time m r e rate es,
  opened (s_lib env) ∧ (∀ i, orders_ok (os i)) ∧ choices_ok r ∧ edges_of (s_graph env) e ∧ s_options env = default_options ∧
  (∀ x s, s_score env x = Some (Some s) → score_in_range s) ∧ NoDup (s_review env) ∧
  get_exercise_batch env os fuel checks time m r e (same_options default_options) rate ∅ (Some (EUnit FReviewList)) = BatchOf es ∧
  ¬ NoDup (em_id <$> es).
Proof.
  set (mk := an_env default_options [] [] ["A"; "A::1::x"]).
  destruct (library_checked (λ lib, same_ids_as (batch_of_ids (a_batch (mk lib) ∅ (Some (EUnit FReviewList))))
    ["A::1::x"; "A::1::x"]) one_library) as (lib & Ho & H); [apply a_library_consistent|vm_compute; reflexivity|].
  apply batch_is in H as (es & H & Hes).
  exists (mk lib). eexists plain, 30, true, 0%Z, no_libm, first_choices, _, f_1, es.
  split; [exact Ho|]. split; [exact plain_ok|]. split; [apply first_choices_ok|].
  split; [|split; [|split; [|split; [|split; [exact H|]]]]]; [apply graph_edges_of|done| | |].
  - intros x s Hs. discriminate Hs.
  - apply (bool_decide_unpack _). vm_compute. exact I.
  - rewrite Hes. intros N. apply NoDup_cons in N as [N _]. apply N. left.
Qed.

(** ** The relearn pile ignores the filter *)
Definition two_library : list open_course :=
  a_library [("A", [], [("A::1", [], ["A::1::x"])]); ("B", [], [("B::1", [], ["B::1::x"])])].
Lemma pile_ignores_filter : ∃ env os fuel checks time m r e oc rate pile es em c,
  opened (s_lib env) ∧ (∀ i, orders_ok (os i)) ∧ choices_ok r ∧ edges_of (s_graph env) e ∧ verify_options (s_options env) = true ∧
  (∀ x, x ∈ pile → get_unit_type (s_graph env) x = Some Exercise) ∧
  get_exercise_batch env os fuel checks time m r e oc rate pile (Some (EUnit (FCourses [c]))) = BatchOf es ∧
  em ∈ es ∧ ∀ l, exercise_of env (em_id em) l → ¬ lesson_of env l c.
Proof.
  set (mk := an_env default_options [] [] []).
  destruct (library_checked (λ lib, same_ids_as (batch_of_ids (a_batch (mk lib) {["B::1::x"]} (Some (EUnit (FCourses ["A"])))))
    ["B::1::x"; "A::1::x"] && (in_lesson lib "B::1::x" "B::1" && in_course lib "B::1" "B" &&
      bool_decide (get_unit_type (lib_graph lib) "B::1::x" = Some Exercise))) two_library)
    as (lib & Ho & H); [apply a_library_consistent|vm_compute; reflexivity|].
  apply andb_true_iff in H as [H H2]. unfold in_lesson, in_course in H2. rewrite !andb_true_iff, !bool_decide_eq_true in H2. destruct H2 as [[H2 H3] H4].
  apply batch_is in H as (es & H & Hes). destruct es as [|em rest]; [discriminate|]. injection Hes as Hem Hrest.
  exists (mk lib). eexists plain, 30, true, 0%Z, no_libm, first_choices, _, _, f_1, _, _, em, "A".
  split; [exact Ho|]. split; [exact plain_ok|]. split; [apply first_choices_ok|].
  split; [|split; [|split; [|split; [exact H|]]]]; [apply graph_edges_of|vm_compute; reflexivity| |].
  - intros x Hx%elem_of_singleton. by subst x.
  - split; [left|]. intros l Hl Hc. unfold exercise_of, lesson_of, s_graph in *. simpl in *. rewrite Hem in Hl.
    rewrite H2 in Hl. injection Hl as <-. rewrite H3 in Hc. discriminate.
Qed.

(** ** An unknown exercise in the relearn pile *)
Lemma unknown_breaks : ∃ env os fuel checks time m r e oc rate x score es,
  opened (s_lib env) ∧ (∀ i, orders_ok (os i)) ∧ choices_ok r ∧ edges_of (s_graph env) e ∧ verify_options (s_options env) = true ∧
  answers_exercises env ∧ missing env x ∧
  get_exercise_batch env os fuel checks time m r e oc rate ∅ None = BatchOf es ∧ es ≠ [] ∧
  get_exercise_batch env os fuel checks time m r e oc rate (update_pile ∅ x score) None = BatchError.
Proof.
  set (mk := an_env default_options [] [] []).
  destruct (library_checked (λ lib, same_ids_as (batch_of_ids (a_batch (mk lib) ∅ None)) ["A::1::x"] &&
    (is_error (a_batch (mk lib) (update_pile ∅ "unknown" One) None) &&
      bool_decide (get_unit_type (lib_graph lib) "unknown" = None))) one_library)
    as (lib & Ho & H); [apply a_library_consistent|vm_compute; reflexivity|].
  rewrite !andb_true_iff in H. destruct H as [H [H2 H3]]. apply bool_decide_eq_true in H3. apply error_is in H2.
  apply batch_is in H as (es & H & Hes).
  exists (mk lib). eexists plain, 30, true, 0%Z, no_libm, first_choices, _, _, f_1, "unknown", One, es.
  split; [exact Ho|]. split; [exact plain_ok|]. split; [apply first_choices_ok|].
  split; [|split; [|split; [|split; [exact H3|split; [exact H|split; [|exact H2]]]]]];
    [apply graph_edges_of|vm_compute; reflexivity|apply an_env_answers|].
  intros ->. discriminate.
Qed.
Lemma unknown_review : ∃ env os fuel checks time m r e oc rate x,
  opened (s_lib env) ∧ (∀ i, orders_ok (os i)) ∧ choices_ok r ∧ edges_of (s_graph env) e ∧ verify_options (s_options env) = true ∧
  answers_exercises env ∧ s_review env = ["A::1"; x] ∧ is_lesson env "A::1" ∧ missing env x ∧
  get_exercise_batch env os fuel checks time m r e oc rate ∅ (Some (EUnit FReviewList)) = BatchError.
Proof.
  set (mk := an_env default_options [] [] ["A::1"; "unknown"]).
  destruct (library_checked (λ lib, is_error (a_batch (mk lib) ∅ (Some (EUnit FReviewList))) &&
      (bool_decide (get_unit_type (lib_graph lib) "unknown" = None) &&
      bool_decide (get_unit_type (lib_graph lib) "A::1" = Some Lesson))) one_library)
    as (lib & Ho & H); [apply a_library_consistent|vm_compute; reflexivity|].
  rewrite !andb_true_iff, !bool_decide_eq_true in H. destruct H as [H2 [H3 H4]]. apply error_is in H2.
  exists (mk lib). eexists plain, 30, true, 0%Z, no_libm, first_choices, _, _, f_1, "unknown".
  split; [exact Ho|]. split; [exact plain_ok|]. split; [apply first_choices_ok|].
  split; [|split; [|split; [|split; [|split; [exact H4|split; [exact H3|exact H2]]]]]];
    [apply graph_edges_of|vm_compute; reflexivity|apply an_env_answers|done].
Qed.

(** ** More lessons in progress than configured *)
Definition with_limit (n : nat) : scheduler_options := {|
  batch_size := 50; relearn_fraction := relearn_fraction default_options;
  new_window := new_window default_options; target_window := target_window default_options;
  current_window := current_window default_options; easy_window := easy_window default_options;
  mastered_window := mastered_window default_options;
  passing_score := default_passing; superseding_score := f_4; num_trials := 20; num_deltas := 10;
  num_rewards := 10; max_lessons_in_progress := n |}.
(** The score of a lesson with one exercise. *)
Lemma single_score env e l c s : LibOK (s_lib env) → exercise_of env e l → lesson_of env l c → 
  bool_decide (get_lesson_exercises (s_graph env) l = Some {[e]}) = true → s_score env e = Some s →
  ∀ x, lesson_score env l x → x = average [default fzero s].
Proof.
  intros K He Hl Hb%bool_decide_eq_true Hs x (es & scores & [Hnd Hes] & Hne & Hf & ->).
  assert (Hone : ∀ e', e' ∈ es → e' = e).
  { intros e' He'. apply Hes in He' as [He' _]. apply exercise_elem in He'; [|done]. rewrite Hb in He'. set_solver. }
  destruct es as [|a [|b es]]; [done| |].
  - inversion Hf as [|? s' ? ? (o & Ho & ->) Hr]; subst. inversion Hr; subst. rewrite (Hone a) in Ho by left.
    rewrite Hs in Ho. by injection Ho as <-.
  - exfalso. apply NoDup_cons in Hnd as [Hnd _]. apply Hnd. rewrite (Hone a), (Hone b) by (repeat (left || right)). left.
Qed.
Definition lesson_is (lib : library) (l e c : uid) : bool :=
  in_lesson lib e l && (in_course lib l c && bool_decide (get_lesson_exercises (lib_graph lib) l = Some {[e]})).
Lemma lesson_is_true lib l e c : lesson_is lib l e c = true →
  get_exercise_lesson (lib_graph lib) e = Some l ∧ get_lesson_course (lib_graph lib) l = Some c ∧
  bool_decide (get_lesson_exercises (lib_graph lib) l = Some {[e]}) = true.
Proof. unfold lesson_is, in_lesson, in_course. rewrite !andb_true_iff, !bool_decide_eq_true. tauto. Qed.
Lemma limit_exceeded : ∃ env os fuel cs ls,
  opened (s_lib env) ∧ (∀ i, orders_ok (os i)) ∧ verify_options (s_options env) = true ∧ NoDup ls ∧
  unit_candidates env os fuel (Some (FLessons ls)) = Found cs ∧
  ¬ in_progress_at_most env (max_lessons_in_progress (s_options env)) cs.
Proof.
  set (mk := an_env (with_limit 1) [] [] []).
  destruct (library_checked (λ lib, same_ids_as (found_ids (unit_candidates (mk lib) plain 30 (Some (FLessons ["A::1"; "B::1"]))))
    ["A::1::x"; "B::1::x"] && (lesson_is lib "A::1" "A::1::x" "A" && lesson_is lib "B::1" "B::1::x" "B")) two_library)
    as (lib & Ho & H); [apply a_library_consistent|vm_compute; reflexivity|].
  rewrite !andb_true_iff in H. destruct H as [H [HA HB]]. apply found_is in H as (cs & H & Hids).
  apply lesson_is_true in HA as (A1 & A2 & A3), HB as (B1 & B2 & B3).
  pose proof (opened_ok lib Ho) as K.
  exists (mk lib), plain, 30, cs, ["A::1"; "B::1"]. split; [exact Ho|]. split; [exact plain_ok|]. split; [vm_compute; reflexivity|].
  split; [apply (bool_decide_unpack _); vm_compute; exact I|]. split; [exact H|].
  intros (P & Hsize & HP).
  assert (Hin : ∀ e l c, e ∈ exercise_id <$> cs → get_exercise_lesson (lib_graph lib) e = Some l →
    get_lesson_course (lib_graph lib) l = Some c →
    bool_decide (get_lesson_exercises (lib_graph lib) l = Some {[e]}) = true → l ∈ P).
  { intros e l c He E1 E2 E3. apply elem_of_list_fmap in He as (x & -> & Hx).
    destruct (candidates_in_place (mk lib) K plain plain_ok 30 _ cs x H Hx) as [[Hp _] _].
    unfold exercise_of, s_graph in Hp. simpl in Hp. rewrite E1 in Hp. injection Hp as Hp. rewrite <-Hp in HP || idtac.
    destruct (HP x Hx) as [Hl|(s & Hs & Hgt)]; [by rewrite Hp|]. exfalso. rewrite <-Hp in Hs.
    rewrite (single_score (mk lib) (exercise_id x) l c None K E1 E2 E3 eq_refl s Hs) in Hgt. revert Hgt. vm_compute. discriminate. }
  assert (HA : "A::1" ∈ P) by (eapply (Hin "A::1::x"); try done; rewrite Hids; left).
  assert (HB : "B::1" ∈ P) by (eapply (Hin "B::1::x"); try done; rewrite Hids; right; left).
  assert (Hsub : ({["A::1"; "B::1"]} : gset uid) ⊆ P) by set_solver.
  apply subseteq_size in Hsub. rewrite size_union, !size_singleton in Hsub by set_solver. simpl in Hsize. lia.
Qed.

(** ** A lesson of which nothing is offered *)
Definition no_share : scheduler_options := {|
  batch_size := 50; relearn_fraction := relearn_fraction default_options;
  new_window := new_window default_options; target_window := target_window default_options;
  current_window := current_window default_options; easy_window := easy_window default_options;
  mastered_window := mastered_window default_options;
  passing_score := PassingOptions fzero (min_score default_passing) (min_avg_trials default_passing);
  superseding_score := f_4; num_trials := 20; num_deltas := 10;
  num_rewards := 10; max_lessons_in_progress := 10 |}.
Lemma nothing_offered : ∃ env os fuel l e,
  opened (s_lib env) ∧ (∀ i, orders_ok (os i)) ∧ verify_options (s_options env) = true ∧
  exercise_of env e l ∧ clean env e ∧ s_score env e = Some (Some (min_score (passing_score (s_options env)))) ∧
  unit_candidates env os fuel (Some (FLessons [l])) = Found [].
Proof.
  set (mk := an_env no_share [("A::1::x", min_score default_passing)] [] []).
  destruct (library_checked (λ lib, same_ids_as (found_ids (unit_candidates (mk lib) plain 30 (Some (FLessons ["A::1"]))))
    [] && in_lesson lib "A::1::x" "A::1") one_library)
    as (lib & Ho & H); [apply a_library_consistent|vm_compute; reflexivity|].
  rewrite !andb_true_iff in H. destruct H as [H HA]. apply found_is in H as (cs & H & Hids). apply bool_decide_eq_true in HA.
  exists (mk lib), plain, 30, "A::1", "A::1::x". split; [exact Ho|]. split; [exact plain_ok|]. split; [vm_compute; reflexivity|].
  split; [exact HA|]. split; [|split; [vm_compute; reflexivity|]].
  - split; [apply not_elem_of_empty|]. intros l' _. split; [apply not_elem_of_empty|]. intros c _. apply not_elem_of_empty.
  - rewrite H. f_equal. by destruct cs.
Qed.

(** ** Locked material *)
Lemma not_satisfied env u s t : LibOK (s_lib env) → ¬ missing env u → u ∉ s_banned env →
  (∀ c, lesson_of env u c → c ∉ s_banned env) → s_superseded env u = false → s_score env u = Some (Some s) →
  s_trials env u = Some t → fge s (min_score (passing_score (s_options env))) = false → ¬ satisfied env u.
Proof.
  intros K Hm Hb Hc Hs Hsc Ht Hlow [H|[H|[(c & H & H')|[H|H]]]]; [done|done|by eapply Hc|congruence|].
  destruct (H s t Hsc Ht) as [H1 _]. congruence.
Qed.
(** Course C depends on course E, which was not passed; its lesson depends on a lesson of D. *)
Definition side_library : list open_course :=
  a_library [("D", [], [("D::1", [], ["D::1::x"])]); ("E", [], [("E::1", [], ["E::1::x"])]);
             ("C", ["E"], [("C::1", ["D::1"], ["C::1::x"])])].
Definition side_scores : list (uid * f32) :=
  [("D", f_5); ("D::1", f_5); ("D::1::x", f_5); ("E", f_1); ("E::1", f_1); ("E::1::x", f_1)].
Lemma locked_course_offered : ∃ env os fuel cs x,
  opened (s_lib env) ∧ (∀ i, orders_ok (os i)) ∧ verify_options (s_options env) = true ∧ s_banned env = ∅ ∧
  unit_candidates env os fuel None = Found cs ∧ x ∈ cs ∧ ¬ unlocked env None (course_id x).
Proof.
  set (mk := an_env default_options side_scores [] []).
  destruct (library_checked (λ lib, match unit_candidates (mk lib) plain 30 None with
      | Found cs => existsb (λ x, bool_decide (course_id x = "C")) cs | _ => false end &&
    (has_deps lib "C" ["E"] && bool_decide (get_unit_type (lib_graph lib) "E" = Some Course))) side_library)
    as (lib & Ho & H); [apply a_library_consistent|vm_compute; reflexivity|].
  rewrite !andb_true_iff in H. destruct H as [H [HC HE]]. apply bool_decide_eq_true in HE.
  destruct (unit_candidates (mk lib) plain 30 None) as [cs| |] eqn:Ecs; [|done|done].
  apply existsb_exists in H as (x & Hx & Hc%bool_decide_eq_true). apply elem_of_list_In in Hx.
  exists (mk lib), plain, 30, cs, x. split; [exact Ho|]. split; [exact plain_ok|]. split; [vm_compute; reflexivity|].
  split; [done|]. split; [exact Ecs|]. split; [exact Hx|]. rewrite Hc. intros Hun.
  assert (Hd : depends_on (s_graph (mk lib)) "C" "E") by (apply (has_deps_iff (mk lib) "C" ["E"] HC); left).
  pose proof (Hun "E" "E" Hd (stands_itself (mk lib) None "E" I)) as Hs. revert Hs.
  apply (not_satisfied (mk lib) "E" f_1 f_20 (opened_ok lib Ho)); [| | |reflexivity..|vm_compute; reflexivity].
  - unfold missing, s_graph. simpl. rewrite HE. discriminate.
  - apply not_elem_of_empty.
  - intros c _. apply not_elem_of_empty.
Qed.
(** Course C depends on course D, which was not passed. *)
Definition chain_library : list open_course :=
  a_library [("C", ["D"], [("C::1", [], ["C::1::x"])]); ("D", [], [("D::1", [], ["D::1::x"])])].
Definition chain_scores : list (uid * f32) := [("D", f_1); ("D::1", f_1); ("D::1::x", f_1)].
Definition rest_free (lib : library) : bool :=
  bool_decide (dom (dependency_graph (lib_graph lib)) ⊆ {["C"; "D"; "C::1"; "D::1"]}).
Lemma blank_unlocks : ∃ env os fuel cs x,
  opened (s_lib env) ∧ (∀ i, orders_ok (os i)) ∧ verify_options (s_options env) = true ∧ s_banned env = {[""]} ∧
  unit_candidates env os fuel None = Found cs ∧ x ∈ cs ∧ ¬ reachable env None (starting_unit env) (lesson_id x).
Proof.
  set (mk := an_env default_options chain_scores [""] []).
  destruct (library_checked (λ lib, match unit_candidates (mk lib) plain 30 None with
      | Found cs => existsb (λ x, bool_decide (lesson_id x = "C::1")) cs | _ => false end &&
    (has_deps lib "C" ["D"] && has_deps lib "C::1" [] && bool_decide (get_unit_type (lib_graph lib) "D" = Some Course) &&
     bool_decide (get_unit_type (lib_graph lib) "C" = Some Course) && in_course lib "C::1" "C")) chain_library)
    as (lib & Ho & H); [apply a_library_consistent|vm_compute; reflexivity|].
  rewrite !andb_true_iff in H. destruct H as [H [[[[HC HC1] HD] HCc] Hl]]. apply bool_decide_eq_true in HD, HCc, Hl.
  destruct (unit_candidates (mk lib) plain 30 None) as [cs| |] eqn:Ecs; [|done|done].
  apply existsb_exists in H as (x & Hx & Hc%bool_decide_eq_true). apply elem_of_list_In in Hx.
  exists (mk lib), plain, 30, cs, x. split; [exact Ho|]. split; [exact plain_ok|]. split; [vm_compute; reflexivity|].
  split; [simpl; apply union_empty_r_L|]. split; [exact Ecs|]. split; [exact Hx|]. rewrite Hc.
  assert (Hd : depends_on (s_graph (mk lib)) "C" "D") by (apply (has_deps_iff (mk lib) "C" ["D"] HC); left).
  assert (Hlo : ¬ satisfied (mk lib) "D").
  { apply (not_satisfied (mk lib) "D" f_1 f_20 (opened_ok lib Ho)); [| | |reflexivity..|vm_compute; reflexivity].
    - unfold missing, s_graph. simpl. rewrite HD. discriminate.
    - apply (bool_decide_unpack _). vm_compute. exact I.
    - intros c Hcc. apply (lesson_of_types (mk lib) (opened_ok lib Ho)) in Hcc as [Hcc _].
      unfold is_lesson, s_graph in Hcc. simpl in Hcc. congruence. }
  assert (Hlock : ¬ unlocked (mk lib) None "C").
  { intros Hun. apply Hlo. exact (Hun "D" "D" Hd (stands_itself (mk lib) None "D" I)). }
  intros Hre. assert (Hboth : ∀ u, reachable (mk lib) None (starting_unit (mk lib)) u → u ≠ "C" ∧ u ≠ "C::1"); [|by destruct (Hboth _ Hre)].
  clear Hre. induction 1 as [u [Hm Hs] _|c l Hcr IH [Hf _] Hu|u v Hur IH Hdv Hv|c l Hlc Hall IH].
  - split; intros ->.
    + specialize (Hm _ Hd). unfold missing, s_graph in Hm. simpl in Hm. congruence.
    + destruct Hs as [Hs|[_ [d Hs]]].
      * destruct (lesson_of_types (mk lib) (opened_ok lib Ho) "C::1" "C" Hl) as [Hl' _]. unfold is_course, is_lesson in *. congruence.
      * apply (has_deps_iff (mk lib) "C::1" [] HC1) in Hs. by apply elem_of_nil in Hs.
  - destruct IH as [IH _]. split; intros ->.
    + apply (lesson_of_types (mk lib) (opened_ok lib Ho)) in Hf as [Hf _]. unfold is_lesson, s_graph in Hf. simpl in Hf. congruence.
    + apply IH. unfold lesson_of, s_graph in Hf. simpl in Hf. congruence.
  - split; intros ->; [done|]. apply (has_deps_iff (mk lib) "C::1" [] HC1) in Hdv. by apply elem_of_nil in Hdv.
  - split; intros ->.
    + destruct (IH "C::1" Hl) as [_ ?]. done.
    + apply (lesson_of_types (mk lib) (opened_ok lib Ho)) in Hlc as [_ Hlc].
      destruct (lesson_of_types (mk lib) (opened_ok lib Ho) "C::1" "C" Hl) as [Hl' _]. unfold is_course, is_lesson in *. congruence.
Qed.
