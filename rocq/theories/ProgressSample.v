(** Students in the middle of a library, for P_Progress.v. *)
From stdpp Require Import gmap strings list relations.
From Coq Require Import ZArith.
From Verif Require Import F32 Graph GraphSpec GraphMore Library LibrarySpec LibraryQueries LibrarySample Filters Options OptionsSpec
  OptionsProofs Batch BatchSpec BatchSample Search SearchSpec ProgressSpec LibFacts ResolveProofs CandidateProofs TermProofs ShareProofs CompleteProofs WholeProofs SearchSample SearchMore
  TidyProofs ProgressProofs.
Local Open Scope string_scope.
Local Open Scope list_scope.

(** Some units have a score of 5, the others of 1; two trials of everything. *)
Definition half_env (top gone : list uid) (lib : library) : senv :=
  SEnv lib ∅ (λ u, bool_decide (u ∈ gone))
    (λ u, match get_unit_type (lib_graph lib) u with
          | None => None
          | Some _ => Some (Some (if bool_decide (u ∈ top) then f_5 else f_1))
          end)
    (λ _, Some fzero) (λ _, Some None) (λ _, Some f_2) (λ _, 0) default_options [] (λ _, None).

(** Exercises go with their lessons, lessons have one or two exercises, and courses without a
    score of 5 that are not superseded have lessons without one. *)
Definition half_check (top gone : list uid) (lib : library) : bool :=
  let g := lib_graph lib in
  bool_decide (map_Forall (λ e l, bool_decide (e ∈ top) = bool_decide (l ∈ top)) (exercise_lesson_map g)) &&
  bool_decide (map_Forall (λ u t, t = Lesson → size (default ∅ (get_lesson_exercises g u)) ∈ [1; 2]) (type_map g)) &&
  bool_decide (map_Forall (λ u t, t = Course → u ∈ top ∨ u ∈ gone ∨
    set_Exists (λ l, l ∉ top ∧ l ∉ gone) (default ∅ (get_course_lessons g u))) (type_map g)).

Lemma half_answers top gone lib : LibOK lib → answers_exercises (half_env top gone lib).
Proof.
  intros K e l He. apply (exercise_of_types (half_env top gone lib) K) in He as [He _]. unfold s_graph in He. simpl in *. rewrite He. eauto.
Qed.

Section half.
  Context (top gone : list uid) (lib : library) (Hop : opened lib) (Hc : half_check top gone lib = true).
  Let env := half_env top gone lib.

  Lemma half_lesson l x : lesson_score env l x → fge x f_3 = bool_decide (l ∈ top) ∧ fis_nan x = false.
  Proof using Hop Hc.
    unfold half_check in Hc. rewrite !andb_true_iff, !bool_decide_eq_true in Hc. destruct Hc as [[H1 H2] H3].
    pose proof (opened_ok _ Hop) as K.
    intros (es & scores & [Hnd Hes] & Hne & Hf & ->).
    assert (Hll : is_lesson env l).
    { destruct es as [|e es]; [done|]. destruct (proj1 (Hes e)) as [He _]; [left|]. by apply (exercise_of_types env K e l). }
    assert (Hlen : length es ≤ 2).
    { assert (Hsub : (list_to_set es : gset uid) ⊆ default ∅ (get_lesson_exercises (lib_graph lib) l)).
      { intros e He. apply elem_of_list_to_set, Hes in He as [He _]. by apply (exercise_elem env K). }
      apply subseteq_size in Hsub. rewrite size_list_to_set in Hsub by done.
      specialize (H2 l Lesson Hll eq_refl). simpl in H2. rewrite !elem_of_cons, elem_of_nil in H2.
      destruct H2 as [H2|[H2|[]]]; change (default ∅ (get_lesson_exercises (lib_graph lib) l)) with (default ∅ (get_lesson_exercises (s_graph env) l)) in *; rewrite H2 in Hsub; lia. }
    set (v := if bool_decide (l ∈ top) then f_5 else f_1).
    assert (scores = replicate (length es) v) as ->.
    { assert (Hv : ∀ e, e ∈ es → s_score env e = Some (Some v)).
      { intros e He. apply Hes in He as [He _]. destruct (exercise_of_types env K e l He) as [Ht _].
        unfold s_graph in Ht. cbn [env half_env s_score s_lib] in *. rewrite Ht. pose proof (H1 e l He) as E. cbn beta in E. by rewrite E. }
      clear -Hf Hv. induction Hf as [|e s es scores (o & Ho & ->) _ IH]; [done|]. simpl. f_equal.
      - rewrite Hv in Ho by left. by injection Ho as <-.
      - apply IH. intros e' He'. apply Hv. by right. }
    unfold v. clear -Hne Hlen.
    destruct es as [|a [|b [|]]]; [done| | |simpl in Hlen; lia]; destruct (bool_decide (l ∈ top)); cbn [length replicate]; split; vm_compute; reflexivity.
  Qed.
  Lemma half_steady : steady env.
  Proof using Hop Hc.
    pose proof half_lesson as HL. unfold half_check in Hc. rewrite !andb_true_iff, !bool_decide_eq_true in Hc. destruct Hc as [[H1 H2] H3].
    pose proof (opened_ok _ Hop) as K. constructor.
    - intros l x s Hl Hx Hge Hs. apply HL in Hx. unfold is_lesson, s_graph in Hl. cbn [env half_env s_score s_lib] in *. rewrite Hl in Hs.
      injection Hs as <-. destruct (bool_decide (l ∈ top)); [vm_compute; reflexivity|]. destruct Hx as [Hx _]. change (fge x f_3 = true) in Hge. congruence.
    - intros l s Hl Hs. specialize (H2 l Lesson Hl eq_refl). simpl in H2.
      set (es := elements (default ∅ (get_lesson_exercises (s_graph env) l))).
      assert (Hes : ∀ e, e ∈ es ↔ exercise_of env e l) by (intros e; unfold es; rewrite elem_of_elements; by apply (exercise_elem env K)).
      assert (Hne : es ≠ []).
      { unfold es. intros E%elements_empty_inv. apply leibniz_equiv in E.
        change (default ∅ (get_lesson_exercises (lib_graph lib) l)) with (default ∅ (get_lesson_exercises (s_graph env) l)) in H2.
        rewrite E, size_empty in H2. by rewrite !elem_of_cons, elem_of_nil in H2; destruct H2 as [|[|]]. }
      eexists. exists es, (default fzero <$> ((λ e, default None (s_score env e)) <$> es)). split; [|split; [done|split; [|reflexivity]]].
      + split; [apply NoDup_elements|]. intros e. rewrite Hes. split; [|by intros [? _]]. intros He. split; [done|].
        split; [apply not_elem_of_empty|]. intros ? _. split; [apply not_elem_of_empty|]. intros ? _. apply not_elem_of_empty.
      + rewrite <-list_fmap_compose. apply Forall2_fmap_r, Forall_Forall2_diag, Forall_forall. intros e He. apply Hes in He.
        destruct (half_answers top gone lib K e l He) as ([o Ho] & _). exists o. change (half_env top gone lib) with env in Ho. split; [done|]. unfold compose. by rewrite Ho.
    - intros c Hcc Hall. specialize (H3 c Course Hcc eq_refl). cbn beta in H3. destruct H3 as [H3|[H3|(l & Hl & Hn & Hn')]].
      + do 4 right. intros s t Hs Ht. unfold is_course, s_graph in Hcc. cbn [env half_env s_score s_trials s_lib s_options] in *. rewrite Hcc in Hs.
        rewrite bool_decide_eq_true_2 in Hs by done. injection Hs as <-. injection Ht as <-. split; vm_compute; reflexivity.
      + do 3 right. left. cbn. by apply bool_decide_eq_true.
      + apply (course_lesson_elem env K) in Hl. specialize (Hall l Hl). destruct (lesson_of_types env K l c Hl) as [Hll _].
        exfalso. destruct Hall as [H|[H|[(c' & _ & H)|[H|H]]]].
        * unfold missing, is_lesson in *. congruence.
        * by apply elem_of_empty in H.
        * by apply elem_of_empty in H.
        * cbn in H. by apply bool_decide_eq_true in H.
        * unfold is_lesson, s_graph in Hll. destruct (H f_1 f_2) as [H' _].
          -- cbn [env half_env s_score s_lib] in *. rewrite Hll, bool_decide_eq_false_2 by done. done.
          -- done.
          -- vm_compute in H'. discriminate.
    - intros u s Hu Hs. unfold missing, s_graph in Hu. cbn [env half_env s_score s_lib] in *. by rewrite Hu in Hs.
    - intros l x Hx. by apply (HL l).
  Qed.
  Lemma half_not_passed l : is_lesson env l → not_passed env l ↔ l ∉ top.
  Proof using Hop Hc.
    intros Hl. split.
    - intros (x & t & Hx & Ht & H). apply half_lesson in Hx as [Hx _]. injection Ht as <-. intros Hin. rewrite bool_decide_eq_true_2 in Hx by done.
      destruct H as [H|H]; [change (fge x f_3 = false) in H; congruence|]. vm_compute in H. discriminate.
    - intros Hn. destruct (sy_scored env half_steady l f_1 Hl) as (x & Hx).
      { unfold is_lesson, s_graph in Hl. cbn [env half_env s_score s_lib] in *. rewrite Hl, bool_decide_eq_false_2 by done. done. }
      exists x, f_2. split; [done|]. split; [done|]. left. apply half_lesson in Hx as [Hx _]. by rewrite bool_decide_eq_false_2 in Hx.
  Qed.
End half.

Lemma default_numbers top gone lib : verify_options (s_options (half_env top gone lib)) = true ∧ passing_numbers (half_env top gone lib) ∧
  fgt (min_fraction (passing_score (s_options (half_env top gone lib)))) fzero = true.
Proof. split; [|split; [split_and!|]]; vm_compute; reflexivity. Qed.
Definition unit_free (lib : library) : bool :=
  bool_decide (map_Forall (λ _ ds, set_Forall (λ d, get_unit_type (lib_graph lib) d ≠ Some Exercise) ds) (dependency_graph (lib_graph lib))).
Lemma ranked_ordered ranks env : LibOK (s_lib env) → ranked ranks (s_lib env) = true → hides_none (s_lib env) = true → unit_free (s_lib env) = true →
  well_ordered env.
Proof.
  intros K H1 H2 H3. constructor; [intros u; by apply (ranked_waits ranks)|by apply hides_none_hidden|].
  apply bool_decide_eq_true in H3. intros u e Hd. unfold depends_on, get_dependencies, s_graph in *.
  destruct (dependency_graph (lib_graph (s_lib env)) !! u) as [ds|] eqn:E; [|done]. by apply (H3 u ds E e).
Qed.

Lemma stands_plain env d t : stands_for env None d t → t = d.
Proof. intros H. destruct H; cbn [lets_through] in *; done. Qed.

(** The first lesson was passed. *)
Definition first_passed : list uid := ["A::1"; "A::1::x"; "A::1::y"].
Lemma progress_example : ∃ env, opened (s_lib env) ∧ (∀ i, orders_ok (plain i)) ∧ verify_options (s_options env) = true ∧
  passing_numbers env ∧ fgt (min_fraction (passing_score (s_options env))) fzero = true ∧
  answers_exercises env ∧ steady env ∧ well_ordered env ∧ (∀ c, is_course env c → s_superseded env c = false) ∧
  not_passed env "A::2" ∧ not_passed env "B::1" ∧ ¬ not_passed env "A::1" ∧
  found_ids (unit_candidates env plain 30 None) = Some ["A::1::x"; "A::1::y"; "A::2::x"].
Proof.
  destruct (library_checked (λ lib, same_ids_as (found_ids (from_everything (half_env first_passed [] lib) plain 30 None))
    ["A::1::x"; "A::1::y"; "A::2::x"] && (half_check first_passed [] lib && ranked tour_ranks lib && hides_none lib && unit_free lib &&
    bool_decide (get_unit_type (lib_graph lib) "A::1" = Some Lesson) && bool_decide (get_unit_type (lib_graph lib) "A::2" = Some Lesson) &&
    bool_decide (get_unit_type (lib_graph lib) "B::1" = Some Lesson))) tour_library)
    as (lib & Ho & H); [apply a_library_consistent|vm_compute; reflexivity|].
  rewrite !andb_true_iff, !bool_decide_eq_true in H. destruct H as [H [[[[[[H1 H2] H3] H4] H5] H6] H7]]. apply bool_decide_eq_true in H.
  pose proof (opened_ok lib Ho) as K. exists (half_env first_passed [] lib). destruct (default_numbers first_passed [] lib) as (N1 & N2 & N3).
  split; [exact Ho|]. split; [exact plain_ok|]. split; [exact N1|]. split; [exact N2|]. split; [exact N3|].
  split; [by apply half_answers|]. split; [by apply half_steady|]. split; [by apply (ranked_ordered tour_ranks)|]. split; [done|].
  split; [apply (half_not_passed first_passed [] lib Ho H1 "A::2" H6); apply (bool_decide_unpack _); vm_compute; exact I|].
  split; [apply (half_not_passed first_passed [] lib Ho H1 "B::1" H7); apply (bool_decide_unpack _); vm_compute; exact I|].
  split; [|exact H].
  intros Hn. apply (half_not_passed first_passed [] lib Ho H1 "A::1" H5) in Hn. apply Hn. left.
Qed.

(** The course A is superseded by the course S, which was mastered; the exercises of A were
    practised, but its first lesson was not passed. B depends on A only. *)
Definition old_library : list open_course :=
  a_library [("A", [], [("A::1", [], ["A::1::x"]); ("A::2", ["A::1"], ["A::2::x"])]);
             ("B", ["A"], [("B::1", [], ["B::1::x"])])] ++
  [OpenCourse (CourseManifest "S" [] [] ["A"] None) [a_lesson "S::1" "S" [] ["S::1::x"]]].
Lemma old_consistent : Forall consistent old_library.
Proof.
  apply Forall_app. split; [apply a_library_consistent|]. constructor; [|constructor]. intros lm exs H.
  apply elem_of_list_singleton in H. unfold a_lesson in H. injection H as -> ->. split; [done|]. intros em Hem.
  by apply elem_of_list_singleton in Hem as ->.
Qed.
Definition old_passed : list uid := ["S"; "S::1"; "S::1::x"].
Definition old_ranks : list (uid * nat) := [("A::1", 1); ("A::2", 2); ("B", 3); ("B::1", 4); ("S::1", 1)].
Definition supersedes_only (lib : library) (v u : uid) : bool :=
  bool_decide (get_superseded_by (lib_graph lib) u = Some {[v]}).
Lemma old_course_blocks : ∃ env fuel cs, opened (s_lib env) ∧ (∀ i, orders_ok (plain i)) ∧ verify_options (s_options env) = true ∧
  passing_numbers env ∧ fgt (min_fraction (passing_score (s_options env))) fzero = true ∧
  answers_exercises env ∧ steady env ∧ well_ordered env ∧ s_banned env = ∅ ∧
  (∀ u, s_superseded env u = true ↔ u = "A") ∧ (∀ v, is_superseded_by (s_graph env) "A" v ↔ v = "S") ∧
  s_score env "S" = Some (Some f_5) ∧ (∀ e, s_score env e = None ∨ s_score env e = Some (Some f_1) ∨ s_score env e = Some (Some f_5)) ∧
  unit_candidates env plain fuel None = Found cs ∧
  lesson_of env "B::1" "B" ∧ unlocked env None "B" ∧ unlocked env None "B::1" ∧ not_passed env "B::1" ∧
  (∀ c, c ∈ cs → ¬ not_passed env (lesson_id c)) ∧ ¬ enough_in_progress env cs.
Proof.
  destruct (library_checked (λ lib, same_ids_as (found_ids (from_everything (half_env old_passed ["A"] lib) plain 30 None))
    ["S::1::x"] && (half_check old_passed ["A"] lib && ranked old_ranks lib && hides_none lib && unit_free lib &&
    bool_decide (get_unit_type (lib_graph lib) "B::1" = Some Lesson) && bool_decide (get_unit_type (lib_graph lib) "S" = Some Course) &&
    supersedes_only lib "S" "A" && in_lesson lib "S::1::x" "S::1" && in_course lib "B::1" "B" && has_deps lib "B" ["A"] && has_deps lib "B::1" [])) old_library)
    as (lib & Ho & H); [apply old_consistent|vm_compute; reflexivity|].
  unfold supersedes_only, in_lesson, in_course in H. rewrite !andb_true_iff, !bool_decide_eq_true in H.
  destruct H as [H [[[[[[[[[[H1 H2] H3] H4] H5] H6] H7] H8] H9] H10] H11]]. apply found_is in H as (cs & H & Hids).
  pose proof (opened_ok lib Ho) as K. exists (half_env old_passed ["A"] lib), 30, cs. destruct (default_numbers old_passed ["A"] lib) as (N1 & N2 & N3).
  assert (Hone : ∀ c, c ∈ cs → lesson_id c = "S::1").
  { intros c Hc. pose proof (elem_of_list_fmap_1 exercise_id _ _ Hc) as Hin. rewrite Hids in Hin. apply elem_of_list_singleton in Hin.
    destruct (candidates_in_place (half_env old_passed ["A"] lib) K plain plain_ok 30 None cs c H Hc) as [[Hp _] _]. unfold exercise_of in Hp. rewrite Hin in Hp.
    change (get_exercise_lesson (lib_graph lib) "S::1::x" = Some (lesson_id c)) in Hp. congruence. }
  split; [exact Ho|]. split; [exact plain_ok|]. split; [exact N1|]. split; [exact N2|]. split; [exact N3|].
  split; [by apply half_answers|]. split; [by apply half_steady|]. split; [by apply (ranked_ordered old_ranks)|]. split; [done|].
  split. { intros u. cbn [half_env s_superseded]. rewrite bool_decide_eq_true. apply elem_of_list_singleton. }
  split. { intros v. unfold is_superseded_by, answers. unfold s_graph. cbn [half_env s_lib]. rewrite H7. apply elem_of_singleton. }
  split. { cbn [half_env s_score]. rewrite H6. done. }
  split. { intros e. cbn [half_env s_score]. destruct (get_unit_type (lib_graph lib) e); [|by left]. destruct (bool_decide (e ∈ old_passed)); auto. }
  split; [exact H|]. split; [exact H9|].
  split. { intros d t Hd Ht. apply (has_deps_iff (half_env old_passed ["A"] lib) "B" ["A"] H10), elem_of_list_singleton in Hd. subst d.
    apply stands_plain in Ht. subst t. do 3 right. left. reflexivity. }
  split. { intros d t Hd Ht. apply (has_deps_iff (half_env old_passed ["A"] lib) "B::1" [] H11) in Hd. by apply elem_of_nil in Hd. }
  split; [apply (half_not_passed old_passed ["A"] lib Ho H1 "B::1" H5); apply (bool_decide_unpack _); vm_compute; exact I|].
  split.
  - intros c Hc Hn. rewrite (Hone c Hc) in Hn. assert (Hl : is_lesson (half_env old_passed ["A"] lib) "S::1").
    { by apply (exercise_of_types (half_env old_passed ["A"] lib) K "S::1::x"). }
    apply (half_not_passed old_passed ["A"] lib Ho H1 "S::1" Hl) in Hn. apply Hn. right. left.
  - intros (P & Hm & HP). assert (Hsub : P ⊆ {["S::1"]}).
    { intros l Hl. destruct (HP l Hl) as (c & x & Hc & <- & _). apply elem_of_singleton. by apply Hone. }
    apply subseteq_size in Hsub. rewrite size_singleton in Hsub. change (10 ≤ size P) in Hm. lia.
Qed.

(** ** Tidy libraries *)
Definition course_deps (lib : library) : bool :=
  let g := lib_graph lib in
  bool_decide (map_Forall (λ u t, t = Course → set_Forall (λ d, get_unit_type g d = Some Course) (default ∅ (get_dependencies g u))) (type_map g)).
Lemma own_tidy env : own_deps (s_lib env) = true → course_deps (s_lib env) = true → tidy env.
Proof.
  intros H1%bool_decide_eq_true H2%bool_decide_eq_true. split.
  - intros l c d Hl Hd. left. apply dependency_elem in Hd. exact (H1 l c Hl d Hd).
  - intros c d Hc Hd. left. apply dependency_elem in Hd. exact (H2 c Course Hc eq_refl d Hd).
Qed.
Lemma tidy_opened env : opened (s_lib env) → tidy env →
  (∀ u, ¬ tc (waits env) u u) ∧ (∀ c, ¬ hidden_course env c).
Proof. intros Ho T. destruct (tidy_ordered env (opened_ok _ Ho) T) as [H1 H2 _]. done. Qed.
Lemma tidy_complete env os : opened (s_lib env) → (∀ i, orders_ok (os i)) → mastered env → answers_exercises env → tidy env →
  ∃ cs fuel, (∀ fuel', fuel ≤ fuel' → unit_candidates env os fuel' None = Found cs) ∧
    ∀ e l c, exercise_of env e l → lesson_of env l c → clean env e → s_superseded env l = false → s_superseded env c = false →
      e ∈ exercise_id <$> cs.
Proof.
  intros Ho Hos M A T. destruct (tidy_ordered env (opened_ok _ Ho) T) as [H1 H2 H3]. apply opened_complete; try done. intros c e _. apply H3.
Qed.
Lemma tidy_example : ∃ env, opened (s_lib env) ∧ (∀ i, orders_ok (plain i)) ∧ mastered env ∧ answers_exercises env ∧ tidy env ∧
  lesson_of env "B::2" "B" ∧ depends_on (s_graph env) "B" "A" ∧ depends_on (s_graph env) "B::2" "B::1" ∧
  found_ids (unit_candidates env plain 30 None) = Some ["A::1::x"; "A::1::y"; "A::2::x"; "B::1::x"; "B::2::x"].
Proof.
  destruct (library_checked (λ lib, same_ids_as (found_ids (from_everything (top_env lib) plain 30 None))
    ["A::1::x"; "A::1::y"; "A::2::x"; "B::1::x"; "B::2::x"] &&
    (small_lessons lib && own_deps lib && course_deps lib && in_course lib "B::2" "B" && has_deps lib "B" ["A"] && has_deps lib "B::2" ["B::1"])) own_library)
    as (lib & Ho & H); [apply a_library_consistent|vm_compute; reflexivity|].
  rewrite !andb_true_iff in H. destruct H as [H [[[[[H1 H2] H3] H4] H5] H6]]. apply bool_decide_eq_true in H, H4.
  pose proof (opened_ok lib Ho) as K. exists (top_env lib). split; [exact Ho|]. split; [exact plain_ok|].
  split; [by apply top_mastered|]. split; [apply top_answers|]. split; [by apply own_tidy|]. split; [exact H4|].
  split; [apply (has_deps_iff (top_env lib) "B" ["A"] H5); left|]. split; [apply (has_deps_iff (top_env lib) "B::2" ["B::1"] H6); left|]. exact H.
Qed.
