(** What the search uses of an opened library. *)
From stdpp Require Import gmap strings list relations.
From Verif Require Import F32 Graph GraphSpec GraphProofs Library LibrarySpec LoadProofs LibraryQueries
  Filters Options Batch Search SearchSpec.

Record LibOK (lib : library) : Prop := {
  k_inv : GInv (lib_graph lib);
  k_lesson : ∀ l, get_unit_type (lib_graph lib) l = Some Lesson → ∃ c, get_lesson_course (lib_graph lib) l = Some c;
  k_exercise : ∀ e, get_unit_type (lib_graph lib) e = Some Exercise → ∃ l, get_exercise_lesson (lib_graph lib) e = Some l;
  k_dep_type : ∀ u d, depends_on (lib_graph lib) u d →
    get_unit_type (lib_graph lib) u = Some Course ∨ get_unit_type (lib_graph lib) u = Some Lesson;
  k_start : ∀ c l, answers (get_starting_lessons (lib_graph lib) c) l ↔
    get_lesson_course (lib_graph lib) l = Some c ∧
    ∀ x, depends_on (lib_graph lib) l x → get_lesson_course (lib_graph lib) x ≠ Some c;
  k_sinks : ∀ u, u ∈ get_dependency_sinks (lib_graph lib) ↔
    (get_unit_type (lib_graph lib) u = Some Course ∨
     (get_unit_type (lib_graph lib) u ≠ Some Lesson ∧ ∃ v, depends_on (lib_graph lib) v u)) ∧
    (∀ x, ¬ depends_on (lib_graph lib) u x) ∧
    ¬ (∃ l, answers (get_starting_lessons (lib_graph lib) u) l ∧ (∃ x, depends_on (lib_graph lib) l x) ∧
            ∀ x, depends_on (lib_graph lib) l x → get_unit_type (lib_graph lib) x ≠ None);
  k_cmap : ∀ u, is_Some (course_map lib !! u) ↔ get_unit_type (lib_graph lib) u = Some Course;
  k_lmap : ∀ u, is_Some (lesson_map lib !! u) ↔ get_unit_type (lib_graph lib) u = Some Lesson;
  k_emap : ∀ u, is_Some (exercise_map lib !! u) ↔ get_unit_type (lib_graph lib) u = Some Exercise;
  k_emap_id : ∀ u em, exercise_map lib !! u = Some em → em_id em = u;
  k_acyclic : acyclic (depends_on (lib_graph lib)) }.

Lemma opened_ok lib : opened lib → LibOK lib.
Proof.
  intros (o & courses & Ho & Hc & H). pose proof (open_library_loaded o courses lib Hc H) as L.
  assert (Hl : ∀ l, get_unit_type (lib_graph lib) l = Some Lesson → ∃ c, get_lesson_course (lib_graph lib) l = Some c).
  { intros l Hl. apply (l_type _ _ L) in Hl as (d & ? & ? & ?). exists (d_parent d). apply (l_lc _ _ L). exists d. done. }
  constructor.
  - apply L.
  - exact Hl.
  - intros e He. apply (l_type _ _ L) in He as (d & ? & ? & ?). exists (d_parent d). apply (l_el _ _ L). exists d. done.
  - intros u d Hd. apply (l_dep _ _ L) in Hd as (x & Hx & Hid & Hdd). 
    destruct (d_type x) eqn:Et.
    + destruct (LibraryProofs.declared_exercise _ _ Hx Et) as (Hn & _). rewrite Hn in Hdd. by apply elem_of_nil in Hdd.
    + right. apply (l_type _ _ L). exists x. done.
    + left. apply (l_type _ _ L). exists x. done.
  - intros c l. rewrite (l_start _ _ L). unfold says_starting. rewrite <-(l_lc _ _ L). split; intros [H1 H2]; (split; [done|]); intros x Hx.
    + rewrite (l_lc _ _ L). apply H2. by apply (l_dep _ _ L).
    + rewrite <-(l_lc _ _ L). apply H2. by apply (l_dep _ _ L).
  - intros u. rewrite (l_sinks _ _ L). setoid_rewrite (l_dep _ _ L). setoid_rewrite (l_start _ _ L).
    setoid_rewrite <-(l_type _ _ L). setoid_rewrite <-(l_lc _ _ L).
    assert (Ht : ∀ x, (∃ t, get_unit_type (lib_graph lib) x = Some t) ↔ get_unit_type (lib_graph lib) x ≠ None).
    { intros x. destruct (get_unit_type _ x); naive_solver. }
    setoid_rewrite Ht. split.
    + intros (H1 & H2 & H3 & H4). split_and!; try done. destruct H1 as [(t & Hte & H1)|H1].
      * destruct t; [done| |by left]. destruct (Hl _ H1) as [c Hcc]. by destruct (H3 c).
      * right. split; [|done]. intros Hll. destruct (Hl _ Hll) as [c Hcc]. by destruct (H3 c).
    + intros (H1 & H2 & H4). split_and!; try done.
      * destruct H1 as [H1|[_ H1]]; [left; exists Course; done|by right].
      * intros c Hcc. destruct (i_lc_t _ (l_inv _ _ L) _ _ Hcc) as [Hll _].
        unfold get_unit_type in H1. rewrite Hll in H1. naive_solver.
  - intros u. rewrite (l_type _ _ L), <-elem_of_dom. by eapply dom_maps.
  - intros u. rewrite (l_type _ _ L), <-elem_of_dom. by eapply dom_maps.
  - intros u. rewrite (l_type _ _ L), <-elem_of_dom. by eapply dom_maps.
  - intros u em Hu. by apply (manifests_lookup o courses lib Hc H) in Hu as [_ ?].
  - pose proof (proj1 (open_library_iff o courses Ho Hc) ltac:(eauto)) as (_ & _ & Hn).
    apply (loaded_acyclic _ _ L) in Hn. apply Hn.
Qed.

Section facts.
  Context (env : senv) (K : LibOK (s_lib env)).

  Lemma dependency_elem u d : d ∈ all_dependencies env u ↔ depends_on (s_graph env) u d.
  Proof using. apply answers_default. Qed.
  Lemma dependent_elem u d : u ∈ all_dependents env d ↔ depends_on (s_graph env) u d.
  Proof using K.
    unfold all_dependents, depends_on. rewrite answers_default. unfold get_dependents, get_dependencies.
    rewrite !answers_mget. symmetry. apply (i_dep _ (k_inv _ K)).
  Qed.
  Lemma starting_elem c l : l ∈ starting_lessons env c ↔ first_lesson env c l.
  Proof using K. unfold starting_lessons. rewrite answers_default. apply (k_start _ K). Qed.
  Lemma course_lesson_elem c l : l ∈ course_lessons env c ↔ lesson_of env l c.
  Proof using K.
    unfold course_lessons. rewrite answers_default. unfold get_course_lessons. rewrite answers_mget.
    symmetry. apply (i_lc _ (k_inv _ K)).
  Qed.
  Lemma exercise_elem e l : e ∈ default ∅ (get_lesson_exercises (s_graph env) l) ↔ exercise_of env e l.
  Proof using K.
    rewrite answers_default. unfold get_lesson_exercises. rewrite answers_mget. symmetry. apply (i_el _ (k_inv _ K)).
  Qed.
  Lemma lesson_of_types l c : lesson_of env l c → is_lesson env l ∧ is_course env c.
  Proof using K. apply (i_lc_t _ (k_inv _ K)). Qed.
  Lemma exercise_of_types e l : exercise_of env e l →
    get_unit_type (s_graph env) e = Some Exercise ∧ is_lesson env l.
  Proof using K. apply (i_el_t _ (k_inv _ K)). Qed.
  Lemma lesson_course_of l c : lesson_of env l c → lesson_course env l = c.
  Proof using. unfold lesson_course, lesson_of. by intros ->. Qed.
  Lemma lesson_has_course l : is_lesson env l → lesson_of env l (lesson_course env l).
  Proof using K. intros H. destruct (k_lesson _ K l H) as [c Hc]. by rewrite (lesson_course_of _ _ Hc). Qed.
  Lemma lesson_course_none u : ¬ is_lesson env u → lesson_course env u = ""%string.
  Proof using K.
    intros H. unfold lesson_course. destruct (get_lesson_course _ u) as [c|] eqn:E; [|done].
    destruct H. by apply (lesson_of_types u c).
  Qed.

  Lemma unit_exists_iff u : unit_exists env u = true ↔ ¬ missing env u.
  Proof using K.
    unfold unit_exists, missing. destruct (get_unit_type (s_graph env) u) as [[]|] eqn:E.
    all: rewrite ?bool_decide_eq_true, ?(k_cmap _ K), ?(k_lmap _ K), ?(k_emap _ K); naive_solver.
  Qed.

  Lemma passes_iff f u : default false (unit_passes env f u) = true ↔ lets_through env f u.
  Proof using K.
    unfold unit_passes, lets_through, is_course, is_lesson. destruct f as [f|]; [|done].
    destruct (get_unit_type (s_graph env) u) as [[]|] eqn:E; simpl.
    - split; [done|naive_solver].
    - split.
      + intros H. right. destruct (course_map (s_lib env) !! lesson_course env u) as [cm|] eqn:Ec; simpl in H; [|done].
        destruct (lesson_map (s_lib env) !! u) as [lm|] eqn:Em; simpl in H; [|done].
        exists (lesson_course env u), cm, lm. split_and!; try done. by apply lesson_has_course.
      + intros [(cm & ? & _)|(c & cm & lm & _ & Hl & Hc & Hm & H)]; [done|].
        rewrite (lesson_course_of _ _ Hl), Hc. simpl. rewrite Hm. done.
    - split.
      + intros H. left. destruct (course_map (s_lib env) !! u) as [cm|] eqn:Ec; simpl in H; [eauto|done].
      + intros [(cm & _ & Hc & H)|(c & cm & lm & ? & _)]; [|done]. by rewrite Hc.
    - split; [done|naive_solver].
  Qed.
  (** Courses and lessons have manifests, so the filter can be applied to them. *)
  Lemma passes_defined f u b : is_course env u ∨ is_lesson env u → 
    default b (unit_passes env f u) = default false (unit_passes env f u).
  Proof using K.
    unfold unit_passes, is_course, is_lesson. destruct f as [f|]; [|done]. intros [H|H].
    - rewrite H. destruct (proj2 (k_cmap _ K u) H) as [cm ->]. done.
    - pose proof (lesson_has_course u H) as Hl. rewrite H.
      destruct (proj2 (k_cmap _ K (lesson_course env u))) as [cm ->]; [by apply (lesson_of_types u)|].
      destruct (proj2 (k_lmap _ K u) H) as [lm ->]. done.
  Qed.
  Lemma lets_through_dec f u : lets_through env f u ∨ ¬ lets_through env f u.
  Proof using K. rewrite <-passes_iff. destruct (default false _); auto. Qed.
End facts.
