(** Concrete changes of the graph of an open library. *)
From stdpp Require Import gmap strings list relations.
From Verif Require Import F32 Graph GraphSpec GraphProofs GraphMore Library LibrarySpec LibrarySample LibraryQueries
  Filters Options Batch BatchSpec BatchSample Search SearchSpec SearchSample SearchMore LibFacts Compute Edit EditSpec EditProofs.
Local Open Scope list_scope.
Local Open Scope string_scope.

Definition small_courses : list open_course := a_library [("A", [], [("A::1", [], ["A::1::x"])]); ("B", [], [("B::1", [], ["B::1::x"])])].

(** ** A request that does not end *)
Definition circle : list gop :=
  [AddCourse "x"; AddCourse "y"; AddCourse "z"; AddDependencies "x" Course ["z"; "y"]; AddDependencies "y" Course ["x"]].
Definition circle_facts (lib : library) : bool :=
  all_accepted (lib_graph lib) circle &&
  bool_decide (get_dependencies (edit_graph (lib_graph lib) circle) "x" = Some {["y"; "z"]}) &&
  bool_decide (get_dependencies (edit_graph (lib_graph lib) circle) "y" = Some {["x"]}) &&
  bool_decide (get_dependencies (edit_graph (lib_graph lib) circle) "z" = None) &&
  bool_decide ("z" ∈ get_dependency_sinks (edit_graph (lib_graph lib) circle)) &&
  bool_decide ("x" ∉ get_dependency_sinks (edit_graph (lib_graph lib) circle)) &&
  bool_decide ("y" ∉ get_dependency_sinks (edit_graph (lib_graph lib) circle)) &&
  forallb (λ u, bool_decide (get_unit_type (edit_graph (lib_graph lib) circle) u = Some Course)) ["x"; "y"; "z"] &&
  forallb (λ u, bool_decide (course_map lib !! u = None)) ["x"; "y"; "z"].
Lemma circle_checked : library_check circle_facts small_courses = true.
Proof. vm_compute. reflexivity. Qed.

Section endless.
  Context (env : senv) (I : GInv (s_graph env)) (x y z : uid).
  Context (Hx : ∀ d, depends_on (s_graph env) x d ↔ d = y ∨ d = z) (Hy : ∀ d, depends_on (s_graph env) y d ↔ d = x)
    (Hz : ∀ d, ¬ depends_on (s_graph env) z d) (Ex : unit_exists env x = false) (Ey : unit_exists env y = false)
    (Ez : unit_exists env z = false).
  Definition turning (s : gset uid) : Prop :=
    (z ∈ s ∧ x ∉ s ∧ y ∉ s) ∨ (x ∈ s ∧ y ∉ s ∧ z ∉ s) ∨ (y ∈ s ∧ x ∉ s ∧ z ∉ s).
  Lemma turned s : (x ∈ replace_missing env s ↔ y ∈ s ∨ z ∈ s) ∧ (y ∈ replace_missing env s ↔ x ∈ s) ∧ z ∉ replace_missing env s.
  Proof using I Hx Hy Hz Ex Ey Ez.
    rewrite !(replaced env I), Ex, Ey, Ez. split; [|split].
    - split; [intros [[_ ?]|(d & Hd & _ & H%Hx)]; [done|]; destruct H as [-> | ->]; auto|].
      intros [H|H]; right; [exists y|exists z]; rewrite Hx; auto.
    - split; [intros [[_ ?]|(d & Hd & _ & ->%Hy)]; done|]. intros H. right. exists x. rewrite Hy. auto.
    - intros [[_ ?]|(d & Hd & _ & H%Hz)]; done.
  Qed.
  Lemma turns fuel : ∀ s, turning s → starting_loop env fuel s = None.
  Proof using I Hx Hy Hz Ex Ey Ez.
    induction fuel as [|fuel IH]; intros s Hs; [done|]. cbn [starting_loop]. destruct (turned s) as (H1 & H2 & H3).
    rewrite bool_decide_eq_false_2.
    - apply IH. unfold turning. rewrite H1, H2. unfold turning in Hs. destruct Hs as [(?&?&?)|[(?&?&?)|(?&?&?)]].
      + right. left. auto.
      + right. right. split; [done|]. split; [|done]. intros [?|?]; done.
      + right. left. auto.
    - intros E. rewrite E in H1, H2, H3. unfold turning in Hs. destruct Hs as [(?&?&?)|[(?&?&?)|(?&?&?)]].
      + done.
      + by apply H0, H2.
      + by apply H0, H1; left.
  Qed.
End endless.

Lemma circle_endless : ∃ lib ops, opened lib ∧ all_accepted (lib_graph lib) ops = true ∧
  ∀ env os fuel checks time m r e oc rate pile, s_lib env = edit_library lib ops → 
    get_exercise_batch env os fuel checks time m r e oc rate pile None = BatchNoFuel.
Proof.
  destruct (library_checked circle_facts small_courses (a_library_consistent _) circle_checked) as (lib & Ho & H).
  exists lib, circle. unfold circle_facts in H. rewrite !andb_true_iff, !bool_decide_eq_true in H.
  destruct H as ((((((((Ha & Dx) & Dy) & Dz) & Sz) & Sx) & Sy) & T) & M). split; [done|]. split; [done|].
  intros env os fuel checks time m r e oc rate pile He.
  pose proof (env_graph env lib circle He) as Eg. destruct (env_inv env lib circle Ho He) as [I _].
  assert (EX : ∀ u, In u ["x"; "y"; "z"] → unit_exists env u = false).
  { intros u Hu. rewrite forallb_forall in T, M. specialize (T u Hu). specialize (M u Hu). apply bool_decide_eq_true in T, M.
    unfold unit_exists. rewrite Eg, T, He. apply bool_decide_eq_false. unfold edit_library.
    change (course_map (set_graph lib (edit_graph (lib_graph lib) circle))) with (course_map lib). rewrite M. by intros []. }
  assert (EN : starting_loop env fuel (get_dependency_sinks (s_graph env)) = None).
  { apply (turns env I "x" "y" "z").
    - intros d. rewrite Eg. unfold depends_on. rewrite Dx. simpl. rewrite elem_of_union, !elem_of_singleton. done.
    - intros d. rewrite Eg. unfold depends_on. rewrite Dy. simpl. rewrite elem_of_singleton. done.
    - intros d. rewrite Eg. unfold depends_on. rewrite Dz. by intros [].
    - apply EX. simpl. auto.
    - apply EX. simpl. auto.
    - apply EX. simpl. auto.
    - rewrite Eg. left. auto. }
  unfold get_exercise_batch, initial_candidates. cbn [unit_candidates]. unfold from_everything, initial_stack, all_starting_units.
  rewrite EN. reflexivity.
Qed.

(** ** A request that fails *)
Definition extra : list gop := [AddExercise "A::1::new" "A::1"].
Definition edited_env (lib : library) (ops : list gop) : senv := an_env default_options [("A", f_1); ("A::1", f_1); ("A::1::x", f_1)] [] [] (edit_library lib ops).
Lemma extra_checked : library_check (λ lib, all_accepted (lib_graph lib) extra && check_cycles sample_order (edit_graph (lib_graph lib) extra) &&
  is_error (a_batch (edited_env lib extra) ∅ None)) small_courses = true.
Proof. vm_compute. reflexivity. Qed.
Lemma extra_fails : ∃ lib ops env, opened lib ∧ all_accepted (lib_graph lib) ops = true ∧
  check_cycles sample_order (edit_graph (lib_graph lib) ops) = true ∧ s_lib env = edit_library lib ops ∧
  answers_exercises env ∧ s_review env = [] ∧ a_batch env ∅ None = BatchError.
Proof.
  destruct (library_checked _ small_courses (a_library_consistent _) extra_checked) as (lib & Ho & H).
  rewrite !andb_true_iff in H. destruct H as ((H1 & H2) & H3).
  exists lib, extra, (edited_env lib extra). split_and!; [exact Ho|exact H1|exact H2|reflexivity|apply an_env_answers|reflexivity|].
  by destruct (a_batch (edited_env lib extra) ∅ None).
Qed.

(** ** Changes without new units *)
Definition ordered : list gop := [AddDependencies "B" Course ["A"; "missing"]; AddSuperseded "B" ["A"]; UpdateStartingLessons].
Lemma ordered_checked : library_check (λ lib, all_accepted (lib_graph lib) ordered && check_cycles sample_order (edit_graph (lib_graph lib) ordered) &&
  bool_decide (batch_of_ids (a_batch (edited_env lib []) ∅ None) = Some ["A::1::x"; "B::1::x"]) &&
  bool_decide (batch_of_ids (a_batch (edited_env lib ordered) ∅ None) = Some ["A::1::x"])) small_courses = true.
Proof. vm_compute. reflexivity. Qed.
Lemma ordered_works : ∃ lib, opened lib ∧ all_accepted (lib_graph lib) ordered = true ∧ Forall adds_no_unit ordered ∧
  check_cycles sample_order (edit_graph (lib_graph lib) ordered) = true ∧ answers_exercises (edited_env lib ordered) ∧
  batch_of_ids (a_batch (edited_env lib []) ∅ None) = Some ["A::1::x"; "B::1::x"] ∧
  batch_of_ids (a_batch (edited_env lib ordered) ∅ None) = Some ["A::1::x"].
Proof.
  destruct (library_checked _ small_courses (a_library_consistent _) ordered_checked) as (lib & Ho & H).
  rewrite !andb_true_iff, !bool_decide_eq_true in H. destruct H as (((H1 & H2) & H3) & H4).
  exists lib. split_and!; [exact Ho|exact H1|by repeat constructor|exact H2|apply an_env_answers|exact H3|exact H4].
Qed.
(** Two courses that wait for each other, which the calls accept. *)
Definition loop : list gop := [AddDependencies "B" Course ["A"]; AddDependencies "A" Course ["B"]].
Lemma loop_works : ∃ lib, opened lib ∧ all_accepted (lib_graph lib) loop = true ∧ Forall adds_no_unit loop ∧
  check_cycles sample_order (edit_graph (lib_graph lib) loop) = false ∧
  batch_of_ids (a_batch (edited_env lib []) ∅ None) = Some ["A::1::x"; "B::1::x"] ∧
  batch_of_ids (a_batch (edited_env lib loop) ∅ None) = Some [].
Proof.
  assert (library_check (λ lib, (all_accepted (lib_graph lib) loop && negb (check_cycles sample_order (edit_graph (lib_graph lib) loop)) &&
  bool_decide (batch_of_ids (a_batch (edited_env lib loop) ∅ None) = Some [])) &&
   bool_decide (batch_of_ids (a_batch (edited_env lib []) ∅ None) = Some ["A::1::x"; "B::1::x"])) small_courses = true) as HC
   by (vm_compute; reflexivity).
  destruct (library_checked _ small_courses (a_library_consistent _) HC) as (lib & Ho & H).
  rewrite !andb_true_iff, !bool_decide_eq_true in H. destruct H as (((H1 & H2) & H3) & H4). apply negb_true_iff in H2.
  exists lib. split_and!; [exact Ho|exact H1|by repeat constructor|exact H2|exact H4|exact H3].
Qed.
