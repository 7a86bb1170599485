(** A lifetime that meets the hypotheses of the theorems about lifetimes. *)
From stdpp Require Import gmap strings list relations.
From Coq Require Import ZArith Lia.
From Verif Require Import F32 Graph GraphSpec Library LibrarySpec Filters Options Batch BatchSpec BatchSample BatchMore FinishProofs Search SearchSpec SearchSample
  Facade Sql Stores StoresSpec StoresSample Scorer ScorerSpec Propagate PropagateSpec UnitScorer UnitSpec UnitEnds Practice PracticeSample RangeSpec CallSample
  AskSpec Session SessionSpec SessionMore.
Local Open Scope string_scope.
Local Open Scope list_scope.
Local Open Scope bool_scope.

Definition flat_power (_ _ : f32) : f32 := f_1.
Lemma flat_power_ok : power_ok flat_power.
Proof. split; intros x y _ _; split; vm_compute; reflexivity. Qed.
Lemma flat_setting_ok lib : opened lib → modest (lib_graph lib) → setting_ok (setting_of flat_power lib).
Proof.
  intros H1 H2. split; cbn [setting_of g_lib g_powf g_ord g_listed g_order g_reward_order g_num_trials].
  - done.
  - done.
  - apply flat_power_ok.
  - by intros s.
  - by intros u l.
  - apply by_time_ok.
  - apply by_time_ok.
  - lia.
Qed.

(** A course with two lessons, the second of which depends on the first. *)
Definition two_steps : list open_course := a_library [("A", [], [("A::1", [], ["A::1::x"; "A::1::y"]); ("A::2", ["A::1"], ["A::2::z"])])].
Definition ask (g : graph) (f : option exercise_filter) : request :=
  Request f 0 true no_libm first_choices (graph_edges g) SearchSample.plain (λ _, None) [AScore 9 "A::1"; AExercise "A::2::z"].
Definition at_ (now : Z) (op : session_op) : timed := Timed 9 40 now op.
(** Two batches, three scores, a unit that is blacklisted, and the library closed and opened again. *)
Definition a_life (g : graph) : list timed :=
  [at_ 100 (ZBatch (ask g None)); at_ 110 (ZCall (CScore no_faults "A::1::x" One 110)); at_ 120 (ZCall (CScore no_faults "A::1::y" Five 120));
   at_ 130 (ZCall (CBan false "A::1::y")); at_ 140 (ZBatch (ask g None)); at_ 150 (ZMaintain (MTrimScores by_time None 10)); at_ 160 (ZReopen (Some 20));
   at_ 170 (ZCall (CScore no_faults "A::2::z" Two 170)); at_ 180 (ZCall (CUnban false "A::1::y")); at_ 190 (ZReview (VAdd "A::2")); at_ 200 (ZBatch (ask g (Some (EUnit FReviewList))))].
Definition event_ids (ev : event) : option (list uid) :=
  match ev with EBatch _ es => Some (em_id <$> es) | EGraded e _ => Some [e] | _ => None end.
Definition life_ids : list (option (list uid)) :=
  [Some ["A::1::x"; "A::1::y"]; Some ["A::1::x"]; Some ["A::1::y"]; None; Some ["A::1::x"]; None; None; Some ["A::2::z"]; None; None; Some ["A::2::z"]].
Definition life_check (lib : library) : bool :=
  match session_run (setting_of flat_power lib) (new_session None) (a_life (lib_graph lib)) with
  | Some (z, evs) => bool_decide (event_ids <$> evs = life_ids) && bool_decide (z_pile z = {["A::2::z"]}) && bool_decide (z_review z = ["A::2"])
  | None => false
  end &&
  small (lib_graph lib) && bool_decide (map_Forall (λ u _, get_unit_type (lib_graph lib) u = Some Lesson) (supersedes_graph (lib_graph lib))) &&
  bool_decide (Forall (λ e, get_unit_type (lib_graph lib) e = Some Exercise) ["A::1::x"; "A::1::y"; "A::2::z"]) &&
  bool_decide (get_unit_type (lib_graph lib) "A::2" = Some Lesson).
Lemma a_life_checked : library_check life_check two_steps = true.
Proof. vm_compute. reflexivity. Qed.

Lemma ask_ok g f : request_ok g (ask g f).
Proof. split; [apply first_choices_ok|]. split; [apply plain_ok|apply graph_edges_of]. Qed.
Lemma some_life : ∃ s z evs, setting_ok s ∧ acyclic (UnitSpec.below (lib_graph (g_lib s))) ∧ Forall (sane (lib_graph (g_lib s))) (a_life (lib_graph (g_lib s))) ∧
  session_run s (new_session None) (a_life (lib_graph (g_lib s))) = Some (z, evs) ∧ event_ids <$> evs = life_ids ∧
  to_relearn (lib_graph (g_lib s)) (since_opening evs) "A::2::z" ∧ review_in (lib_graph (g_lib s)) (z_review z) ∧
  ∀ f, request_ok (lib_graph (g_lib s)) (ask (lib_graph (g_lib s)) f).
Proof.
  destruct (library_checked life_check two_steps) as (lib & Ho & H); [apply a_library_consistent|apply a_life_checked|].
  unfold life_check in H. rewrite !andb_true_iff in H. destruct H as ((((Hr & Hsm) & Hsu) & Hex) & Hle).
  apply bool_decide_eq_true in Hsu, Hex, Hle. apply small_modest in Hsm.
  destruct (session_run (setting_of flat_power lib) (new_session None) (a_life (lib_graph lib))) as [[z evs]|] eqn:E; [|done].
  rewrite !andb_true_iff in Hr. destruct Hr as ((Hids & Hp) & Hrev). apply bool_decide_eq_true in Hids, Hp, Hrev.
  exists (setting_of flat_power lib), z, evs. cbn [setting_of g_lib]. pose proof (flat_setting_ok lib Ho Hsm) as Hok.
  apply Forall_cons in Hex as [H1 Hex]. apply Forall_cons in Hex as [H2 Hex]. apply Forall_cons in Hex as [H3 _].
  split; [done|]. split.
  { apply same_kind_acyclic; [done|]. intros u v Hs Hu. exfalso. unfold supersedes, answers, get_supersedes in Hs.
    destruct (supersedes_graph (lib_graph lib) !! u) as [x|] eqn:Ex; [|done]. apply Hsu in Ex. rewrite Ex in Hu. done. }
  split.
  { assert (T : ∀ t, (0 <= t <= 1000)%Z → sane_time t) by (intros t Ht; unfold sane_time; lia). unfold a_life, at_.
    repeat (apply Forall_cons_2; [split; [apply T; cbn; lia|first [exact I | split; [assumption|apply T; lia]]]|]). apply Forall_nil_2. }
  split; [done|]. split; [done|]. split.
  { apply (pile_right (setting_of flat_power lib) Hok None _ z evs E); [done|]. rewrite Hp. by apply elem_of_singleton. }
  split; [|apply ask_ok]. rewrite Hrev. intros u Hu. apply elem_of_list_singleton in Hu as ->. rewrite Hle. by eexists.
Qed.
