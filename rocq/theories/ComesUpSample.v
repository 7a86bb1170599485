(** A lifetime for the theorem about what can come up. *)
From stdpp Require Import gmap strings list relations.
From Coq Require Import ZArith Lia.
From Verif Require Import F32 Graph GraphSpec Library LibrarySpec LibrarySample LibFacts Filters Options OptionsSpec Batch BatchSpec BatchSample Search
  Sql Stores StoresSpec StoresSample ScorerSpec UnitScorer Practice PracticeSample CallSample RangeSpec
  SearchSpec SearchProofs SearchMore FinishProofs WholeProofs ProgressSpec WithinSpec AskSpec Session SessionSpec SearchSample SessionSample WithinSample WithinLifeSample ComesUpSpec.
Local Open Scope string_scope.
Local Open Scope list_scope.
Local Open Scope bool_scope.

(** Both exercises of the first lesson got a poor score, between two batches. *)
Definition poor_life (g : graph) : list timed :=
  [at_ 100 (ZBatch (ask g None)); at_ 110 (ZCall (CScore no_faults "A::1::x" One 110)); at_ 120 (ZCall (CScore no_faults "A::1::y" Two 120));
   at_ 140 (ZBatch (ask g None))].
Definition poor_pair (env : senv) : bool :=
  match s_score env "A::1::x", s_score env "A::1::y" with
  | Some (Some a), Some (Some b) =>
      let m := min_score (passing_score (s_options env)) in
      flt (average [a; b]) m && flt (average [b; a]) m && negb (fge a f_4_5)
  | _, _ => false
  end.
Definition poor_ok (env : senv) : bool :=
  let p := passing_score (s_options env) in
  verify_passing p && negb (fis_nan (min_score p)) && negb (fis_nan (min_fraction p)) && fgt (min_fraction p) fzero &&
  bool_decide (s_banned env = ∅) && negb (s_superseded env "A::1") && negb (s_superseded env "A") && poor_pair env &&
  Nat.ltb 1 (max_lessons_in_progress (s_options env)) && Nat.ltb 2 (max_candidates env) &&
  same_ids_as (found_ids (unit_candidates env plain 40 None)) ["A::1::x"; "A::1::y"].
Definition poor_right (s : setting) (r : option (session * list event)) : bool :=
  match r with Some (z, _) => poor_ok (later_env s z) | None => false end.
Definition poor_lib (lib : library) : bool :=
  later_lib lib && bool_decide (get_exercise_lesson (lib_graph lib) "A::1::y" = Some "A::1") &&
  bool_decide (get_lesson_exercises (lib_graph lib) "A::1" = Some {["A::1::x"; "A::1::y"]}).
Lemma poor_checked : library_check (λ lib, poor_right (setting_of flat_power lib) (session_run (setting_of flat_power lib) (new_session None) (poor_life (lib_graph (g_lib (setting_of flat_power lib))))) && poor_lib lib) two_steps = true.
Proof. vm_compute. reflexivity. Qed.

Lemma poor_proper g : Forall proper (poor_life g).
Proof.
  unfold poor_life. repeat match goal with |- Forall proper (_ :: _) => apply Forall_cons_2 | |- Forall proper [] => apply Forall_nil_2 end.
  all: unfold proper, at_; cbn [t_op]; unfold proper_op; exact I.
Qed.
Lemma poor_sane g : get_unit_type g "A::1::x" = Some Exercise → get_unit_type g "A::1::y" = Some Exercise → Forall (sane g) (poor_life g).
Proof.
  intros H1 H2. assert (T : ∀ t, (0 <= t <= 1000)%Z → sane_time t) by (intros t Ht; unfold sane_time; lia). unfold poor_life, at_.
  repeat (apply Forall_cons_2; [split; [apply T; cbn; lia|first [exact I | split; [assumption|apply T; lia]]]|]). apply Forall_nil_2.
Qed.

Lemma poor_fails env : LibOK (s_lib env) → s_banned env = ∅ → poor_pair env = true →
  get_lesson_exercises (s_graph env) "A::1" = Some {["A::1::x"; "A::1::y"]} →
  fails env "A::1" ∧ ∀ y, s_score env "A::1::x" = Some (Some y) → fge y f_4_5 = false.
Proof.
  intros K Hb Hp Hx. unfold poor_pair in Hp. destruct (s_score env "A::1::x") as [[a|]|] eqn:Ea; [|done|done].
  destruct (s_score env "A::1::y") as [[b|]|] eqn:Eb; [|done|done]. rewrite !andb_true_iff in Hp. destruct Hp as ((H1 & H2) & H3). apply negb_true_iff in H3.
  split; [|by intros y [= <-]]. intros x (es & xs & (Hnd & Hes) & _ & Hxs & ->).
  assert (Hperm : es ≡ₚ ["A::1::x"; "A::1::y"]).
  { apply NoDup_Permutation; [done|repeat constructor; set_solver|]. intros e. rewrite Hes. rewrite !elem_of_cons, elem_of_nil.
    rewrite <- (exercise_elem env K), Hx. unfold default, from_option, id.
    rewrite elem_of_union, !elem_of_singleton. split; [tauto|]. intros [->|[->|[]]]; (split; [tauto|]).
    all: split; [rewrite Hb; apply not_elem_of_empty|]; intros ? _; split; [rewrite Hb; apply not_elem_of_empty|]; intros ? _; rewrite Hb; apply not_elem_of_empty. }
  symmetry in Hperm. apply Permutation_length_2_inv in Hperm as [->| ->]; inversion Hxs as [|? u ? us (o & Eo & ->) Hus]; subst; inversion Hus as [|? v ? vs (o' & Eo' & ->) Hvs]; subst;
    inversion Hvs; subst; rewrite Ea, Eb in *; injection Eo as <-; injection Eo' as <-; assumption.
Qed.
Definition poor_facts (env : senv) (cs : list candidate) : Prop :=
  passing_numbers env ∧ fgt (min_fraction (passing_score (s_options env))) fzero = true ∧ "" ∉ s_banned env ∧
  in_reach env None (starts env None) (surely_leads env None) "A::1" ∧ ¬ passed_over env None "A::1" ∧ fails env "A::1" ∧
  exercise_of env "A::1::x" "A::1" ∧ clean env "A::1::x" ∧ (∀ y, s_score env "A::1::x" = Some (Some y) → fge y f_4_5 = false) ∧
  unit_candidates env plain 40 None = Found cs ∧ exercise_id <$> cs = ["A::1::x"; "A::1::y"] ∧
  ¬ max_candidates env ≤ length cs ∧ ¬ enough_in_progress env cs.
Lemma poor_of env : LibOK (s_lib env) → poor_ok env = true → poor_lib (s_lib env) = true → ∃ cs, poor_facts env cs.
Proof.
  intros K H Hl. unfold poor_lib in Hl. rewrite !andb_true_iff in Hl. destruct Hl as ((Hl & L7) & L8). apply bool_decide_eq_true in L7, L8.
  unfold later_lib in Hl. rewrite !andb_true_iff in Hl. destruct Hl as (((((((_ & _) & L1) & L2) & L3) & L4) & L5) & L6).
  apply bool_decide_eq_true in L4, L5, L6. unfold poor_ok in H. rewrite !andb_true_iff in H.
  destruct H as ((((((((((N1 & N2) & N3) & N4) & N5) & N6) & N7) & N8) & N9) & N10) & N11). apply negb_true_iff in N2, N3, N6, N7. apply bool_decide_eq_true in N5.
  apply Nat.ltb_lt in N9, N10. apply found_is in N11 as (cs & H & Hids). exists cs.
  destruct (poor_fails env K N5 N8 L8) as [F1 F2].
  assert (Hno : ∀ u d, has_deps (s_lib env) u [] = true → ¬ depends_on (s_graph env) u d).
  { intros u d Hu Hd. apply (has_deps_iff env u [] Hu) in Hd. by apply elem_of_nil in Hd. }
  split; [by split|]. split; [exact N4|]. split; [rewrite N5; apply not_elem_of_empty|]. split.
  { apply in_start; [right; exists "A"; split; [|split]|right; by apply (lesson_of_types env K "A::1" "A")].
    - split; [intros d Hd; by destruct (Hno "A" d L2)|]. split; [left; exact L4|]. by apply hides_none_hidden.
    - split; [exact L5|]. intros d Hd. by destruct (Hno "A::1" d L3).
    - intros d t Hd. by destruct (Hno "A::1" d L3). }
  split. { intros [Hx|[Hx|[Hx|(c & Hc & Hx)]]]; [by destruct Hx|rewrite N5 in Hx; by apply elem_of_empty in Hx|congruence|].
    unfold SearchSpec.lesson_of in Hc. change (get_lesson_course (s_graph env) "A::1" = Some "A") in L5. congruence. }
  split; [exact F1|]. split; [exact L6|].
  split. { split; [rewrite N5; apply not_elem_of_empty|]. intros ? _. split; [rewrite N5; apply not_elem_of_empty|]. intros ? _. rewrite N5. apply not_elem_of_empty. }
  split; [exact F2|]. split; [exact H|]. split; [exact Hids|].
  assert (Hlen : length cs = 2) by (rewrite <- (fmap_length exercise_id), Hids; done). split; [lia|].
  apply (few_in_progress env cs "A::1"); [|exact N9]. intros c Hc.
  destruct (candidates_in_place env K plain (λ i, plain_ok i) 40 None cs c H Hc) as [[Hex _] _].
  assert (Hid : exercise_id c ∈ exercise_id <$> cs) by (by apply elem_of_list_fmap_1). rewrite Hids in Hid.
  unfold exercise_of in Hex. change (get_exercise_lesson (s_graph env) "A::1::y" = Some "A::1") in L7. change (get_exercise_lesson (s_graph env) "A::1::x" = Some "A::1") in L6.
  apply elem_of_cons in Hid as [E|Hid]; [rewrite E in Hex; congruence|]. apply elem_of_list_singleton in Hid. rewrite Hid in Hex. congruence.
Qed.
Lemma poor_seen s : setting_ok s →
  poor_right s (session_run s (new_session None) (poor_life (lib_graph (g_lib s)))) = true → poor_lib (g_lib s) = true →
  ∃ z evs cs, session_run s (new_session None) (poor_life (lib_graph (g_lib s))) = Some (z, evs) ∧ poor_facts (later_env s z) cs.
Proof.
  intros Hs H Hl. destruct (session_run s (new_session None) (poor_life (lib_graph (g_lib s)))) as [[z evs]|]; [|done]. cbn [poor_right] in H.
  destruct (poor_of (later_env s z)) as [cs Hcs]; [exact (opened_ok _ (ok_lib s Hs))|exact H|exact Hl|]. by exists z, evs, cs.
Qed.
Lemma poor_example : ∃ s z evs cs, let g := lib_graph (g_lib s) in let env := env_of s 9 210 z (λ _, None) in
  setting_ok s ∧ session_run s (new_session None) (poor_life g) = Some (z, evs) ∧ Forall (sane g) (poor_life g) ∧ Forall proper (poor_life g) ∧
  request_ok g (ask g None) ∧ stands_for (ask g None) None ∧
  passing_numbers env ∧ fgt (min_fraction (passing_score (s_options env))) fzero = true ∧ "" ∉ s_banned env ∧
  in_reach env None (starts env None) (surely_leads env None) "A::1" ∧ ¬ passed_over env None "A::1" ∧ fails env "A::1" ∧
  exercise_of env "A::1::x" "A::1" ∧ clean env "A::1::x" ∧ (∀ y, s_score env "A::1::x" = Some (Some y) → fge y f_4_5 = false) ∧
  unit_candidates env plain 40 None = Found cs ∧ exercise_id <$> cs = ["A::1::x"; "A::1::y"] ∧
  ¬ max_candidates env ≤ length cs ∧ ¬ enough_in_progress env cs.
Proof.
  destruct (library_checked (λ lib, poor_right (setting_of flat_power lib) (session_run (setting_of flat_power lib) (new_session None) (poor_life (lib_graph (g_lib (setting_of flat_power lib))))) && poor_lib lib) two_steps) as (lib & Ho & H); [apply a_library_consistent|exact poor_checked|].
  apply andb_true_iff in H as [H1 H2]. pose proof H2 as H3. unfold poor_lib, later_lib in H3. rewrite !andb_true_iff in H3. destruct H3 as [[H3 _] _]. destruct H3 as (((((((Hsm & Hex) & _) & _) & _) & _) & _) & _).
  apply small_modest in Hsm. apply bool_decide_eq_true in Hex. pose proof (flat_setting_ok lib Ho Hsm) as Hok.
  apply Forall_cons in Hex as [Hex1 Hex]. apply Forall_cons in Hex as [Hex2 _].
  destruct (poor_seen (setting_of flat_power lib) Hok H1 H2) as (z & evs & cs & E & Hf).
  exists (setting_of flat_power lib), z, evs, cs. split; [exact Hok|]. split; [exact E|]. split; [exact (poor_sane _ Hex1 Hex2)|]. split; [apply poor_proper|].
  split; [apply ask_ok|]. split; [reflexivity|]. exact Hf.
Qed.
