(** A lifetime for the theorem about what is within reach. *)
From stdpp Require Import gmap strings list relations.
From Coq Require Import ZArith Lia.
From Verif Require Import F32 Graph GraphSpec Library LibrarySpec LibrarySample LibFacts Filters Options OptionsSpec Batch BatchSpec BatchSample Search
  Sql Stores StoresSpec StoresSample ScorerSpec UnitScorer Practice PracticeSample CallSample RangeSpec
  SearchSpec SearchMore FinishProofs ProgressSpec WithinSpec AskSpec Session SessionSpec SearchSample SessionSample.
Local Open Scope string_scope.
Local Open Scope list_scope.
Local Open Scope bool_scope.

Definition later_env (s : setting) (z : session) : senv := env_of s 9 210 z (λ _, None).
Definition later_ok (env : senv) : bool :=
  let p := passing_score (s_options env) in
  verify_passing p && negb (fis_nan (min_score p)) && negb (fis_nan (min_fraction p)) && fgt (min_fraction p) fzero &&
  bool_decide (s_banned env = ∅) && negb (s_superseded env "A::1") && negb (s_superseded env "A") &&
  same_ids_as (found_ids (unit_candidates env plain 40 None)) ["A::1::x"].
Definition later_right (s : setting) (r : option (session * list event)) : bool :=
  match r with Some (z, _) => later_ok (later_env s z) | None => false end.
Definition later_lib (lib : library) : bool :=
  small (lib_graph lib) && bool_decide (Forall (λ e, get_unit_type (lib_graph lib) e = Some Exercise) ["A::1::x"; "A::1::y"; "A::2::z"]) &&
  hides_none lib && has_deps lib "A" [] && has_deps lib "A::1" [] && bool_decide (get_unit_type (lib_graph lib) "A" = Some Course) &&
  bool_decide (get_lesson_course (lib_graph lib) "A::1" = Some "A") && bool_decide (get_exercise_lesson (lib_graph lib) "A::1::x" = Some "A::1").
Lemma later_checked : library_check (λ lib, later_right (setting_of flat_power lib) (session_run (setting_of flat_power lib) (new_session None) (a_life (lib_graph (g_lib (setting_of flat_power lib))))) && later_lib lib) two_steps = true.
Proof. vm_compute. reflexivity. Qed.

Lemma life_proper g : Forall proper (a_life g).
Proof.
  unfold a_life. repeat match goal with |- Forall proper (_ :: _) => apply Forall_cons_2 | |- Forall proper [] => apply Forall_nil_2 end.
  all: unfold proper, at_; cbn [t_op]; unfold proper_op; exact I.
Qed.
Lemma life_sane g : Forall (λ e, get_unit_type g e = Some Exercise) ["A::1::x"; "A::1::y"; "A::2::z"] → Forall (sane g) (a_life g).
Proof.
  intros Hex. apply Forall_cons in Hex as [H1 Hex]. apply Forall_cons in Hex as [H2 Hex]. apply Forall_cons in Hex as [H3 _].
  assert (T : ∀ t, (0 <= t <= 1000)%Z → sane_time t) by (intros t Ht; unfold sane_time; lia). unfold a_life, at_.
  repeat (apply Forall_cons_2; [split; [apply T; cbn; lia|first [exact I | split; [assumption|apply T; lia]]]|]). apply Forall_nil_2.
Qed.

Definition later_facts (env : senv) (cs : list candidate) : Prop :=
  passing_numbers env ∧ fgt (min_fraction (passing_score (s_options env))) fzero = true ∧ "" ∉ s_banned env ∧
  in_reach env None (starts env None) (surely_leads env None) "A::1" ∧ ¬ passed_over env None "A::1" ∧ exercise_of env "A::1::x" "A::1" ∧ clean env "A::1::x" ∧
  unit_candidates env plain 40 None = Found cs ∧ exercise_id <$> cs = ["A::1::x"].
Lemma later_of env : LibOK (s_lib env) → later_ok env = true → later_lib (s_lib env) = true → ∃ cs, later_facts env cs.
Proof.
  intros K H Hl. unfold later_lib in Hl. rewrite !andb_true_iff in Hl. destruct Hl as (((((((_ & _) & L1) & L2) & L3) & L4) & L5) & L6).
  apply bool_decide_eq_true in L4, L5, L6. unfold later_ok in H. rewrite !andb_true_iff in H.
  destruct H as (((((((N1 & N2) & N3) & N4) & N5) & N6) & N7) & N8). apply negb_true_iff in N2, N3, N6, N7. apply bool_decide_eq_true in N5.
  apply found_is in N8 as (cs & H & Hids). exists cs.
  assert (Hno : ∀ u d, has_deps (s_lib env) u [] = true → ¬ depends_on (s_graph env) u d).
  { intros u d Hu Hd. apply (has_deps_iff env u [] Hu) in Hd. by apply elem_of_nil in Hd. }
  split; [by split|]. split; [exact N4|]. split; [rewrite N5; apply not_elem_of_empty|]. split.
  { apply in_start; [right; exists "A"; split; [|split]|right; by apply (lesson_of_types env K "A::1" "A")].
    - split; [intros d Hd; by destruct (Hno "A" d L2)|]. split; [left; exact L4|]. by apply hides_none_hidden.
    - split; [exact L5|]. intros d Hd. by destruct (Hno "A::1" d L3).
    - intros d t Hd. by destruct (Hno "A::1" d L3). }
  split. { intros [Hx|[Hx|[Hx|(c & Hc & Hx)]]]; [by destruct Hx|rewrite N5 in Hx; by apply elem_of_empty in Hx|congruence|].
    unfold SearchSpec.lesson_of in Hc. change (get_lesson_course (s_graph env) "A::1" = Some "A") in L5. congruence. }
  split; [exact L6|].
  split. { split; [rewrite N5; apply not_elem_of_empty|]. intros ? _. split; [rewrite N5; apply not_elem_of_empty|]. intros ? _. rewrite N5. apply not_elem_of_empty. }
  split; [exact H|exact Hids].
Qed.
Lemma later_seen s : setting_ok s →
  later_right s (session_run s (new_session None) (a_life (lib_graph (g_lib s)))) = true → later_lib (g_lib s) = true →
  ∃ z evs cs, session_run s (new_session None) (a_life (lib_graph (g_lib s))) = Some (z, evs) ∧ later_facts (later_env s z) cs.
Proof.
  intros Hs H Hl. destruct (session_run s (new_session None) (a_life (lib_graph (g_lib s)))) as [[z evs]|]; [|done]. cbn [later_right] in H.
  destruct (later_of (later_env s z)) as [cs Hcs]; [exact (opened_ok _ (ok_lib s Hs))|exact H|exact Hl|]. by exists z, evs, cs.
Qed.
Lemma life_example : ∃ s z evs cs, let g := lib_graph (g_lib s) in let env := env_of s 9 210 z (λ _, None) in
  setting_ok s ∧ session_run s (new_session None) (a_life g) = Some (z, evs) ∧ Forall (sane g) (a_life g) ∧ Forall proper (a_life g) ∧
  request_ok g (ask g None) ∧ passing_numbers env ∧ fgt (min_fraction (passing_score (s_options env))) fzero = true ∧ "" ∉ s_banned env ∧
  in_reach env None (starts env None) (surely_leads env None) "A::1" ∧ ¬ passed_over env None "A::1" ∧ exercise_of env "A::1::x" "A::1" ∧ clean env "A::1::x" ∧
  unit_candidates env plain 40 None = Found cs ∧ exercise_id <$> cs = ["A::1::x"].
Proof.
  destruct (library_checked (λ lib, later_right (setting_of flat_power lib) (session_run (setting_of flat_power lib) (new_session None) (a_life (lib_graph (g_lib (setting_of flat_power lib))))) && later_lib lib) two_steps) as (lib & Ho & H); [apply a_library_consistent|exact later_checked|].
  apply andb_true_iff in H as [H1 H2]. pose proof H2 as H3. unfold later_lib in H3. rewrite !andb_true_iff in H3. destruct H3 as (((((((Hsm & Hex) & _) & _) & _) & _) & _) & _).
  apply small_modest in Hsm. apply bool_decide_eq_true in Hex. pose proof (flat_setting_ok lib Ho Hsm) as Hok.
  destruct (later_seen (setting_of flat_power lib) Hok H1 H2) as (z & evs & cs & E & Hf).
  exists (setting_of flat_power lib), z, evs, cs. split; [exact Hok|]. split; [exact E|]. split; [exact (life_sane _ Hex)|]. split; [apply life_proper|].
  split; [apply ask_ok|]. exact Hf.
Qed.
