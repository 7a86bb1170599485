(** A lifetime in which trials, deltas and rewards are recorded directly. *)
From stdpp Require Import gmap strings list.
From Coq Require Import ZArith Lia.
From Verif Require Import F32 Graph GraphSpec Library LibrarySpec LibrarySample LibFacts SearchSample Filters Options Batch BatchSpec FinishProofs
  Sql Stores StoresSpec StoresSample ScorerSpec UnitScorer Practice PracticeSample CallSample RangeSpec AskSpec Session SessionSpec SessionSample ImportProofs.
Local Open Scope string_scope.
Local Open Scope list_scope.
Local Open Scope bool_scope.

Definition an_import (g : graph) : list timed :=
  [at_ 100 (ZMaintain (MRecordScores false [Entry "A::1::x" f_5 50; Entry "A::1::x" f_4 60; Entry "A::1::y" f_1 60]));
   at_ 110 (ZMaintain (MRecordDeltas false [Entry "A::1::x" (fneg f_1) 60])); at_ 120 (ZMaintain (MRecordRewards by_time None [Entry "A::1" (f_1, f_1) 60]));
   at_ 130 (ZBatch (ask g None)); at_ 140 (ZMaintain (MRecordScores false [Entry "A::2::z" f_4 140])); at_ 150 (ZMaintain (MForget "A::2::z"))].
Definition import_entry (s : setting) (z : session) : outcome cached_score :=
  fst (exercise_entry (world_of s 200 (z_practice z)) "A::2::z" (p_caches (z_practice z))).
Definition import_right (s : setting) (r : option (session * list event)) : bool :=
  match r with
  | Some (z, evs) =>
      bool_decide (omap event_ids evs = [["A::1::y"; "A::1::x"]]) && match import_entry s z with Val x => bool_decide (ca_trials x = 1) | _ => false end
  | None => false
  end.
Definition import_lib (g : graph) : bool := small g && bool_decide (get_unit_type g "A::2::z" = Some Exercise).
Lemma import_checked : library_check (λ lib, import_right (setting_of flat_power lib) (session_run (setting_of flat_power lib) (new_session None) (an_import (lib_graph (g_lib (setting_of flat_power lib))))) && import_lib (lib_graph lib)) two_steps = true.
Proof. vm_compute. reflexivity. Qed.

Lemma import_proper g : Forall proper (an_import g).
Proof.
  unfold an_import. repeat match goal with |- Forall proper (_ :: _) => apply Forall_cons_2 | |- Forall proper [] => apply Forall_nil_2 end.
  all: unfold proper, at_; cbn [t_op]; unfold proper_op; try exact I.
  all: repeat match goal with |- Forall _ (_ :: _) => apply Forall_cons_2 | |- Forall _ [] => apply Forall_nil_2 | |- _ ∧ _ => split | |- between _ _ _ => split end.
  all: vm_compute; reflexivity.
Qed.
Definition imported (s : setting) : Prop := ∃ z evs x, let g := lib_graph (g_lib s) in
  setting_ok s ∧ Forall proper (an_import g) ∧ session_run s (new_session None) (an_import g) = Some (z, evs) ∧
  omap event_ids evs = [["A::1::y"; "A::1::x"]] ∧ get_unit_type g "A::2::z" = Some Exercise ∧
  fst (exercise_entry (world_of s 200 (z_practice z)) "A::2::z" (p_caches (z_practice z))) = Val x ∧ ca_trials x = 1.
Lemma import_of s r : import_right s r = true → ∃ z evs x, r = Some (z, evs) ∧ omap event_ids evs = [["A::1::y"; "A::1::x"]] ∧
  import_entry s z = Val x ∧ ca_trials x = 1.
Proof.
  destruct r as [[z evs]|]; [|done]. cbn [import_right]. intros H. apply andb_true_iff in H as [H1 H2]. apply bool_decide_eq_true in H1.
  destruct (import_entry s z) as [x| | |] eqn:Ex; try done. apply bool_decide_eq_true in H2. by exists z, evs, x.
Qed.
Lemma import_library g : import_lib g = true → modest g ∧ get_unit_type g "A::2::z" = Some Exercise.
Proof. intros H. unfold import_lib in H. apply andb_true_iff in H as [H1 H2]. split; [by apply small_modest|by apply bool_decide_eq_true in H2]. Qed.
Lemma import_seen s : import_right s (session_run s (new_session None) (an_import (lib_graph (g_lib s)))) = true → get_unit_type (lib_graph (g_lib s)) "A::2::z" = Some Exercise → setting_ok s → imported s.
Proof.
  intros Hr He Hs. apply import_of in Hr as (z & evs & x & E & Hids & Ex & Hx).
  exists z, evs, x. split; [exact Hs|]. split; [apply import_proper|]. split; [exact E|]. split; [exact Hids|]. split; [exact He|]. split; [exact Ex|exact Hx].
Qed.
Lemma some_import : ∃ s, imported s.
Proof.
  destruct (library_checked (λ lib, import_right (setting_of flat_power lib) (session_run (setting_of flat_power lib) (new_session None) (an_import (lib_graph (g_lib (setting_of flat_power lib))))) && import_lib (lib_graph lib)) two_steps) as (lib & Ho & H); [apply a_library_consistent|exact import_checked|].
  apply andb_true_iff in H as [H1 H2]. apply import_library in H2 as [Hm He].
  exists (setting_of flat_power lib). apply import_seen; [exact H1|exact He|]. exact (flat_setting_ok lib Ho Hm).
Qed.
