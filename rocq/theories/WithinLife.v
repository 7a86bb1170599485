(** What a request without a filter offers after any lifetime. *)
From stdpp Require Import gmap strings list relations.
From Coq Require Import ZArith Lia Reals Lra.
From Verif Require Import F32 F32Real F32More Graph GraphSpec Library LibrarySpec LibrarySample LibFacts Filters Options OptionsSpec Batch BatchSpec Search
  Sql Stores StoresSpec StoresProofs StoresSample Scorer ScorerSpec ScoreProofs Propagate UnitScorer UnitSpec UnitProofs UnitEnds Practice PracticeProofs PracticeSample CallSample RangeSpec RangeProofs RangeMore
  SearchSpec SearchProofs WholeProofs ProgressSpec WithinSpec WithinProofs AskSpec Session SessionSpec SessionProofs SessionMore SessionSafe SessionLive ImportProofs SearchSample SessionSample.
Local Open Scope nat_scope.
Local Open Scope list_scope.

Section life.
  Context (s : setting) (Hs : setting_ok s).
  Let g := lib_graph (g_lib s).

  Lemma range_number x : in_range x → fis_nan x = false.
  Proof using. intros H. apply in_range_btw in H as [H _]. by destruct x. Qed.

  Lemma life_numbers preferred ops z evs : session_run s (new_session preferred) ops = Some (z, evs) → Forall proper ops →
    ∀ now fuel saved l x, SearchSpec.lesson_score (env_of s fuel now z saved) l x → fis_nan x = false.
  Proof using Hs.
    intros H Hops now fuel saved l x (es & xs & (Hnd & Hes) & Hne & Hxs & ->). apply range_number, average_range.
    - revert Hxs. clear Hne Hnd Hes. induction 1 as [|e y es ys (o & Ho & ->) _ IH]; constructor; [|done].
      cbn [env_of s_score] in Ho. apply told_some in Ho. destruct o as [y|]; [|split; vm_compute; reflexivity].
      apply (proj1 (life_ranges s Hs preferred ops z evs H Hops now fuel e)). done.
    - intros ->. apply Forall2_nil_inv_r in Hxs. done.
    - rewrite <- (Forall2_length _ _ _ Hxs). destruct es as [|e0 es0] eqn:E; [done|]. rewrite <- E in *.
      assert (H0 : e0 ∈ es) by (rewrite E; left). apply Hes in H0 as [H0 _].
      pose proof (opened_ok _ (ok_lib s Hs)) as K.
      assert (Hel : ∀ e, e ∈ es → e ∈ default ∅ (get_lesson_exercises g l)).
      { intros e He. apply Hes in He as [He _]. by apply (exercise_elem (env_of s fuel now z saved) K). }
      destruct (get_lesson_exercises g l) as [X|] eqn:EX.
      + pose proof (proj1 (ok_modest s Hs) l X EX) as Hm. assert (length es ≤ size X); [|lia].
        rewrite <- (size_list_to_set (C := gset string) es Hnd). apply subseteq_size. intros e He. apply elem_of_list_to_set in He. by apply Hel.
      + assert (e0 ∈ es) as He by (rewrite E; left). apply Hel in He. by apply elem_of_empty in He.
  Qed.

  Lemma life_answers preferred ops z evs : session_run s (new_session preferred) ops = Some (z, evs) → Forall (sane g) ops →
    ∀ now fuel saved, sane_time now → 1 ≤ fuel → answers_exercises (env_of s fuel now z saved).
  Proof using Hs.
    intros H Hops now fuel saved Hn Hf e l Hel. destruct (steady_run s preferred ops z evs H Hops) as [Ht _].
    pose proof (exercise_lesson_types (g_lib s) (ok_lib s Hs) e l Hel) as [Hte _].
    destruct (exercise_val s Hs now (z_practice z) e Ht Hn Hte fuel (p_caches (z_practice z)) Hf) as (x & c1 & E1).
    destruct (entry_val s Hs now (z_practice z) e Ht Hn (p_caches (z_practice z))) as (y & c2 & E2).
    cbn [env_of s_score s_urgency s_velocity]. unfold exercise_urgency, exercise_velocity, then_do. rewrite E1, E2.
    split; [|split]; by eexists.
  Qed.

  Lemma life_missing z now fuel saved u x : missing (env_of s fuel now z saved) u → s_score (env_of s fuel now z saved) u ≠ Some (Some x).
  Proof using.
    unfold missing. intros Hm E. cbn [env_of s_score] in E. apply told_some in E. destruct fuel as [|fuel]; [done|].
    cbn [unit_score] in E. change (get_unit_type (w_graph (world_of s now (z_practice z))) u = None) in Hm. rewrite Hm in E. done.
  Qed.
End life.

Lemma life_filter s : setting_ok s → let g := lib_graph (g_lib s) in
  ∀ preferred ops z evs, session_run s (new_session preferred) ops = Some (z, evs) → Forall (sane g) ops → Forall proper ops →
  ∀ now fuel q, sane_time now → 1 ≤ fuel → request_ok g q → let env := env_of s fuel now z (q_saved q) in
  passing_numbers env → fgt (min_fraction (passing_score (s_options env))) fzero = true → ""%string ∉ s_banned env →
  ∀ uf, (uf = Some FReviewList → review_in g (z_review z)) →
  ∃ cs search, (∀ search', search ≤ search' → unit_candidates env (q_orders q) search' uf = Found cs) ∧ serves env uf cs.
Proof.
  intros Hs g preferred ops z evs H Hsane Hprop now fuel q Hn Hf (_ & Ho & _) env N F NB uf Hrev. apply offers_filter; [|exact Ho|exact N|exact F|..|exact NB|].
  - exact (ok_lib s Hs).
  - by apply (life_answers s Hs preferred ops z evs).
  - intros l x. by apply (life_numbers s Hs preferred ops z evs).
  - intros u x. by apply life_missing.
  - intros E u Hu Hm. specialize (Hrev E u Hu). destruct Hrev as [ty Ety]. unfold missing in Hm. change (s_graph env) with g in Hm. congruence.
Qed.
Lemma life_reach s : setting_ok s → let g := lib_graph (g_lib s) in
  ∀ preferred ops z evs, session_run s (new_session preferred) ops = Some (z, evs) → Forall (sane g) ops → Forall proper ops →
  ∀ now fuel q, sane_time now → 1 ≤ fuel → request_ok g q → let env := env_of s fuel now z (q_saved q) in
  passing_numbers env → fgt (min_fraction (passing_score (s_options env))) fzero = true → ""%string ∉ s_banned env →
  ∃ cs search, (∀ search', search ≤ search' → unit_candidates env (q_orders q) search' None = Found cs) ∧ found_from env None (starts env None) cs.
Proof.
  intros Hs g preferred ops z evs H Hsane Hprop now fuel q Hn Hf Hq env N F NB.
  by apply (life_filter s Hs preferred ops z evs H Hsane Hprop now fuel q Hn Hf Hq N F NB None).
Qed.
