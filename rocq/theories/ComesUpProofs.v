(** Proofs that what is within reach can come up. *)
From stdpp Require Import gmap strings list relations.
From Coq Require Import ZArith Lia Reals Lra.
From Verif Require Import F32 F32Real F32More Graph GraphSpec Library LibrarySpec LibrarySample LibFacts Filters Options OptionsSpec OptionsProofs Batch BatchSpec FinishProofs Search Facade
  Sql Stores StoresSpec StoresProofs StoresSample Scorer ScorerSpec ScoreProofs Propagate UnitScorer UnitSpec UnitProofs UnitEnds Practice PracticeProofs PracticeSample CallSample RangeSpec RangeProofs RangeMore
  SearchSpec SearchProofs WholeProofs ProgressSpec WithinSpec WithinProofs ChanceSpec ChanceProofs AskSpec Session SessionSpec SessionProofs SessionMore SessionSafe SessionLive ImportProofs WithinLife ComesUpSpec.
Local Open Scope nat_scope.
Local Open Scope list_scope.

Lemma life_draws s : setting_ok s → let g := lib_graph (g_lib s) in
  ∀ preferred ops z evs, session_run s (new_session preferred) ops = Some (z, evs) → Forall (sane g) ops → Forall proper ops →
  ∀ now fuel q uf, sane_time now → 1 ≤ fuel → request_ok g q → stands_for q uf → lists_once uf → let env := env_of s fuel now z (q_saved q) in
  passing_numbers env → fgt (min_fraction (passing_score (s_options env))) fzero = true → ""%string ∉ s_banned env →
  ∃ cs search, (∀ search', search ≤ search' → unit_candidates env (q_orders q) search' uf = Found cs) ∧ serves env uf cs ∧
    ∀ c, c ∈ cs → fge (Batch.exercise_score c) f_4_5 = false ∨ ¬ covered_times (q_edges q) cs c 10 → can_come_up s fuel now z q (exercise_id c).
Proof.
  intros Hs g preferred ops z evs H Hsane Hops now fuel q uf Hn Hf Hq Hu Hl env N F NB.
  destruct (life_filter s Hs preferred ops z evs H Hsane Hops now fuel q Hn Hf Hq N F NB uf) as (cs & n & Hcs & Hsv).
  { intros ->. done. }
  exists cs, n. split; [exact Hcs|]. split; [exact Hsv|]. intros c Hc Hk.
  destruct Hq as (Hr & Ho & He). pose proof (favour_ok (q_choices q) (exercise_id c) Hr) as Hr'.
  exists (favour (exercise_id c)), n. split; [by split|]. intros search Hse.
  pose proof (copies_run s ops (new_session preferred) z evs preferred (conj eq_refl eq_refl) H) as [Cf Cr].
  pose proof (ranged_run s Hs _ _ _ _ H Hops) as Hran. destruct (steady_run s preferred ops z evs H Hsane) as [_ Hp].
  pose proof (ok_lib s Hs) as Hlib. pose proof (opened_ok _ Hlib) as K. specialize (Hcs search Hse).
  assert (Hus : uses env (q_checks q) (q_time q) (q_filter q) uf) by exact Hu.
  assert (Hi : initial_candidates env (q_orders q) search (q_checks q) (q_time q) (q_filter q) = Found cs) by (by rewrite (uses_initial _ _ _ _ _ _ _ Hus)).
  assert (Hin : score_in_range (Batch.exercise_score c)).
  { destruct (candidates_in_place env K _ Ho _ _ _ _ Hcs Hc) as [_ (v & Hv & ->)].
    destruct v as [v|]; [|split; reflexivity]. cbn [default]. cbn [env env_of s_score] in Hv. apply told_some in Hv.
    destruct (ok_unit (world_of s now (z_practice z)) (world_ok s Hs now _ Hran) (ok_ord s Hs) (ok_modest s Hs) fuel (exercise_id c) _ (rn_caches _ Hran)) as [_ Hx].
    by apply (Hx _ Hv). }
  destruct (batch_succeeds env K (q_libm q) (with_draw (q_choices q) (favour (exercise_id c))) Hr' (q_edges q) (z_copies z) (success_rate (z_counts z)) (z_pile z) cs) as [es Hes]; [apply He| |exact Hp|].
  { intros d Hd. by eapply candidates_in_place. }
  cbn [session_step]. unfold batch_step, request_batch.
  change (q_saved (drawn q (favour (exercise_id c)))) with (q_saved q).
  change (with_options (oc_data (z_copies z)) (env_of s fuel now z (q_saved q))) with env.
  unfold get_exercise_batch. cbn [drawn q_filter q_time q_checks q_libm q_choices q_edges q_orders q_asked]. rewrite Hi, Hes.
  eexists _, _. split; [reflexivity|].
  apply (batch_ids_of env K) in Hes as (cs' & batch & [= <-] & Hfin & ->).
  eapply (favour_batch (q_libm q) (q_choices q) Hr); [| |exact Hc| |done|exact Hk|exact Hfin].
  - eapply graph_weights; [apply (k_inv _ K)|exact He].
  - exact (candidates_once env K (q_orders q) Ho search uf cs Hcs Hl).
  - rewrite Cf, created_one_window; done.
Qed.

Lemma life_comes_up s : setting_ok s → let g := lib_graph (g_lib s) in
  ∀ preferred ops z evs, session_run s (new_session preferred) ops = Some (z, evs) → Forall (sane g) ops → Forall proper ops →
  ∀ now fuel q, sane_time now → 1 ≤ fuel → request_ok g q → stands_for q None → let env := env_of s fuel now z (q_saved q) in
  passing_numbers env → fgt (min_fraction (passing_score (s_options env))) fzero = true → ""%string ∉ s_banned env →
  ∃ cs search, (∀ search', search ≤ search' → unit_candidates env (q_orders q) search' None = Found cs) ∧
    ∀ l e, in_reach env None (starts env None) (surely_leads env None) l → ¬ passed_over env None l → fails env l →
      exercise_of env e l → clean env e → (∀ y, s_score env e = Some (Some y) → fge y f_4_5 = false) →
      can_come_up s fuel now z q e ∨ max_candidates env ≤ length cs ∨ enough_in_progress env cs.
Proof.
  intros Hs g preferred ops z evs H Hsane Hops now fuel q Hn Hf Hq Hu env N F NB.
  destruct (life_draws s Hs preferred ops z evs H Hsane Hops now fuel q None Hn Hf Hq Hu I N F NB) as (cs & n & Hcs & (_ & Hall) & Hd).
  exists cs, n. split; [exact Hcs|]. intros l e Hl Hp Hfl Hel Hc Hy.
  destruct Hall as [Hm|Hall]; [by right; left|]. destruct (Hall l e Hl Hp Hel Hc) as [[_ Ho]|[Hen _]]; [left|by right; right].
  assert (He : e ∈ exercise_id <$> cs). { apply Ho; [|done|done]. intros x Hx. right. by apply Hfl. }
  apply elem_of_list_fmap in He as (c & -> & Hin). apply Hd; [exact Hin|]. left.
  pose proof (opened_ok _ (ok_lib s Hs)) as K.
  destruct (candidates_in_place env K _ (proj1 (proj2 Hq)) _ _ _ _ (Hcs n ltac:(lia)) Hin) as [_ (v & Hv & ->)].
  destruct v as [v|]; [|reflexivity]. by apply Hy.
Qed.
