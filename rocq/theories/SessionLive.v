(** Whole lifetimes: every call returns. *)
From stdpp Require Import gmap strings list relations.
From Coq Require Import ZArith Lia.
From Verif Require Import F32 Graph GraphSpec Library LibrarySpec LibFacts Filters Options OptionsSpec Batch BatchSpec Search SearchSpec SearchProofs WholeProofs SelectProofs SizeProofs FinishProofs
  Facade Sql Stores StoresSpec StoresProofs Scorer ScorerSpec ScoreProofs Propagate PropagateSpec PropagateMore UnitScorer UnitSpec UnitProofs UnitEnds UnitPure Practice PracticeProofs PracticeMore RangeSpec RangeProofs RangeMore CallSpec CallProofs
  AskSpec AskProofs Session SessionSpec SessionProofs SessionMore SessionSafe.
Local Open Scope bool_scope.

(** ** No panic *)
Section calm.
  Context (w : world) (Hcalm : ∀ e, w_exercise w e ≠ Panic).
  Definition calm {A} (m : prog A) : Prop := ∀ c, fst (m c) ≠ Panic.
  Lemma calm_done {A} (a : A) : calm (done_with a).
  Proof using. by intros c. Qed.
  Lemma calm_write f : calm (write f).
  Proof using. by intros c. Qed.
  Lemma calm_fuel {A} : calm (out_of_fuel (A := A)).
  Proof using. by intros c. Qed.
  Lemma calm_then {A B} (m : prog A) (k : A → prog B) : calm m → (∀ a, calm (k a)) → calm (then_do m k).
  Proof using. intros Hm Hk c. unfold then_do. specialize (Hm c). destruct (m c) as [[a| | |] c']; [apply Hk|done..]. Qed.
  Lemma calm_default {A} (d : A) m : calm m → calm (or_default d m).
  Proof using. intros Hm c. unfold or_default. specialize (Hm c). destruct (m c) as [[a| | |] c']; done. Qed.
  Lemma calm_each {A B} (f : A → prog B) l : (∀ x, calm (f x)) → calm (each f l).
  Proof using. intros Hf. induction l as [|x l IH]; cbn [each]; [apply calm_done|]. apply calm_then; [done|]. intros y. apply calm_then; [done|]. intros ys. apply calm_done. Qed.
  Lemma calm_entry e : calm (exercise_entry w e).
  Proof using Hcalm. intros c. unfold exercise_entry. destruct (c_exercise c !! e); [done|]. specialize (Hcalm e). by destruct (w_exercise w e). Qed.
  Lemma calm_score e : calm (exercise_score w e).
  Proof using Hcalm. apply calm_then; [apply calm_entry|]. intros a. apply calm_done. Qed.
  Lemma calm_have u : calm (all_have_scores w u).
  Proof using Hcalm.
    unfold all_have_scores. destruct (valid_in_unit w u); [apply calm_done|]. apply calm_then; [|intros a; apply calm_done].
    apply calm_each. intros x. apply calm_default, calm_then; [apply calm_score|]. intros a. apply calm_done.
  Qed.
  Section unit.
    Context (us : uid → prog (option f32)) (Hus : ∀ u, calm (us u)).
    Lemma calm_is_superseded u by_ : calm (is_superseded w us u by_).
    Proof using Hcalm Hus.
      unfold is_superseded. destruct (bool_decide (by_ = ∅)); [apply calm_done|]. apply calm_then; [apply calm_have|]. intros [|]; [|apply calm_done].
      apply calm_then; [|intros a; apply calm_done]. apply calm_each. intros x. by apply calm_default.
    Qed.
    Lemma calm_replace fuel : ∀ by_, calm (replace_superseding w us fuel by_).
    Proof using Hcalm Hus.
      induction fuel as [|fuel IH]; intros by_; cbn [replace_superseding]; [apply calm_fuel|]. apply calm_then; [|intros a; apply calm_done].
      apply calm_each. intros x. destruct (get_superseded_by (w_graph w) x); [|apply calm_done].
      apply calm_then; [apply calm_is_superseded|]. intros [|]; [apply IH|apply calm_done].
    Qed.
    Lemma calm_superseded fuel u : calm (superseded w us fuel u).
    Proof using Hcalm Hus.
      unfold superseded. destruct (get_superseded_by (w_graph w) u); [|apply calm_done]. apply calm_then; [apply calm_replace|].
      intros a. apply calm_is_superseded.
    Qed.
    Lemma calm_store f (r : option f32) : calm (then_do (write f) (λ _, done_with r)).
    Proof using. apply calm_then; [apply calm_write|]. intros _. apply calm_done. Qed.
    Lemma calm_lesson fuel l : calm (lesson_score w us fuel l).
    Proof using Hcalm Hus.
      intros c. unfold lesson_score. destruct (c_lesson c !! l); [done|]. cbv zeta. destruct (w_bans w l); [apply calm_store|].
      apply calm_then; [apply calm_superseded|]. intros [|]; [apply calm_store|].
      destruct (get_lesson_exercises (w_graph w) l); [|apply calm_store]. destruct (List.filter _ _); [apply calm_store|].
      apply calm_then; [apply calm_each, calm_score|]. intros a. apply calm_store.
    Qed.
    Lemma calm_course fuel u : calm (course_score w us fuel u).
    Proof using Hcalm Hus.
      intros c. unfold course_score. destruct (c_course c !! u); [done|]. cbv zeta. destruct (w_bans w u); [apply calm_store|].
      apply calm_then; [apply calm_superseded|]. intros [|]; [apply calm_store|].
      destruct (get_course_lessons (w_graph w) u); [|apply calm_store].
      apply calm_then; [apply calm_each; intros x; apply calm_default, calm_lesson|]. intros a.
      destruct (omap _ a); [apply calm_done|apply calm_store].
    Qed.
  End unit.
  Lemma calm_unit fuel : ∀ u, calm (unit_score w fuel u).
  Proof using Hcalm.
    induction fuel as [|fuel IH]; intros u; cbn [unit_score]; [apply calm_fuel|].
    destruct (get_unit_type (w_graph w) u) as [[| |]|]; [| | |by intros c].
    - apply calm_then; [apply calm_score|]. intros a. apply calm_done.
    - by apply calm_lesson.
    - by apply calm_course.
  Qed.
  Lemma calm_lesson_trials l : calm (lesson_trials w l).
  Proof using Hcalm.
    intros c. unfold lesson_trials. destruct (c_lesson_trials c !! l); [done|]. destruct (get_lesson_exercises (w_graph w) l); [|done].
    apply calm_then; [|intros a; apply calm_store]. apply calm_each. intros x. apply calm_default, calm_then; [|intros a; apply calm_done].
    apply calm_then; [apply calm_entry|]. intros a. apply calm_done.
  Qed.
  Lemma calm_trials fuel u : calm (avg_trials w fuel u).
  Proof using Hcalm.
    unfold avg_trials. destruct (get_unit_type (w_graph w) u) as [[| |]|]; [apply calm_done|apply calm_lesson_trials| |apply calm_done].
    intros c. unfold course_trials. destruct (c_course_trials c !! u); [done|].
    apply calm_then; [|intros a; apply calm_then; [apply calm_each, calm_lesson_trials|]; intros ns; apply calm_store].
    apply calm_each. intros x. apply calm_then; [|intros a; apply calm_done]. apply calm_superseded. intros y. apply calm_unit.
  Qed.
  (** The same for all questions, with that they end. *)
  Lemma reply_settled (Hord : ∀ s, w_ord w s ≡ₚ elements s) (Hfin : ∀ e, w_exercise w e ≠ UnitScorer.NoFuel) n (Hlow : ∀ u, low (w_graph w) n u) q c :
    fuelled (S n) q → settled (fst (reply w q c)).
  Proof using Hcalm.
    intros Hq. destruct (reply_base w c Hord Hfin n Hlow q c Hq (grown_start w c)) as (c' & E & _). rewrite E. cbn [fst].
    destruct q as [fuel u|fuel u|fuel u|e]; cbn [reply base_reply fuelled settled] in *.
    - pose proof (calm_unit fuel u c) as C. destruct (unit_score w fuel u c) as [r cc]. injection E as -> <-.
      split; [exact C|]. apply fine_fuel, (fine_base_unit w c Hord Hfin n); [apply Hlow|lia].
    - pose proof (calm_trials fuel u c) as C. destruct (avg_trials w fuel u c) as [r cc]. cbn [fst] in C. injection E as E <-. rewrite <- E.
      split; [exact C|]. rewrite E. destruct (get_unit_type (w_graph w) u) as [[| |]|]; [done| | |done].
      + by apply fine_fuel, fine_base_lesson_trials.
      + apply fine_fuel, (fine_base_course_trials w c Hord Hfin n Hlow). lia.
    - pose proof (calm_superseded (unit_score w fuel) (calm_unit fuel) fuel u c) as C. destruct (superseded w (unit_score w fuel) fuel u c) as [r cc]. injection E as -> <-.
      split; [exact C|]. apply fine_fuel, (fine_base_superseded w c Hord Hfin n Hlow). lia.
    - pose proof (calm_entry e c) as C. destruct (exercise_entry w e c) as [r cc]. injection E as -> <-.
      split; [exact C|]. by apply based_fin.
  Qed.
End calm.

Section session.
  Context (s : setting) (Hs : setting_ok s).
  Let g := lib_graph (g_lib s).

  (** ** Times and the pile *)
  Definition in_time (p : practice) : Prop := Forall (λ r, sane_time (r_ts r)) (t_rows (p_trials p)).
  Record steady (z : session) : Prop := {
    st_time : in_time (z_practice z);
    st_pile : ∀ e, e ∈ z_pile z → get_unit_type g e = Some Exercise }.
  Lemma call_time fuel now p c p' : in_time p → sane_op g (ZCall c) → call_step s fuel now p c = Some p' → in_time p'.
  Proof using.
    intros Hp Hc H. destruct c as [f e sc ts|fails u|fails u|pre|pre|u|u|e]; cbn [call_step] in H.
    - destruct (score_call s fuel now f e sc ts p) as [[p1 ok]|] eqn:E; [|done]. injection H as <-. cbn [fst].
      apply score_trials in E as [[E | Ei] _]; unfold in_time; [by rewrite E|]. destruct (insert_rows _ _ _ Ei) as (r & -> & Hr).
      apply Forall_app. split; [done|]. constructor; [|constructor]. rewrite Hr. apply Hc.
    - by injection H as <-.
    - by injection H as <-.
    - by injection H as <-.
    - injection H as <-. unfold in_time. cbn [p_trials]. eapply sublist_Forall; [apply fewer, delete_shrinks|done].
    - injection H as <-. unfold in_time. by rewrite (proj1 (run_stores _ _)).
    - injection H as <-. unfold in_time. by rewrite (proj1 (run_stores _ _)).
    - injection H as <-. unfold in_time. by rewrite (proj1 (run_stores _ _)).
  Qed.
  Lemma record_time fails (t : table f32) es : Forall (λ r, sane_time (r_ts r)) (t_rows t) → Forall (λ x, sane_time (e_ts x)) es →
    Forall (λ r, sane_time (r_ts r)) (t_rows (fst (record_entries bind_f32 fails t es))).
  Proof using.
    intros Ht He. unfold record_entries. destruct fails; [done|].
    assert (∀ t t', Forall (λ r, sane_time (r_ts r)) (t_rows t) → insert_entries bind_f32 t es = Some t' → Forall (λ r, sane_time (r_ts r)) (t_rows t')) as H.
    { clear t Ht. induction es as [|x es IH]; intros t t' Ht H; cbn in H; [by injection H as <-|]. apply Forall_cons in He as [Hx He].
      destruct (insert_entry bind_f32 t x) as [t1|] eqn:E; [|done]. eapply (IH He); [|exact H].
      destruct (insert_rows _ _ _ E) as (r & -> & Hr). apply Forall_app. split; [done|]. constructor; [by rewrite Hr|constructor]. }
    destruct (insert_entries bind_f32 t es) as [t'|] eqn:E; [|done]. by eapply H.
  Qed.
  Lemma steady_step fuel search now z op z' ev : steady z → sane_op g op → session_step s fuel search now z op = Some (z', ev) → steady z'.
  Proof using.
    intros [Ht Hp] Hop. destruct op as [c|m|v|c|q|preferred]; cbn [session_step].
    - destruct (call_step s fuel now (z_practice z) c) as [p|] eqn:E; [|done].
      assert (Hp' : steady (with_practice z p)). { split; [by eapply call_time|done]. }
      destruct c as [f e sc ts| | | | | | |]; try (by intros [= <- <-]).
      destruct (stored_more (z_practice z) p); intros [= <- <-]; [|done]. split; [apply Hp'|]. cbn [z_pile]. intros e' He'.
      unfold update_pile in He'. destruct sc; rewrite ?elem_of_union, ?elem_of_difference, ?elem_of_singleton in He'; destruct He' as [H1 H2] || destruct He' as [->|H2]; auto; apply Hop.
    - intros [= <- <-]. split; [|done]. cbn [with_practice z_practice]. unfold in_time in *.
      destruct m; try done; cbn [maintain p_trials]; [by apply record_time|..]; (eapply sublist_Forall; [apply fewer|done]); [apply trim_shrinks|apply delete_shrinks].
    - intros [= <- <-]. by split.
    - intros [= <- <-]. by split.
    - assert (Hc : ∀ ban e, e ∈ clean_pile ban (z_pile z) → get_unit_type g e = Some Exercise).
      { intros ban e He. apply Hp. unfold clean_pile in He. by apply elem_of_filter in He as [_ ?]. }
      unfold batch_step. destruct (request_batch _ _ _ _ _ _ _ _ _ _ _ _) as [es| | |]; [| |done|done].
      + intros [= <- <-]. split; [done|apply Hc].
      + destruct (initial_candidates _ _ _ _ _ _); intros [= <- <-]; split; try done; apply Hc.
    - intros [= <- <-]. split; [done|]. intros e He. by apply not_elem_of_empty in He.
  Qed.
  Lemma steady_run preferred ops z evs : session_run s (new_session preferred) ops = Some (z, evs) → Forall (sane g) ops → steady z.
  Proof using.
    intros H Hops. apply (run_invariant s (λ z _, steady z) (sane g)
      (λ z evs t z' ev Hz Ht E, steady_step _ _ _ z _ z' ev Hz (proj2 Ht) E) ops (new_session preferred) [] z evs); [|done|done].
    split; [constructor|]. intros e He. by apply not_elem_of_empty in He.
  Qed.

  (** ** Exercises always have scores *)
  Lemma times_get (q : order f32) (t : table f32) u n : sorts_newest_first q → Forall (λ r, sane_time (r_ts r)) (t_rows t) →
    Forall (λ e, sane_time (e_ts e)) (default [] (get_entries q t u n)).
  Proof using.
    intros Hq Ht. unfold get_entries. destruct (uid_of (t_uids t) u) as [k|]; [|constructor].
    destruct (mapM _ _) as [es|] eqn:E; [|constructor]. cbn. apply mapM_Some in E. apply Forall_forall. intros e He.
    apply elem_of_list_lookup in He as [i Hi]. destruct (Forall2_lookup_r _ _ _ _ _ E Hi) as (r & Hr & Hd).
    unfold decode_row in Hd. destruct (r_val r) as [v|] eqn:Ev; [|done]. injection Hd as <-. cbn [e_ts].
    rewrite Forall_forall in Ht. apply (Ht r).
    apply elem_of_list_lookup_2 in Hr. assert (Hin : r ∈ newest_rows q (t_rows t) k).
    { rewrite <- (take_drop n (newest_rows q (t_rows t) k)). apply elem_of_app. by left. }
    unfold newest_rows in Hin. rewrite (proj1 (Hq _)) in Hin. by apply elem_of_list_filter in Hin as [_ Hin].
  Qed.
  Lemma compute_calm now p e : in_time p → sane_time now → compute_exercise s now p e ≠ Panic.
  Proof using Hs.
    intros Hp Hn. unfold compute_exercise. set (trials := default [] _). destruct (score_exercise _ _ _ _ _); [|done]. cbv zeta.
    assert (Ht : Forall (λ t, sane_time (e_ts t)) trials).
    { apply times_get; [apply (ok_order s Hs)|done]. }
    unfold apply_reward. destruct trials as [|t trials]; [done|]. apply Forall_cons in Ht as [Ht _].
    destruct (Nat.leb _ _); [done|]. rewrite bool_decide_eq_true_2; [repeat case_match; done|].
    unfold sane_time, i64_min, i64_max in *. lia.
  Qed.
  Lemma compute_ends now p e : compute_exercise s now p e ≠ UnitScorer.NoFuel.
  Proof using. unfold compute_exercise. destruct (score_exercise _ _ _ _ _); [|done]. cbv zeta. by destruct (apply_reward _ _ _). Qed.
  Lemma entry_val now p e : in_time p → sane_time now → ∀ c, ∃ x c', exercise_entry (world_of s now p) e c = (Val x, c').
  Proof using Hs.
    intros Hp Hn c. unfold exercise_entry. destruct (c_exercise c !! e) as [x|]; [by exists x, c|]. cbn [world_of w_exercise].
    pose proof (compute_calm now p e Hp Hn). pose proof (compute_ends now p e). pose proof (history_no_error s Hs p now e).
    destruct (compute_exercise s now p e); [|done..]. eauto.
  Qed.
  Lemma exercise_val now p e : in_time p → sane_time now → get_unit_type g e = Some Exercise → ∀ fuel c, 1 ≤ fuel →
    ∃ x c', unit_score (world_of s now p) fuel e c = (Val (Some x), c').
  Proof using Hs.
    intros Hp Hn He fuel c Hf. destruct fuel as [|fuel]; [lia|]. cbn [unit_score world_of w_graph]. change (lib_graph (g_lib s)) with g. rewrite He.
    destruct (entry_val now p e Hp Hn c) as (x & c' & E). exists (ca_score x), c'.
    unfold UnitScorer.exercise_score, then_do. by rewrite E.
  Qed.

  Lemma inserts (t : table f32) x : ∃ t', insert_entry bind_f32 t x = Some t'.
  Proof using.
    unfold insert_entry. destruct (uid_of (add_uid (t_uids t) (e_unit x)) (e_unit x)) as [k|] eqn:E; [by eexists|]. exfalso.
    apply uid_of_None in E. apply E. unfold add_uid. case_bool_decide; [done|]. apply elem_of_app. right. by apply elem_of_list_singleton.
  Qed.
  (** ** Scores return *)
  Lemma score_returns now f e sc ts p : in_time p → sane_time now → get_unit_type g e = Some Exercise →
    ∃ n, ∀ fuel, n ≤ fuel → ∃ p' ok, score_call s fuel now f e sc ts p = Some (p', ok) ∧
      (f_delta f = false → f_score f = false → insert_entry bind_f32 (p_trials p) (Entry e (float_score sc) ts) = Some (p_trials p')).
  Proof using Hs.
    intros Hp Hn He. destruct (opened_built _ (ok_lib s Hs)) as [gops Eg].
    destruct (propagate_returns gops (g_listed s) (ok_listed s Hs) sc e ts) as (n & r & Hr). exists (S n). intros fuel Hf.
    unfold score_call.
    pose proof (run_stores (or_default None (unit_score (world_of s now p) fuel e)) p) as R1.
    destruct (run (or_default None (unit_score (world_of s now p) fuel e)) p) as [r1 p1] eqn:E1. cbn [snd] in R1.
    assert (∃ x, r1 = Val x) as [existing ->].
    { unfold run, or_default in E1. destruct (exercise_val now p e Hp Hn He fuel (p_caches p)) as (x & c' & E); [lia|]. rewrite E in E1.
      injection E1 as <- <-. eauto. }
    generalize (entry_val now p e Hp Hn) as Hval. generalize (world_of s now p) as w. intros w Hval.
    pose proof (run_stores (or_default 0 (exercise_num_trials w e)) p1) as R2.
    destruct (run (or_default 0 (exercise_num_trials w e)) p1) as [r2 p2] eqn:E2. cbn [snd] in R2.
    assert (∃ x, r2 = Val x) as [k ->].
    { unfold run, or_default, exercise_num_trials, then_do in E2. destruct (Hval (p_caches p1)) as (x & c' & E). rewrite E in E2.
      injection E2 as <- <-. eauto. }
    destruct R1 as (T1 & _ & _ & _), R2 as (T2 & _ & _ & _). assert (Et : p_trials p2 = p_trials p) by congruence.
    cbv zeta. set (d := if Nat.ltb 0 k then _ else _).
    destruct d as [deltas okd] eqn:Ed. destruct okd.
    2:{ eexists _, _. split; [done|]. intros Hd. exfalso. revert Ed. unfold d. destruct (Nat.ltb 0 k); [|done]. unfold record_entries. rewrite Hd.
        cbn [insert_entries]. destruct (inserts (p_deltas p2) (Entry e (fsub (float_score sc) (default fzero existing)) ts)) as [t ->]. done. }
    cbn [p_trials p_deltas p_rewards p_banned p_caches]. rewrite Et. unfold record_entries. destruct (f_score f); [eexists _, _; by split|].
    cbn [insert_entries]. destruct (insert_entry bind_f32 (p_trials p) (Entry e (float_score sc) ts)) as [t|] eqn:Ei.
    - rewrite Eg. rewrite Hr by lia. destruct (record_unit_rewards _ _ _ _) as [store us]. destruct us; eexists _, _; by split.
    - destruct (inserts (p_trials p) (Entry e (float_score sc) ts)) as [t Ei']. congruence.
  Qed.

  (** ** The statements *)
  Lemma call_returns preferred ops z evs : session_run s (new_session preferred) ops = Some (z, evs) → Forall (sane g) ops →
    ∀ now op, sane_time now → sane_op g op → (∀ q, op = ZBatch q → request_ok g q) →
    ∃ n, ∀ fuel, n ≤ fuel → ∃ m, ∀ search, m ≤ search → ∃ z' ev, session_step s fuel search now z op = Some (z', ev) ∧
      (∀ f e sc ts, op = ZCall (CScore f e sc ts) → f_delta f = false → f_score f = false → ev = EGraded e sc) ∧
      (∀ q uf, op = ZBatch q → stands_for q uf → (uf = Some FReviewList → review_in g (z_review z)) → ∃ es, ev = EBatch (p_banned (z_practice z)) es).
  Proof using Hs.
    intros H Hops now op Hn Hop Hq. destruct (steady_run preferred ops z evs H Hops) as [Ht Hp].
    destruct op as [c|m|v|c|q|p]; try (exists 0; intros fuel _; exists 0; intros search _; eexists _, _; split; [reflexivity|split; intros; done]).
    - destruct c as [f e sc ts| | | | | | |]; try (exists 0; intros fuel _; exists 0; intros search _; eexists _, _; split; [reflexivity|split; intros; done]).
      destruct Hop as [He Hts]. destruct (score_returns now f e sc ts (z_practice z) Ht Hn He) as [n Hsc]. exists n. intros fuel Hf. exists 0. intros search _.
      destruct (Hsc fuel Hf) as (p' & ok & E & Hi). cbn [session_step call_step]. rewrite E. cbn [fmap option_fmap option_map fst].
      destruct (stored_more (z_practice z) p') eqn:Em; eexists _, _; (split; [reflexivity|]); (split; [|done]).
      + by intros ? ? ? ? [= <- <- <- <-].
      + intros ? ? ? ? [= <- <- <- <-] H1 H2. exfalso. specialize (Hi H1 H2). destruct (insert_rows _ _ _ Hi) as (r & Hr & _).
        unfold stored_more in Em. rewrite Hr, app_length in Em. cbn in Em. apply Nat.ltb_ge in Em. lia.
    - destruct (Hq q eq_refl) as (Hr & Ho & He). exists 1. intros fuel Hf. set (env := env_of_request s fuel now z q).
      assert (Hlib : opened (s_lib env)) by apply (ok_lib s Hs).
      destruct (batch_returns env (q_orders q) Hlib Ho (q_checks q) (q_time q) (q_libm q) (q_choices q) (q_edges q) (z_copies z)
        (success_rate (z_counts z)) (z_pile z) (q_filter q)) as (m & b & Hb & Hm).
      exists m. intros search Hse. specialize (Hm search Hse). cbn [session_step]. unfold batch_step, request_batch.
      change (with_options (oc_data (z_copies z)) (env_of s fuel now z (q_saved q))) with env. rewrite Hm.
      assert (Hnp : b ≠ BatchPanic).
      { intros ->. revert Hm. unfold get_exercise_batch, finish_batch. destruct (initial_candidates _ _ _ _ _ _) as [cs| |]; [|done|done].
        destruct (batch_total (q_libm q) (q_choices q) (q_edges q) (z_copies z) (success_rate (z_counts z)) (clean_pile (inside_blacklisted env) (z_pile z)) cs Hr) as [batch ->]; [apply He|].
        by destruct (mapM _ batch). }
      assert (Hgood : ∀ uf, stands_for q uf → (uf = Some FReviewList → review_in g (z_review z)) → ∃ es, b = BatchOf es).
      { intros uf Hu Hrev. rewrite <- Hm in Hb. rewrite <- Hm.
        destruct (batch_never_fails env (q_orders q) search (q_checks q) (q_time q) (q_libm q) (q_choices q) (q_edges q) (z_copies z) (success_rate (z_counts z)) (z_pile z) (q_filter q) uf
          Hlib Ho Hr Hu) as [E|E]; [|apply He|..|done|done].
        - intros e l Hel. pose proof (exercise_lesson_types (g_lib s) (ok_lib s Hs) e l Hel) as [Hte _].
          destruct (exercise_val now (z_practice z) e Ht Hn Hte fuel (p_caches (z_practice z)) Hf) as (x & c1 & E1).
          destruct (entry_val now (z_practice z) e Ht Hn (p_caches (z_practice z))) as (y & c2 & E2).
          cbn [env env_of_request with_options env_of s_score s_urgency s_velocity]. unfold exercise_urgency, exercise_velocity, then_do. rewrite E1, E2.
          split; [|split]; by eexists.
        - intros Hl u Hu'. specialize (Hrev Hl u Hu'). intros Hmiss. destruct Hrev as [ty Ety]. unfold missing in Hmiss. change (s_graph env) with g in Hmiss. congruence.
        - exact Hp. }
      destruct b as [es| | |]; [| |done|done].
      + eexists _, _. split; [reflexivity|]. split; [done|]. intros. by eexists.
      + destruct (initial_candidates _ _ _ _ _ _); eexists _, _; (split; [reflexivity|]); (split; [done|]); intros q' uf [= <-] Hu Hrev;
          destruct (Hgood uf Hu Hrev) as [es ?]; done.
  Qed.

  Lemma answers_settle : acyclic (UnitSpec.below g) → ∃ n, ∀ preferred ops z evs, session_run s (new_session preferred) ops = Some (z, evs) → Forall (sane g) ops →
    ∀ now, sane_time now → ∀ qs q, fuelled n q →
    settled (fst (reply (world_of s now (z_practice z)) q (after_questions (world_of s now (z_practice z)) qs (p_caches (z_practice z))))).
  Proof using Hs.
    intros Ha. destruct (low_library (g_lib s) (ok_lib s Hs) Ha) as [n Hlow]. exists (S n). intros preferred ops z evs H Hops now Hn qs q Hq.
    destruct (steady_run preferred ops z evs H Hops) as [Ht _].
    apply (reply_settled (world_of s now (z_practice z)) (λ e, compute_calm now (z_practice z) e Ht Hn) (ok_ord s Hs) (λ e, compute_ends now (z_practice z) e) n Hlow q). done.
  Qed.
End session.
