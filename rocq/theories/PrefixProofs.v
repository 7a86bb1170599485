(** Removals by prefix that keep the caches right (C35). *)
From stdpp Require Import gmap strings list.
From Coq Require Import ZArith Lia.
From Verif Require Import F32 Graph GraphSpec GraphProofs Library LibrarySpec LibFacts SearchSpec Sql Stores StoresSpec StoresProofs StoresMore
  Options Scorer Propagate UnitScorer UnitSpec UnitProofs UnitCoherent Practice PracticeSpec PracticeProofs PracticeMore PowerSample PracticeSample
  UnitsMore PrefixSpec.
Local Open Scope string_scope.
Local Open Scope list_scope.

Lemma keep_other_some {A} p (m : gmap uid A) u v : keep_other p m !! u = Some v → m !! u = Some v ∧ String.prefix p u = false.
Proof. unfold keep_other. intros H. by apply map_filter_lookup_Some in H. Qed.

Section history.
  Context (s : setting) (Hlib : opened (g_lib s)) (Hord : ∀ x, g_ord s x ≡ₚ elements x) (Hq : sorts_newest_first (g_reward_order s)).
  Let g := lib_graph (g_lib s).

  Lemma inv_prefix now p pre : whole_prefix g pre (p_banned p) → inv s now p → inv s now (unban_prefix pre p).
  Proof using Hlib Hord.
    intros Hw [H1 H2 H3 H4]. split; [done..|]. cbn [unban_prefix p_caches].
    set (w := world_of s now p). set (w' := world_of s now (unban_prefix pre p)).
    assert (Hb : ∀ v, (∃ x, above g v x ∧ String.prefix pre x = false) → same_ban w w' v).
    { intros v (x & Ha & Hx). unfold same_ban, w_bans. cbn [w w' world_of w_banned unban_prefix p_banned].
      apply bool_decide_ext. rewrite elem_of_filter. split; [by intros [_ H]|]. intros Hv. split; [|done].
      destruct (like_prefix pre v) eqn:E; [|done]. exfalso. rewrite (Hw v x Hv E Ha) in Hx. done. }
    assert (HL : ∀ l, (∃ x, (x = l ∨ get_lesson_course g l = Some x) ∧ String.prefix pre x = false) → same_lesson w w' l).
    { intros l (x & Ha & Hx). split; [apply Hb; exists x; split; [|done]; unfold above; tauto|]. intros es e Hes Hin.
      destruct (listed_known (g_lib s) Hlib _ _ _ Hes Hin) as [Hel _]. split; [|done]. apply Hb. exists x. split; [|done].
      destruct Ha as [->|Ha]; unfold above; [by right; left|]. do 3 right. by exists l. }
    assert (HC : ∀ u, String.prefix pre u = false → same_course w w' u).
    { intros u Hu. split; [apply Hb; exists u; split; [by left|done]|]. intros ls l Hls Hin.
      pose proof (listed_lesson (g_lib s) Hlib _ _ _ Hls Hin) as Hlc. apply HL. exists u. split; [by right|done]. }
    apply (coh_change w w' eq_refl eq_refl Hord (p_caches p)); [done|..]; cbn [invalidate_prefix c_exercise c_lesson c_course c_lesson_trials c_course_trials].
    - intros e x _ Hx. by apply keep_other_some in Hx as [? _].
    - intros l v Hv. apply keep_other_some in Hv as [? Hv]. split; [done|]. apply HL. exists l. split; [by left|done].
    - intros u v Hv. apply keep_other_some in Hv as [? Hv]. auto.
    - intros l v Hv. apply keep_other_some in Hv as [? Hv]. split; [done|]. apply HL. exists l. split; [by left|done].
    - intros u v Hv. apply keep_other_some in Hv as [? Hv]. auto.
  Qed.
  Lemma inv_tidy fuel now cs : ∀ p p', Forall (λ x, x.1 = now) cs → tidy_calls s fuel p cs → inv s now p → calls s fuel p cs = Some p' → inv s now p'.
  Proof using Hlib Hord Hq.
    induction cs as [|[t c] cs IH]; intros p p' Hall Ht Hp H; [by injection H as <-|]. cbn [calls] in H.
    apply Forall_cons in Hall as [Hnow Hall]. cbn [fst snd] in *. subst t. cbn [tidy_calls] in Ht. destruct Ht as [Hc Ht].
    destruct (call_step s fuel now p c) as [p1|] eqn:E; [|done]. apply (IH p1 p' Hall (Ht p1 eq_refl)); [|done].
    destruct Hc as [Hc|(pre & -> & Hc)]; [by eapply inv_step|]. injection E as <-. by apply inv_prefix.
  Qed.

  Lemma tidy_scores fuel now cs p : Forall (λ x, x.1 = now) cs → tidy_calls s fuel new_practice cs → calls s fuel new_practice cs = Some p →
    let w := world_of s now p in
    (∀ n u, not_superseded g u →
       fst (unit_score w n u (p_caches p)) = fst (unit_score w n u no_caches) ∧
       fst (avg_trials w n u (p_caches p)) = fst (avg_trials w n u no_caches)) ∧
    (∀ e, get_unit_type g e = Some Exercise → fst (exercise_entry w e (p_caches p)) = fst (exercise_entry w e no_caches)).
  Proof using Hlib Hord Hq.
    intros Hall Ht H w. pose proof (inv_tidy fuel now cs _ _ Hall Ht (inv_new s now) H) as [_ _ _ Hc].
    assert (E : ∀ A (m : prog A) r, right_ w m r → fst (m (p_caches p)) = fst (m no_caches)).
    { intros A m r Hr. destruct (Hr _ Hc) as (c1 & -> & _). destruct (Hr _ (coh_none w)) as (c2 & -> & _). done. }
    split.
    - intros n u Hu. split.
      + destruct n as [|n]; [done|]. eapply E, right_unit; [exact Hord|apply (world_known s Hlib)|done].
      + unfold avg_trials. destruct (get_unit_type (w_graph w) u) as [[| |]|]; [done| | |done].
        * eapply E, right_lesson_trials; [exact Hord|apply (world_known s Hlib)].
        * eapply E, right_course_trials; [exact Hord|apply (world_known s Hlib)|done].
    - intros e He. by eapply E, right_entry.
  Qed.
End history.

(** ** An example *)
Lemma tidy_app s fuel : ∀ cs ds p, Forall (λ x, keeps_caches x.2) cs →
  (∀ p', calls s fuel p cs = Some p' → tidy_calls s fuel p' ds) → tidy_calls s fuel p (cs ++ ds).
Proof.
  induction cs as [|[t c] cs IH]; intros ds p Hall H; [by apply H|]. apply Forall_cons in Hall as [Hc Hall].
  cbn [app tidy_calls]. split; [by left|]. intros p' E. apply IH; [done|]. intros p'' E'. apply H. cbn [calls]. by rewrite E.
Qed.
Lemma calls_app s fuel : ∀ cs ds p p', calls s fuel p cs = Some p' → calls s fuel p (cs ++ ds) = calls s fuel p' ds.
Proof.
  induction cs as [|[t c] cs IH]; intros ds p p'; [by intros [= ->]|]. cbn [app calls].
  destruct (call_step s fuel t p c) as [p1|]; [|done]. apply IH.
Qed.
Lemma tidy_sample : ∀ powf now, ∃ lib cs ds p p' v,
  opened (g_lib (setting_of powf lib)) ∧ (∀ x, g_ord (setting_of powf lib) x ≡ₚ elements x) ∧
  sorts_newest_first (g_reward_order (setting_of powf lib)) ∧ Forall (λ x, x.1 = now) (cs ++ ds) ∧
  ds = [(now, CBan false "other"); (now, CUnbanPrefix "")] ∧
  calls (setting_of powf lib) 1 new_practice cs = Some p ∧ c_lesson (p_caches p) !! "better"%string = Some (Some v) ∧
  tidy_calls (setting_of powf lib) 1 new_practice (cs ++ ds) ∧ calls (setting_of powf lib) 1 new_practice (cs ++ ds) = Some p'.
Proof.
  intros powf now. destruct (history_sample powf now) as (lib & cs & p & v & H1 & H2 & H3 & H4 & H5 & _ & _ & H6).
  exists lib, cs, [(now, CBan false "other"); (now, CUnbanPrefix "")], p. eexists _, v.
  split; [exact H1|]. split; [exact H2|]. split; [exact H3|]. split.
  { apply Forall_app. split; [eapply Forall_impl; [exact H4|]; intros x [? _]; done|]. repeat constructor. }
  split; [reflexivity|]. split; [exact H5|]. split; [exact H6|]. split.
  - apply tidy_app; [eapply Forall_impl; [exact H4|]; intros x [_ ?]; done|]. intros p' _. cbn [tidy_calls]. split; [left; exact I|].
    intros p2 _. split; [|done]. right. exists "". split; [done|]. intros u x _ _ _. by destruct x.
  - rewrite (calls_app _ _ _ _ _ _ H5). reflexivity.
Qed.
