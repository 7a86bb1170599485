(** Scores whose call fails although something was stored. *)
From stdpp Require Import gmap strings list.
From Coq Require Import ZArith Lia.
From Verif Require Import F32 Graph GraphSpec Library LibrarySample SearchSpec SearchSample Stores StoresSpec StoresProofs StoresSample Options Scorer ScorerSpec PowerSample
  Propagate PropagateSpec UnitScorer UnitSample Practice PracticeProofs PracticeMore PracticeSample RangeSpec CallSpec CallProofs.
Local Open Scope string_scope.
Local Open Scope list_scope.

Section failed.
  Context (s : setting) (now ts : Z) (e : uid) (sc : mastery_score) (p : practice) (x : cached_score) (fuel : nat).
  Context (He : get_unit_type (lib_graph (g_lib s)) e = Some Exercise) (Hc : p_caches p = no_caches)
    (Hx : compute_exercise s now p e = Val x) (Hk : kept p).
  Lemma failed_score : 0 < ca_trials x → ∃ p', score_call s (S fuel) now (Faults false true None) e sc ts p = Some (p', false) ∧
    length (stored (p_deltas p') e) = S (length (stored (p_deltas p) e)).
  Proof using He Hc Hx Hk.
    intros Hn. unfold score_call. unfold run at 1. rewrite Hc. cbn [unit_score]. cbn [world_of w_graph]. rewrite He.
    unfold or_default at 1, then_do at 1. unfold exercise_score, then_do at 1, exercise_entry at 1. cbn [no_caches c_exercise]. rewrite lookup_empty.
    cbn [world_of w_exercise]. rewrite Hx. cbn [done_with]. unfold run at 1. cbn [with_caches p_caches].
    unfold or_default, exercise_num_trials, then_do, exercise_entry. cbn [set_exercise c_exercise]. rewrite lookup_insert. cbn [done_with].
    cbn [with_caches p_trials p_deltas p_rewards p_banned p_caches from_option Datatypes.id f_delta f_score f_rewards].
    apply Nat.ltb_lt in Hn. rewrite Hn. generalize (fsub (float_score sc) (ca_score x)) as d. intros d.
    destruct (one_entry false (p_deltas p) e d ts (proj2 Hk)) as (_ & H2 & H3).
    destruct (record_entries bind_f32 false (p_deltas p) [Entry e d ts]) as [t o]. cbn [fst snd negb] in *. subst o.
    unfold record_entries. eexists. split; [done|]. cbn [p_deltas]. rewrite (H3 e). unfold only. rewrite bool_decide_eq_true_2 by done.
    rewrite app_length. cbn [length]. lia.
  Qed.
  Lemma stored_trial fr r : propagate_rewards (lib_graph (g_lib s)) (g_listed s) (S fuel) e sc ts = Some r → r = ∅ ∨ fr = Some 0 →
    ∃ p', score_call s (S fuel) now (Faults false false fr) e sc ts p = Some (p', bool_decide (fr = None)) ∧
      stored (p_trials p') e = stored (p_trials p) e ++ [(Some (float_score sc), ts)].
  Proof using He Hc Hx Hk.
    intros Hr Hfr.
    assert (E : ∃ p', score_call s (S fuel) now (Faults false false fr) e sc ts p = Some (p', bool_decide (fr = None)) ∧
      p_trials p' = fst (record_entries bind_f32 false (p_trials p) [Entry e (float_score sc) ts])).
    { unfold score_call. unfold run at 1. rewrite Hc. cbn [unit_score]. cbn [world_of w_graph]. rewrite He.
      unfold or_default at 1, then_do at 1. unfold exercise_score, then_do at 1, exercise_entry at 1. cbn [no_caches c_exercise]. rewrite lookup_empty.
      cbn [world_of w_exercise]. rewrite Hx. cbn [done_with]. unfold run at 1. cbn [with_caches p_caches].
      unfold or_default, exercise_num_trials, then_do, exercise_entry. cbn [set_exercise c_exercise]. rewrite lookup_insert. cbn [done_with].
      cbn [with_caches p_trials p_deltas p_rewards p_banned p_caches from_option Datatypes.id f_delta f_score f_rewards].
      generalize (fsub (float_score sc) (ca_score x)) as d. intros d.
      destruct (one_entry false (p_deltas p) e d ts (proj2 Hk)) as (_ & H2 & _).
      destruct (one_entry false (p_trials p) e (float_score sc) ts (proj1 Hk)) as (_ & H4 & _).
      destruct (record_entries bind_f32 false (p_deltas p) [Entry e d ts]) as [t o]. cbn [fst snd negb] in *. subst o.
      assert (E : (if Nat.ltb 0 (ca_trials x) then (t, true) else (p_deltas p, true)) = (if Nat.ltb 0 (ca_trials x) then t else p_deltas p, true)).
      { by destruct (Nat.ltb 0 (ca_trials x)). }
      rewrite E. clear E.
      destruct (record_entries bind_f32 false (p_trials p) [Entry e (float_score sc) ts]) as [t' o]. cbn [fst snd negb] in *. subst o.
      rewrite Hr. unfold record_unit_rewards. destruct Hfr as [-> | ->].
      - rewrite map_to_list_empty. cbn [fmap list_fmap]. destruct fr as [i|]; rewrite ?take_nil; cbn [reward_loop]; eexists; split; reflexivity.
      - cbn [take reward_loop]. eexists. split; reflexivity. }
    destruct E as (p' & E & Et). exists p'. split; [done|]. rewrite Et.
    destruct (one_entry false (p_trials p) e (float_score sc) ts (proj1 Hk)) as (_ & _ & H5). rewrite (H5 e). unfold only.
    rewrite bool_decide_eq_true_2 by done. by destruct sc.
  Qed.
End failed.

Lemma some_failed_delta powf : ∃ lib cs p now e sc ts p', opened lib ∧ calls (setting_of powf lib) 1 new_practice cs = Some p ∧
  score_call (setting_of powf lib) 1 now (Faults false true None) e sc ts p = Some (p', false) ∧
  length (stored (p_deltas p') e) = S (length (stored (p_deltas p) e)) ∧ stored (p_trials p') e = stored (p_trials p) e.
Proof.
  destruct two_lessons_opened as (lib & Ho & Hg). pose proof (Ha lib Hg) as Hal.
  exists lib, [(0%Z, CScore no_faults "exercise" Five 0%Z)]. exists p_1. exists 0%Z, "exercise", Five, 0%Z.
  assert (Hc : calls (setting_of powf lib) 1 new_practice [(0%Z, CScore no_faults "exercise" Five 0%Z)] = Some p_1).
  { cbn [calls]. rewrite (call_1 powf lib "lesson" "course" Hal) by done. done. }
  pose proof (kept_calls _ _ _ _ _ kept_new Hc) as Hk.
  destruct (x_1 powf lib 0) as (x & Hx & Hn).
  destruct (failed_score (setting_of powf lib) 0 0 "exercise" Five p_1 x 0) as (p' & H1 & H2); [apply Hal|done|done|done|rewrite Hn; lia|].
  exists p'. split; [done|]. split; [done|]. split; [done|]. split; [done|].
  destruct (score_at_most _ _ _ _ Hc _ _ _ _ _ _ H1) as (_ & t & d & [Ht _] & _ & _ & _ & Hz). rewrite (Ht "exercise"), (Hz eq_refl), only_nil. apply app_nil_r.
Qed.
Lemma some_failed_rewards powf : ∃ lib e sc ts p', opened lib ∧
  score_call (setting_of powf lib) 1 ts (Faults false false (Some 0)) e sc ts new_practice = Some (p', false) ∧
  stored (p_trials p') e = [(Some (float_score sc), ts)].
Proof.
  destruct two_lessons_opened as (lib & Ho & Hg). pose proof (Ha lib Hg) as Hal.
  destruct (stored_trial (setting_of powf lib) 0 0 "exercise" Five new_practice x_new 0) with (fr := Some 0) (r := (∅ : gmap string (entry reward))) as (p' & H1 & H2).
  - apply Hal.
  - done.
  - apply x_0.
  - apply kept_new.
  - by apply (no_rewards lib "lesson" "course" Hal).
  - by left.
  - exists lib, "exercise", Five, 0%Z, p'. done.
Qed.

(** ** A setting in which scores stay in range *)
Definition small (g : graph) : bool :=
  bool_decide (map_Forall (λ _ s, (Z.of_nat (size s) <= limit)%Z) (lesson_exercise_map g) ∧
    map_Forall (λ _ s, (Z.of_nat (size s) <= limit)%Z) (course_lesson_map g)).
Lemma small_modest g : small g = true → modest g.
Proof. intros H. apply bool_decide_eq_true in H as [H1 H2]. split; intros u s Hu; [by apply (H1 u)|by apply (H2 u)]. Qed.
Lemma two_lessons_small : ∃ lib, opened lib ∧ two_lessons_graph lib ∧ modest (lib_graph lib).
Proof.
  destruct (library_checked (λ lib, bool_decide (two_lessons_graph lib) && small (lib_graph lib))%bool two_lessons two_lessons_consistent) as (lib & Hop & H).
  { vm_compute. reflexivity. }
  exists lib. apply andb_true_iff in H as [H1 H2]. split; [done|]. split; [by apply bool_decide_eq_true in H1|by apply small_modest].
Qed.
Lemma setting_of_ok lib : opened lib → modest (lib_graph lib) → setting_ok (setting_of real_power lib).
Proof.
  intros H1 H2. split; cbn [setting_of g_lib g_powf g_ord g_listed g_order g_reward_order g_num_trials].
  - done.
  - done.
  - apply real_power_ok.
  - by intros s.
  - by intros u l.
  - apply by_time_ok.
  - apply by_time_ok.
  - lia.
Qed.
Lemma some_range : ∃ lib cs p, setting_ok (setting_of real_power lib) ∧ calls (setting_of real_power lib) 1 new_practice cs = Some p ∧
  (∃ x, fst (unit_score (world_of (setting_of real_power lib) 0 p) 1 "exercise" (p_caches p)) = Val (Some x)) ∧
  (∃ y, fst (exercise_entry (world_of (setting_of real_power lib) 0 p) "exercise" (p_caches p)) = Val y ∧ ca_trials y = 1).
Proof.
  destruct two_lessons_small as (lib & Ho & Hg & Hm). pose proof (Ha lib Hg) as Hal.
  exists lib, [(0%Z, CScore no_faults "exercise" Five 0%Z)], p_1. split; [by apply setting_of_ok|]. split.
  { cbn [calls]. rewrite (call_1 real_power lib "lesson" "course" Hal) by done. done. }
  destruct (x_1 real_power lib 0) as (x & Hx & Hn). split.
  - exists (ca_score x). cbn [unit_score]. cbn [world_of w_graph setting_of g_lib]. replace (get_unit_type (lib_graph lib) "exercise") with (Some Exercise) by (symmetry; apply Hal).
    unfold exercise_score, then_do, exercise_entry. cbn [p_1 p_caches no_caches c_exercise]. rewrite lookup_empty. cbn [world_of w_exercise]. by rewrite Hx.
  - exists x. unfold exercise_entry. cbn [p_1 p_caches no_caches c_exercise]. rewrite lookup_empty. cbn [world_of w_exercise]. rewrite Hx. done.
Qed.
Lemma some_recorded : ∃ lib p p', opened lib ∧ calls (setting_of real_power lib) 1 new_practice [] = Some p ∧
  score_call (setting_of real_power lib) 1 0 no_faults "exercise" Five 0 p = Some (p', true).
Proof.
  destruct two_lessons_opened as (lib & Ho & Hg). pose proof (Ha lib Hg) as Hal.
  destruct (stored_trial (setting_of real_power lib) 0 0 "exercise" Five new_practice x_new 0 (proj1 Hal) eq_refl (x_0 _ _ _) kept_new None)
    with (r := (∅ : gmap string (entry reward))) as (p' & H1 & H2).
  - by apply (no_rewards lib "lesson" "course" Hal).
  - by left.
  - exists lib, new_practice, p'. done.
Qed.
