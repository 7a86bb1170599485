(** A library in which one lesson is overtaken by another, for P_UnitAverage.v. *)
From stdpp Require Import gmap strings list relations.
From Coq Require Import ZArith Lia.
From Verif Require Import F32 Graph GraphSpec Library LibrarySample SearchSpec SearchSample Stores Options Scorer ScorerSpec ScoreSample UnitScorer UnitSpec UnitEnds UnitSample Practice
  PracticeSpec PracticeProofs PracticeMore PracticeSample
  UnitProofs UnitAverageSpec UnitAverageProofs StoresSpec.
Local Open Scope string_scope.
Local Open Scope list_scope.

Definition score_of_five (e : uid) : cached_score := Cached f_5 fzero None 2.
Definition five_world (g : graph) (banned : gset uid) : world := World g banned (λ e, Val (score_of_five e)) f_3_75 elements.
(** The answer is the number [v], or there is no score. *)
Definition answer_is (r : outcome (option f32)) (v : option f32) : bool :=
  match r, v with
  | Val (Some x), Some y => feq x y
  | Val None, None => true
  | _, _ => false
  end.
Definition five_answers (lib : library) : bool :=
  let ask b u := fst (unit_score (five_world (lib_graph lib) b) 5 u no_caches) in
  answer_is (ask ∅ "lesson") None && answer_is (ask ∅ "better") (Some f_5) && answer_is (ask ∅ "course") (Some f_5) &&
  answer_is (ask {["other"]} "better") None && answer_is (ask {["course"]} "course") None &&
  answer_is (fst (avg_trials (five_world (lib_graph lib) ∅) 5 "lesson" no_caches)) (Some f_2).
Lemma five_sample : ∃ lib, opened lib ∧ acyclic (below (lib_graph lib)) ∧
  (∀ b, w_graph (five_world (lib_graph lib) b) = lib_graph lib ∧ (∀ s, w_ord (five_world (lib_graph lib) b) s ≡ₚ elements s) ∧
    ∀ e, w_exercise (five_world (lib_graph lib) b) e = Val (score_of_five e)) ∧
  five_answers lib = true.
Proof.
  destruct (library_checked (λ lib, bool_decide (two_lessons_graph lib) && five_answers lib)%bool two_lessons two_lessons_consistent) as (lib & Ho & H).
  { vm_compute. reflexivity. }
  apply andb_true_iff in H as [Hg Hf]. apply bool_decide_eq_true in Hg. exists lib. split; [done|]. split; [|done].
  destruct Hg as (_ & _ & _ & _ & _ & Hs). apply same_kind_acyclic; [done|].
  intros u v Hsu Hu. exfalso. unfold supersedes, answers, get_supersedes in Hsu. destruct (supersedes_graph (lib_graph lib) !! u) as [x|] eqn:E; [|done].
  apply Hs in E. rewrite E in Hu. done.
Qed.

(** The averages in a history. *)
Lemma history_averages s : opened (g_lib s) → acyclic (below (lib_graph (g_lib s))) → (∀ x, g_ord s x ≡ₚ elements x) → sorts_newest_first (g_reward_order s) →
  ∃ n, ∀ fuel now cs p x, Forall (λ y, y.1 = now ∧ keeps_caches y.2) cs → calls s fuel new_practice cs = Some p →
  (∀ e, compute_exercise s now p e = Val (x e)) →
  ∃ score trials, scores_add_up (world_of s now p) score (λ e, ca_score (x e)) ∧
    trials_add_up (world_of s now p) score (λ e, ca_trials (x e)) trials ∧
    ∀ k u, n ≤ k → get_unit_type (lib_graph (g_lib s)) u ≠ None → not_superseded (lib_graph (g_lib s)) u →
      fst (unit_score (world_of s now p) k u (p_caches p)) = Val (score u) ∧
      (get_unit_type (lib_graph (g_lib s)) u ≠ Some Exercise → fst (avg_trials (world_of s now p) k u (p_caches p)) = Val (trials u)).
Proof.
  intros Hl Ha Ho Hq. destruct (averages (g_lib s) Hl Ha) as [n Hn]. exists n. intros fuel now cs p x Hall H Hx.
  destruct (Hn (world_of s now p) x eq_refl Ho Hx) as (score & trials & H1 & H2 & H3). exists score, trials. split; [done|]. split; [done|].
  intros k u Hk Hu Hns. destruct (history_scores s Hl Ho Hq fuel now cs p Hall H) as [Hsc _].
  destruct (Hsc k u Hns) as [E1 E2]. destruct (H3 [] k u ltac:(constructor) Hk Hu) as [E3 E4]. cbn [after_asking fold_left] in E3, E4.
  split; [congruence|]. intros Hne. rewrite E2. by apply E4.
Qed.

(** ** A lesson that gives way to one on the blacklist *)
Lemma forget_nothing : (∀ s, forget_exercises s no_caches = no_caches) ∧ (∀ s, forget_lessons s no_caches = no_caches) ∧ (∀ s, forget_courses s no_caches = no_caches).
Proof.
  unfold forget_exercises, forget_courses, forget_lessons, set_exercise, set_course_trials, set_course, set_lesson_trials, set_lesson, no_caches.
  cbn [c_exercise c_lesson c_course c_lesson_trials c_course_trials]. repeat split; intros s; by rewrite !map_filter_empty.
Qed.
Lemma invalidate_nothing g u : invalidate g u no_caches = no_caches.
Proof.
  destruct forget_nothing as (E1 & E2 & E3). unfold invalidate. rewrite E1, E2, E3. destruct (get_unit_type g u) as [[| |]|].
  - destruct (get_exercise_lesson g u); [by rewrite E2, E3|done].
  - by rewrite E3, E1.
  - by rewrite E2, E1.
  - done.
Qed.
Lemma blacklisted_supersedes powf : power_ok powf → rounded_power powf → ∃ lib cs p now u v, opened lib ∧
  calls (setting_of powf lib) 2 new_practice ((λ c, (now, c)) <$> cs) = Some p ∧
  u ∉ p_banned p ∧ get_unit_type (lib_graph lib) u = Some Lesson ∧
  (∀ y, is_superseded_by (lib_graph lib) u y ↔ y = v) ∧ v ∈ p_banned p ∧
  (∃ e, get_exercise_lesson (lib_graph lib) e = Some u ∧ length (stored (p_trials p) e) = 2) ∧
  (∀ e, get_exercise_lesson (lib_graph lib) e = Some v → stored (p_trials p) e = []) ∧
  fst (unit_score (world_of (setting_of powf lib) now p) 2 u (p_caches p)) = Val None.
Proof.
  intros Hp Hr. destruct two_lessons_opened as (lib & Ho & Hg). pose proof (Ha lib Hg) as Hal.
  destruct (call_2 powf lib _ _ Hal ltac:(done) ltac:(done) day_50 1) as [d Hd]. destruct (day_50_positive powf Hp Hr) as (sc' & E' & Hpos).
  pose proof Hg as ((_ & TL & TB & _) & (SL & _ & SB) & (_ & LE & LB & _) & (CL & CB & L1 & L2) & _).
  set (x := Cached (sc_value sc') (sc_urgency sc') (sc_velocity sc') 2). set (c1 := set_exercise <["exercise" := x]> no_caches).
  set (p4 := ban (setting_of powf lib) false "better" (p_2 d)).
  exists lib, [CScore no_faults "exercise" Five 0; CScore no_faults "exercise" Five 0; CBan false "better"], p4, day_50, "lesson", "better".
  split; [done|]. split; [|split; [|split; [done|split; [|split; [|split; [|split]]]]]].
  - cbn [fmap list_fmap calls]. rewrite (call_1 powf lib _ _ Hal) by done. rewrite Hd. reflexivity.
  - unfold p4, ban. cbn [p_banned p_2]. intros H. apply elem_of_union in H as [H|H]; [by apply elem_of_singleton in H|by apply elem_of_empty in H].
  - intros y. unfold is_superseded_by, answers. rewrite SL. by rewrite elem_of_singleton.
  - unfold p4, ban. cbn [p_banned]. apply elem_of_union_l. by apply elem_of_singleton.
  - exists "exercise". split; [done|]. reflexivity.
  - intros e He. assert (e = "other") as ->; [|reflexivity].
    apply (exercises_of_spec lib Ho) in He as (es & Hes & He). rewrite LB in Hes. injection Hes as <-. by apply elem_of_singleton in He.
  - set (w2 := world_of (setting_of powf lib) day_50 p4).
    assert (Ec : p_caches p4 = no_caches) by apply invalidate_nothing. rewrite Ec.
    assert (A3 : unit_score w2 1 "better" c1 = (Val None, set_lesson <["better" := None]> c1)).
    { apply lesson_out; [done|reflexivity|reflexivity]. }
    assert (Hx2 : w_exercise w2 "exercise" = Val x) by exact (x_2 powf lib _ _ Hal day_50 d sc' p4 eq_refl eq_refl E').
    rewrite (lesson_asked lib Hg w2 0 x None (set_lesson <["better" := None]> c1) eq_refl eq_refl eq_refl eq_refl eq_refl Hx2 Hpos A3); [reflexivity|].
    apply lookup_insert.
Qed.

(** A lesson with exercises and no score, that is not on the blacklist, gave way to others. *)
Lemma only_when_mastered lib : opened lib → acyclic (below (lib_graph lib)) → ∃ n, ∀ w x,
  w_graph w = lib_graph lib → (∀ s, w_ord w s ≡ₚ elements s) → (∀ e, w_exercise w e = Val (x e)) →
  ∃ score, (∀ fuel u, n ≤ fuel → get_unit_type (lib_graph lib) u ≠ None → fst (unit_score w fuel u no_caches) = Val (score u)) ∧
  ∀ l, get_unit_type (lib_graph lib) l = Some Lesson → ¬ banned w l → (∃ e, get_exercise_lesson (lib_graph lib) e = Some l ∧ ¬ banned w e) →
    score l = None → practised w score l ∧ (∃ v, is_superseded_by (lib_graph lib) l v) ∧
      ∀ v, is_superseded_by (lib_graph lib) l v → get_superseded_by (lib_graph lib) v = None → mastered w score v.
Proof.
  intros Hl Ha. destruct (low_library lib Hl Ha) as [n Hn]. exists (S n). intros w x Hg Ho He.
  assert (Hn' : ∀ u, low (w_graph w) n u) by (by rewrite Hg). exists (shown w n). split.
  { intros fuel u Hf Hu. by destruct (answers_shown lib n Hl Hn w x Hg Ho He [] fuel u ltac:(constructor) Hf Hu) as [? _]. }
  intros l Tl Hb Hex Hnone. rewrite <- Hg in Tl, Hex |- *.
  destruct (superseded_val lib Hl w Hg Ho x He n Hn' l) as (b & _ & Hdec).
  assert (Hov : overtaken w (shown w n) l).
  { destruct b; [by apply Hdec|]. exfalso. assert (Hno : ¬ overtaken w (shown w n) l) by (intros H; by apply Hdec in H).
    destruct (s_lesson _ _ _ (shown_add_up lib Hl w Hg Ho x He n Hn') l Tl Hb Hno) as (es & _ & Hin & Emean).
    destruct Hex as (e & H1 & H2). assert (Hne : e ∈ es) by (by apply Hin). rewrite Hnone in Emean.
    assert (Hs : omap (shown w n) es ≠ []).
    { destruct es as [|e' es]; [by apply elem_of_nil in Hne|]. cbn. rewrite (shown_exercise w x He n e'); [done|].
      apply (lesson_known lib Hl w Hg l). apply Hin. left. }
    by destruct (omap (shown w n) es). }
  destruct Hov as ((v & y & Hv & _) & Hpr & Hall). split; [|split].
  - intros e Hce. destruct (Hpr e Hce) as (z & Hz & Hpos). by exists z.
  - by exists v.
  - intros v' Hv' Hno z Hz. apply (Hall v' v' Hv'); [|done]. apply stands_self. by apply gives_way_none.
Qed.
