(** The caches follow the stores and the blacklist. *)
From stdpp Require Import gmap strings list.
From Coq Require Import ZArith Lia.
From Verif Require Import F32 Graph GraphSpec GraphProofs Library LibrarySpec LibFacts SearchSpec Sql Stores StoresSpec StoresProofs StoresMore
  Scorer Propagate UnitScorer UnitSpec UnitProofs UnitCoherent Practice.
Local Open Scope bool_scope.

(** ** What is recorded for one unit does not change what is read for another *)
Section frame.
  Context {A : Type} (bind : A → option A).

  Lemma insert_entry_good t e t' : good t → insert_entry bind t e = Some t' → good t'.
  Proof using. intros Hg H. destruct (insert_entry_spec bind t e Hg) as (t1 & k & E & Hg1 & _). congruence. Qed.
  Lemma insert_entry_other (q : order A) t e t' u n : good t → insert_entry bind t e = Some t' → u ≠ e_unit e →
    get_entries q t' u n = get_entries q t u n.
  Proof using.
    intros (Hn & Hg & Hb) H Hu. unfold insert_entry in H. destruct (uid_of (add_uid (t_uids t) (e_unit e)) (e_unit e)) as [k|] eqn:Hk; [|done].
    injection H as <-. unfold get_entries. cbn [t_uids t_rows]. rewrite add_uid_other by done.
    destruct (uid_of (t_uids t) u) as [k'|] eqn:E; [|done]. do 2 f_equal. unfold newest_rows. f_equal.
    rewrite filter_app. rewrite filter_cons_False; [by rewrite filter_nil, app_nil_r|]. cbn. intros ->.
    apply uid_of_Some in Hk. apply uid_of_Some in E. apply (add_uid_prefix _ (e_unit e)) in E. congruence.
  Qed.
  Lemma record_one_other (q : order A) fault t e u n : good t → u ≠ e_unit e →
    get_entries q (fst (record_entries bind fault t [e])) u n = get_entries q t u n.
  Proof using.
    intros Hg Hu. unfold record_entries. destruct fault; [done|]. cbn [insert_entries].
    destruct (insert_entry bind t e) as [t'|] eqn:E; [|done]. by eapply insert_entry_other.
  Qed.
End frame.

Lemma reward_body_other q st r st' : sorts_newest_first q → good st.1.1 → reward_body q st r = Some st' →
  good st'.1.1 ∧ (∀ u, u ∈ st.2 → u ∈ st'.2) ∧
  ∀ q' u n, u ∉ st'.2 → get_entries q' st'.1.1 u n = get_entries q' st.1.1 u n.
Proof.
  destruct st as [[t c] upd]. intros Hq Hg. cbn [fst snd] in *. unfold reward_body. destruct (has_similar_reward c r); [by intros [= <-]|].
  destruct (insert_entry bind_reward t r) as [t1|] eqn:E1; [|done].
  destruct (uid_of (t_uids t1) (e_unit r)) as [k|] eqn:Ek; [|done]. intros [= <-]. cbn [fst snd].
  pose proof (insert_entry_good _ _ _ _ Hg E1) as Hg1. destruct (evict_spec q k t1 Hq Hg1) as [Hg2 _]. split; [done|].
  split; [intros u Hu; apply elem_of_app; by left|]. intros q' u n Hu.
  assert (Hne : u ≠ e_unit r). { intros ->. apply Hu, elem_of_app. right. left. }
  rewrite <- (insert_entry_other bind_reward q' t r t1 u n Hg E1 Hne). unfold get_entries. cbn [t_uids t_rows].
  destruct (uid_of (t_uids t1) u) as [k'|] eqn:E; [|done]. do 2 f_equal. unfold newest_rows. f_equal.
  apply trim_unit_by_id_other; [done|apply Hg1|]. intros ->. apply uid_of_Some in Ek. apply uid_of_Some in E. congruence.
Qed.
Lemma reward_loop_other q rs : sorts_newest_first q → ∀ st st', good st.1.1 → reward_loop q st rs = Some st' →
  good st'.1.1 ∧ (∀ u, u ∈ st.2 → u ∈ st'.2) ∧
  ∀ q' u n, u ∉ st'.2 → get_entries q' st'.1.1 u n = get_entries q' st.1.1 u n.
Proof.
  intros Hq. induction rs as [|r rs IH]; intros st st' Hg H; [by injection H as <-|]. cbn [reward_loop] in H.
  destruct (reward_body q st r) as [st1|] eqn:E; [|done]. destruct (reward_body_other _ _ _ _ Hq Hg E) as (Hg1 & Hs1 & He1).
  destruct (IH st1 st' Hg1 H) as (Hg2 & Hs2 & He2). split; [done|]. split; [by auto|]. intros q' u n Hu.
  rewrite He2 by done. apply He1. auto.
Qed.
Lemma record_rewards_other q fault s rs s' us : sorts_newest_first q → good (rs_table s) →
  record_unit_rewards q fault s rs = (s', us) → good (rs_table s') ∧
  ∀ q' u n, match us with Some us => u ∉ us | None => True end → get_entries q' (rs_table s') u n = get_entries q' (rs_table s) u n.
Proof.
  intros Hq Hg. unfold record_unit_rewards. destruct fault as [i|].
  - destruct (reward_loop q _ (take i rs)) as [[[t c] upd]|]; intros [= <- <-]; done.
  - destruct (reward_loop q _ rs) as [[[t c] upd]|] eqn:E; [|by intros [= <- <-]]. intros [= <- <-]. cbn [rs_table].
    destruct (reward_loop_other q rs Hq (rs_table s, rs_cache s, []) _ Hg E) as (H1 & _ & H2). split; [done|]. intros q' u n Hu. by apply H2.
Qed.

(** ** What invalidation removes *)
Section invalidate.
  Context (lib : library) (Hlib : opened lib).
  Let g := lib_graph lib.

  Lemma exercises_of_spec l e : (∃ es, get_lesson_exercises g l = Some es ∧ e ∈ es) ↔ get_exercise_lesson g e = Some l.
  Proof using Hlib.
    pose proof (k_inv _ (opened_ok _ Hlib)) as I. pose proof (i_el _ I e l) as E. unfold get_exercise_lesson. change (lib_graph lib) with g in E.
    rewrite E. unfold mget, get_lesson_exercises. destruct (lesson_exercise_map g !! l); cbn; [naive_solver|]. split; [naive_solver|set_solver].
  Qed.
  Lemma lessons_of_spec u l : (∃ ls, get_course_lessons g u = Some ls ∧ l ∈ ls) ↔ get_lesson_course g l = Some u.
  Proof using Hlib.
    pose proof (k_inv _ (opened_ok _ Hlib)) as I. pose proof (i_lc _ I l u) as E. unfold get_lesson_course. change (lib_graph lib) with g in E.
    rewrite E. unfold mget, get_course_lessons. destruct (course_lesson_map g !! u); cbn; [naive_solver|]. split; [naive_solver|set_solver].
  Qed.
  Lemma exercise_lesson_types e l : get_exercise_lesson g e = Some l → get_unit_type g e = Some Exercise ∧ get_unit_type g l = Some Lesson.
  Proof using Hlib. intros H. pose proof (k_inv _ (opened_ok _ Hlib)) as I. apply (i_el_t _ I) in H. tauto. Qed.
  Lemma lesson_course_types l u : get_lesson_course g l = Some u → get_unit_type g l = Some Lesson ∧ get_unit_type g u = Some Course.
  Proof using Hlib. intros H. pose proof (k_inv _ (opened_ok _ Hlib)) as I. apply (i_lc_t _ I) in H. tauto. Qed.

  (** [hits u v]: [v] is [u], or part of it, or it is part of [v]. *)
  Definition part (v u : uid) : Prop :=
    get_exercise_lesson g v = Some u ∨ get_lesson_course g v = Some u ∨ ∃ l, get_exercise_lesson g v = Some l ∧ get_lesson_course g l = Some u.
  Definition hits (u v : uid) : Prop := v = u ∨ part u v ∨ part v u.

  Lemma filter_some {A} (es : gset uid) (m : gmap uid A) k x : filter (λ p, p.1 ∉ es) m !! k = Some x → m !! k = Some x ∧ k ∉ es.
  Proof using. intros H1. apply map_filter_lookup_Some in H1. done. Qed.

  Lemma in_exercises l e : e ∈ default ∅ (get_lesson_exercises g l) ↔ get_exercise_lesson g e = Some l.
  Proof using Hlib.
    rewrite <- exercises_of_spec. destruct (get_lesson_exercises g l); cbn; [naive_solver|]. split; [intros []%not_elem_of_empty|naive_solver].
  Qed.
  Lemma in_lessons u l : l ∈ default ∅ (get_course_lessons g u) ↔ get_lesson_course g l = Some u.
  Proof using Hlib.
    rewrite <- lessons_of_spec. destruct (get_course_lessons g u); cbn; [naive_solver|]. split; [intros []%not_elem_of_empty|naive_solver].
  Qed.

  Lemma invalidate_exercise u c e x : c_exercise (invalidate g u c) !! e = Some x → get_unit_type g e = Some Exercise →
    c_exercise c !! e = Some x ∧ ¬ hits u e.
  Proof using Hlib.
    intros H Ht. assert (Hn : ∀ v, ¬ part v e).
    { intros v [Hv|[Hv|(l & _ & Hv)]]; [apply exercise_lesson_types in Hv as [_ Hv]|apply lesson_course_types in Hv as [_ Hv]..]; congruence. }
    assert (Hl : ∀ v, ¬ get_lesson_course g e = Some v). { intros v Hv. apply lesson_course_types in Hv as [Hv _]. congruence. }
    unfold invalidate in H. destruct (get_unit_type g u) as [[| |]|] eqn:Eu.
    - assert (H' : c_exercise (forget_exercises {[u]} c) !! e = Some x).
      { destruct (get_exercise_lesson g u); exact H. }
      cbn in H'. apply filter_some in H' as [H' Hne]. split; [done|]. intros [-> | [Hp|[Hp|[Hp|(l & _ & Hp)]]]]; [set_solver|by apply Hn in Hp|..].
      + apply exercise_lesson_types in Hp as [_ Hp]. congruence.
      + by apply Hl in Hp.
      + apply lesson_course_types in Hp as [_ Hp]. congruence.
    - cbn in H. apply filter_some in H as [H Hne]. apply filter_some in H as [H Hne']. split; [done|].
      intros [-> | [Hp|[Hp|[Hp|(l & _ & Hp)]]]]; [set_solver|by apply Hn in Hp|..].
      + by apply Hne, in_exercises.
      + by apply Hl in Hp.
      + apply lesson_course_types in Hp as [_ Hp]. congruence.
    - cbn in H. apply filter_some in H as [H Hne]. apply filter_some in H as [H Hne']. split; [done|].
      intros [-> | [Hp|[Hp|[Hp|(l & Hp & Hp')]]]]; [set_solver|by apply Hn in Hp|..].
      + apply exercise_lesson_types in Hp as [_ Hp]. congruence.
      + by apply Hl in Hp.
      + apply Hne. apply elem_of_union_list. exists (default ∅ (get_lesson_exercises g l)). split; [|by apply in_exercises].
        apply elem_of_list_fmap. exists l. split; [done|]. apply elem_of_elements. by apply in_lessons.
    - cbn in H. apply filter_some in H as [H Hne]. split; [done|]. intros [-> | [Hp|[Hp|[Hp|(l & Hp & Hp')]]]]; [set_solver|by apply Hn in Hp|..].
      + apply exercise_lesson_types in Hp as [_ Hp]. congruence.
      + by apply Hl in Hp.
      + apply lesson_course_types in Hp' as [_ Hp']. congruence.
  Qed.

  (** The two caches of lessons, and those of courses, are treated alike. *)
  Definition of_lessons (f : caches → gmap uid (option f32)) : Prop := f = c_lesson ∨ f = c_lesson_trials.
  Definition of_courses (f : caches → gmap uid (option f32)) : Prop := f = c_course ∨ f = c_course_trials.
  Lemma invalidate_lesson f u c l v : of_lessons f → f (invalidate g u c) !! l = Some v → f c !! l = Some v ∧
    l ≠ u ∧ get_exercise_lesson g u ≠ Some l ∧ get_lesson_course g l ≠ Some u.
  Proof using Hlib.
    intros Hf. assert (Hu : ∀ c, f (forget_courses {[u]} (forget_lessons {[u]} (forget_exercises {[u]} c))) = filter (λ p, p.1 ∉ ({[u]} : gset uid)) (f c)).
    { intros c'. by destruct Hf as [-> | ->]. }
    intros H. unfold invalidate in H. destruct (get_unit_type g u) as [[| |]|] eqn:Eu.
    - destruct (get_exercise_lesson g u) as [l'|] eqn:El.
      + assert (H' : filter (λ p, p.1 ∉ ({[l']} : gset uid)) (f (forget_courses {[u]} (forget_lessons {[u]} (forget_exercises {[u]} c)))) !! l = Some v).
        { by destruct Hf as [-> | ->]. }
        rewrite Hu in H'. apply filter_some in H' as [H' H1]. apply filter_some in H' as [H' H2]. split_and!; [done|set_solver|..].
        * intros [= ->]. set_solver.
        * intros Hc. apply lesson_course_types in Hc as [_ Hc]. congruence.
      + rewrite Hu in H. apply filter_some in H as [H' H2]. split_and!; [done|set_solver|done|].
        intros Hc. apply lesson_course_types in Hc as [_ Hc]. congruence.
    - assert (H' : f (forget_courses {[u]} (forget_lessons {[u]} (forget_exercises {[u]} c))) !! l = Some v).
      { by destruct Hf as [-> | ->]. }
      rewrite Hu in H'. apply filter_some in H' as [H' H2]. split_and!; [done|set_solver|..].
      + intros Hc. apply exercise_lesson_types in Hc as [Hc _]. congruence.
      + intros Hc. apply lesson_course_types in Hc as [_ Hc]. congruence.
    - assert (H' : filter (λ p, p.1 ∉ default ∅ (get_course_lessons g u)) (f (forget_courses {[u]} (forget_lessons {[u]} (forget_exercises {[u]} c)))) !! l = Some v).
      { by destruct Hf as [-> | ->]. }
      rewrite Hu in H'. apply filter_some in H' as [H' H1]. apply filter_some in H' as [H' H2]. split_and!; [done|set_solver|..].
      + intros Hc. apply exercise_lesson_types in Hc as [Hc _]. congruence.
      + intros Hc. by apply H1, in_lessons.
    - rewrite Hu in H. apply filter_some in H as [H' H2]. split_and!; [done|set_solver|..].
      + intros Hc. apply exercise_lesson_types in Hc as [Hc _]. congruence.
      + intros Hc. apply lesson_course_types in Hc as [_ Hc]. congruence.
  Qed.
  Lemma invalidate_course f u c d v : of_courses f → f (invalidate g u c) !! d = Some v → f c !! d = Some v ∧
    d ≠ u ∧ get_lesson_course g u ≠ Some d ∧ (∀ l, get_exercise_lesson g u = Some l → get_lesson_course g l ≠ Some d).
  Proof using Hlib.
    intros Hf. assert (Hu : ∀ c, f (forget_courses {[u]} (forget_lessons {[u]} (forget_exercises {[u]} c))) = filter (λ p, p.1 ∉ ({[u]} : gset uid)) (f c)).
    { intros c'. by destruct Hf as [-> | ->]. }
    intros H. unfold invalidate in H. destruct (get_unit_type g u) as [[| |]|] eqn:Eu.
    - destruct (get_exercise_lesson g u) as [l'|] eqn:El.
      + assert (H' : filter (λ p, p.1 ∉ one (get_lesson_course g l')) (f (forget_courses {[u]} (forget_lessons {[u]} (forget_exercises {[u]} c)))) !! d = Some v).
        { by destruct Hf as [-> | ->]. }
        rewrite Hu in H'. apply filter_some in H' as [H' H1]. apply filter_some in H' as [H' H2]. split_and!; [done|set_solver|..].
        * intros Hc. apply lesson_course_types in Hc as [Hc _]. congruence.
        * intros l [= ->] Hc. rewrite Hc in H1. cbn in H1. set_solver.
      + rewrite Hu in H. apply filter_some in H as [H' H2]. split_and!; [done|set_solver| |done].
        intros Hc. apply lesson_course_types in Hc as [Hc _]. congruence.
    - assert (H' : filter (λ p, p.1 ∉ one (get_lesson_course g u)) (f (forget_courses {[u]} (forget_lessons {[u]} (forget_exercises {[u]} c)))) !! d = Some v).
      { by destruct Hf as [-> | ->]. }
      rewrite Hu in H'. apply filter_some in H' as [H' H1]. apply filter_some in H' as [H' H2]. split_and!; [done|set_solver|..].
      + intros Hc. rewrite Hc in H1. cbn in H1. set_solver.
      + intros l Hc. apply exercise_lesson_types in Hc as [Hc _]. congruence.
    - assert (H' : f (forget_courses {[u]} (forget_lessons {[u]} (forget_exercises {[u]} c))) !! d = Some v).
      { by destruct Hf as [-> | ->]. }
      rewrite Hu in H'. apply filter_some in H' as [H' H2]. split_and!; [done|set_solver|..].
      + intros Hc. apply lesson_course_types in Hc as [Hc _]. congruence.
      + intros l Hc. apply exercise_lesson_types in Hc as [Hc _]. congruence.
    - rewrite Hu in H. apply filter_some in H as [H' H2]. split_and!; [done|set_solver|..].
      + intros Hc. apply lesson_course_types in Hc as [Hc _]. congruence.
      + intros l Hc. apply exercise_lesson_types in Hc as [Hc _]. congruence.
  Qed.

  (** Invalidating several units. *)
  Lemma fold_exercise us : ∀ c e x, c_exercise (fold_left (λ c u, invalidate g u c) us c) !! e = Some x → get_unit_type g e = Some Exercise →
    c_exercise c !! e = Some x ∧ ∀ u, u ∈ us → ¬ hits u e.
  Proof using Hlib.
    induction us as [|u us IH]; intros c e x H Ht; [split; [done|]; by intros u ?%elem_of_nil|]. cbn [fold_left] in H.
    destruct (IH _ _ _ H Ht) as [H1 H2]. destruct (invalidate_exercise _ _ _ _ H1 Ht) as [H3 H4]. split; [done|].
    intros v [-> | Hv]%elem_of_cons; [done|]. by apply H2.
  Qed.
  Lemma fold_lesson f us : of_lessons f → ∀ c l v, f (fold_left (λ c u, invalidate g u c) us c) !! l = Some v →
    f c !! l = Some v ∧ ∀ u, u ∈ us → l ≠ u ∧ get_lesson_course g l ≠ Some u.
  Proof using Hlib.
    intros Hf. induction us as [|u us IH]; intros c e x H; [split; [done|]; by intros u ?%elem_of_nil|]. cbn [fold_left] in H.
    destruct (IH _ _ _ H) as [H1 H2]. destruct (invalidate_lesson _ _ _ _ _ Hf H1) as (H3 & H4 & _ & H5). split; [done|].
    intros v [-> | Hv]%elem_of_cons; [done|]. by apply H2.
  Qed.
  Lemma fold_course f us : of_courses f → ∀ c l v, f (fold_left (λ c u, invalidate g u c) us c) !! l = Some v →
    f c !! l = Some v ∧ ∀ u, u ∈ us → l ≠ u ∧ get_lesson_course g u ≠ Some l.
  Proof using Hlib.
    intros Hf. induction us as [|u us IH]; intros c e x H; [split; [done|]; by intros u ?%elem_of_nil|]. cbn [fold_left] in H.
    destruct (IH _ _ _ H) as [H1 H2]. destruct (invalidate_course _ _ _ _ _ Hf H1) as (H3 & H4 & H5 & _). split; [done|].
    intros v [-> | Hv]%elem_of_cons; [done|]. by apply H2.
  Qed.
End invalidate.
