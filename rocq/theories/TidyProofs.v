(** Tidy libraries are well ordered. *)
From stdpp Require Import gmap strings list relations.
From Verif Require Import F32 Graph GraphSpec Library LibraryQueries Filters Options Batch BatchSpec Search SearchSpec ProgressSpec LibFacts CandidateProofs.
Local Open Scope list_scope.

Section tidy.
  Context (env : senv) (K : LibOK (s_lib env)) (T : tidy env).

  Lemma missing_waits u v : waits env u v → ¬ missing env u.
  Proof using K.
    intros H Hm. unfold missing, s_graph in Hm. inversion H as [x d Hd|x c l Hd Hl|l c Hl]; subst.
    - destruct (k_dep_type _ K _ _ Hd) as [Ht|Ht]; unfold s_graph in *; congruence.
    - destruct (k_dep_type _ K _ _ Hd) as [Ht|Ht]; unfold s_graph in *; congruence.
    - apply (lesson_of_types env K) in Hl as [Hl _]. unfold is_lesson, s_graph in Hl. congruence.
  Qed.
  Lemma course_no_lesson u c : is_course env u → ¬ lesson_of env u c.
  Proof using K. intros Hu Hc. apply (lesson_of_types env K) in Hc as [Hc _]. unfold is_course, is_lesson in *. congruence. Qed.
  Lemma tidy_wait u v : waits env u v →
    (∃ c, lesson_of env u c ∧ (v = c ∨ lesson_of env v c ∧ depends_on (s_graph env) u v)) ∨
    (∃ d, is_course env u ∧ depends_on (s_graph env) u d ∧ is_course env d ∧ (v = d ∨ lesson_of env v d)) ∨ missing env v.
  Proof using K T.
    destruct T as [T1 T2]. intros H. inversion H as [u' d Hd|u' c l Hd Hl|l c Hl]; subst.
    - destruct (k_dep_type _ K _ _ Hd) as [Hu|Hu].
      + destruct (T2 u v Hu Hd) as [Hv|Hv]; [|by right; right]. right. left. exists v. auto.
      + pose proof (lesson_has_course env K u Hu) as Hc. destruct (T1 u _ v Hc Hd) as [Hv|Hv]; [|by right; right]. left. eauto.
    - destruct (lesson_of_types env K _ _ Hl) as [_ Hcc]. destruct (k_dep_type _ K _ _ Hd) as [Hu|Hu].
      + right. left. exists c. auto.
      + pose proof (lesson_has_course env K u Hu) as Hc. destruct (T1 u _ c Hc Hd) as [Hv|Hv].
        * by destruct (course_no_lesson c (lesson_course env u)).
        * unfold is_course, missing in *. congruence.
    - left. exists v. auto.
  Qed.
  (** Waiting inside a course, or for another course or its lessons. *)
  Lemma tidy_waits x y : tc (waits env) x y →
    (∃ c, lesson_of env x c ∧ (y = c ∨ lesson_of env y c ∧ tc (depends_on (s_graph env)) x y)) ∨
    (∃ c d, (x = c ∧ is_course env c ∨ lesson_of env x c) ∧ is_course env d ∧ (y = d ∨ lesson_of env y d) ∧ tc (depends_on (s_graph env)) c d) ∨
    missing env y.
  Proof using K T.
    assert (Hsame : ∀ u c d, lesson_of env u c → lesson_of env u d → c = d).
    { intros u c d H1 H2. unfold lesson_of in *. congruence. }
    induction 1 as [x y H|x y z Hxy Hyz IH].
    - destruct (tidy_wait x y H) as [(c & Hc & [->|[Hy Hd]])|[(d & Hx & Hd & Hdc & Hy)|Hy]]; [left; eauto|left; exists c; split; [done|]; right; split; [done|by constructor]| |by right; right].
      right. left. exists x, d. split; [by left|]. split; [done|]. split; [done|]. by constructor.
    - destruct (tidy_wait x y Hxy) as [(c & Hc & [->|[Hy Hd]])|[(d & Hx & Hd & Hdc & Hy)|Hy]].
      + destruct (lesson_of_types env K _ _ Hc) as [_ Hcc].
        destruct IH as [(c' & Hc' & _)|[(c' & d & [[-> _]|Hc'] & Hdd & Hz & Hd)|Hz]].
        * by destruct (course_no_lesson c c').
        * right. left. exists c', d. split; [by right|]. done.
        * by destruct (course_no_lesson c c').
        * by right; right.
      + destruct IH as [(c' & Hc' & Hz)|[(c' & d & [[-> Hcc]|Hc'] & Hdd & Hz & Hd')|Hz]].
        * rewrite (Hsame y c' c) in * by done. left. exists c. split; [done|]. destruct Hz as [->|[Hz Hd']]; [by left|].
          right. split; [done|]. by eapply tc_l.
        * by destruct (course_no_lesson c' c).
        * rewrite (Hsame y c' c) in * by done. right. left. exists c, d. split; [by right|]. done.
        * by right; right.
      + destruct IH as [(c' & Hc' & Hz)|[(c' & d' & Hc' & Hdd & Hz & Hd')|Hz]].
        * destruct Hy as [->|Hy]; [by destruct (course_no_lesson d c')|]. rewrite (Hsame y c' d) in * by done.
          right. left. exists x, d. split; [by left|]. split; [done|]. split; [|by constructor]. destruct Hz as [->|[Hz _]]; [by left|by right].
        * assert (c' = d) as ->.
          { destruct Hy as [->|Hy]; destruct Hc' as [[-> Hcc]|Hc']; [done|by destruct (course_no_lesson d c')|by destruct (course_no_lesson c' d)|by eapply Hsame]. }
          right. left. exists x, d'. split; [by left|]. split; [done|]. split; [done|]. by eapply tc_l.
        * by right; right.
      + exfalso. inversion Hyz; subst; by eapply missing_waits.
  Qed.
  Lemma tidy_ordered : well_ordered env.
  Proof using K T.
    destruct T as [T1 T2]. constructor.
    - intros u Hu. pose proof (tidy_waits u u Hu) as [(c & Hc & [->|[_ Hd]])|[(c & d & Hc & Hdd & Hd & Ht)|Hm]].
      + destruct (lesson_of_types env K c c Hc) as [H1 H2]. by destruct (course_no_lesson c c).
      + by apply (k_acyclic _ K u).
      + assert (c = d) as ->; [|by apply (k_acyclic _ K d)].
        destruct Hc as [[-> Hc]|Hc]; destruct Hd as [Hd|Hd].
        * done.
        * by destruct (course_no_lesson c d).
        * subst u. by destruct (course_no_lesson d c).
        * unfold lesson_of in *. congruence.
      + inversion Hu; subst; by eapply missing_waits.
    - intros c (Hc & Hn & l & [Hl Hf] & [d Hd] & Hall). destruct (T1 l c d Hl Hd) as [H|H]; [by apply (Hf d)|by apply (Hall d)].
    - intros u e Hd He. destruct (k_dep_type _ K _ _ Hd) as [Ht|Ht].
      + destruct (T2 u e Ht Hd) as [H|H]; unfold is_course, missing in H; congruence.
      + destruct (T1 u _ e (lesson_has_course env K u Ht) Hd) as [H|H].
        * apply (lesson_of_types env K) in H as [H _]. unfold is_lesson in H. congruence.
        * unfold missing in H. congruence.
  Qed.
End tidy.
