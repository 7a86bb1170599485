(** Examples of pictures. *)
From Coq Require Import Ascii.
From stdpp Require Import gmap strings list.
From Verif Require Import F32 Graph GraphSpec GraphProofs CycleProofs GraphMore Library Dot DotSpec DotProofs Compute.
Local Open Scope string_scope.
Local Open Scope list_scope.

(** ** Identifiers without quotes *)
Fixpoint plain (u : string) : bool :=
  match u with "" => true | String a u => negb (bool_decide (a = quote)) && plain u end.
Lemma plain_ok u : plain u = true → quote_free u.
Proof.
  induction u as [|a u IH]; intros H p s E.
  - by destruct p.
  - cbn in H. apply andb_true_iff in H as [H1 H2]. apply negb_true_iff, bool_decide_eq_false in H1.
    destruct p as [|b p]; injection E; intros; subst; [done|]. by apply (IH H2 p s).
Qed.
Definition plain_map (m : gmap uid (gset uid)) : bool := forallb (λ x, plain x.1 && forallb plain (elements x.2)) (map_to_list m).
Lemma plain_map_ok m : plain_map m = true → ∀ k s, m !! k = Some s → quote_free k ∧ ∀ u, u ∈ s → quote_free u.
Proof.
  intros H k s E. unfold plain_map in H. rewrite forallb_forall in H. specialize (H (k, s)).
  rewrite <-elem_of_list_In, elem_of_map_to_list in H. specialize (H E). apply andb_true_iff in H as [H1 H2]. cbn in *.
  split; [by apply plain_ok|]. intros u Hu. apply plain_ok. rewrite forallb_forall in H2. apply H2, elem_of_list_In. by apply elem_of_elements.
Qed.
Lemma plain_graph g : plain_map (course_lesson_map g) && plain_map (starting_lessons_map g) && plain_map (dependency_graph g) = true →
  ∀ u, mentioned g u → quote_free u.
Proof.
  rewrite !andb_true_iff. intros [[H1 H2] H3] u H.
  assert (∀ m k x, plain_map m = true → answers (m !! k) x → quote_free k ∧ quote_free x) as K.
  { intros m k x Hm Hx. destruct (m !! k) as [s|] eqn:E; [|done]. destruct (plain_map_ok m Hm k s E) as [? HH]. auto. }
  destruct H as [[l H]|[[c H]|[[c H]|[a H]]]].
  - apply (K _ _ _ H1 H).
  - apply (K _ _ _ H1 H).
  - apply (K _ _ _ H2 H).
  - apply (K _ _ _ H3 H).
Qed.

(** ** A picture *)
Lemma sample_plain : ∀ u, mentioned (grun (sample_ops ++ [UpdateStartingLessons])) u → quote_free u.
Proof. apply plain_graph. by_compute. Qed.
Lemma sample_picture : dot_lines elements (grun (sample_ops ++ [UpdateStartingLessons])) false =
  [CourseNode "A"; Arrow "A" "A::1"; Arrow "A" "B"; LessonNode "A::1"; Arrow "A::1" "A::2"; LessonNode "A::2";
   Arrow "A::2" "B::1"; CourseNode "B"; Arrow "B" "B::1"; LessonNode "B::1"] ∧
  dot_lines elements (grun (sample_ops ++ [UpdateStartingLessons])) true = [CourseNode "A"; Arrow "A" "B"; CourseNode "B"].
Proof. split; vm_compute; reflexivity. Qed.
Definition starts_check (g : graph) : bool :=
  forallb (λ x, forallb (λ l, negb (bool_decide (x.1 ∈ default ∅ (get_dependencies g l)))) (elements x.2)) (map_to_list (starting_lessons_map g)).
Lemma starts_checked g : starts_check g = true → ∀ c l, starts g c l → ¬ depends_on g l c.
Proof.
  intros H c l Hs Hd. unfold starts_check in H.
  unfold starts, get_starting_lessons in Hs. destruct (starting_lessons_map g !! c) as [s|] eqn:E; [|exact Hs].
  rewrite forallb_forall in H. specialize (H (c, s)). rewrite <-elem_of_list_In, elem_of_map_to_list in H. specialize (H E).
  cbn [fst snd] in H. rewrite forallb_forall in H. specialize (H l). rewrite <-elem_of_list_In, elem_of_elements in H. specialize (H Hs).
  apply negb_true_iff, bool_decide_eq_false in H. apply H, answers_default, Hd.
Qed.
Lemma sample_starts : let g := grun (sample_ops ++ [UpdateStartingLessons]) in ∀ c l, starts g c l → ¬ depends_on g l c.
Proof. apply starts_checked. vm_compute. reflexivity. Qed.

(** ** A course without lessons *)
Definition bare_ops : list gop :=
  [AddCourse "A"; AddCourse "B"; AddLesson "B::1" "B"; AddDependencies "B" Course ["A"]; UpdateStartingLessons].
Lemma depends_checked g u c : bool_decide (c ∈ default ∅ (get_dependencies g u)) = true → depends_on g u c.
Proof. intros H%bool_decide_eq_true. apply answers_default, H. Qed.
Lemma bare_missing : ∃ ops c u, get_unit_type (grun ops) c = Some Course ∧ get_unit_type (grun ops) u = Some Course ∧ depends_on (grun ops) u c ∧
  ∀ ls, (∀ s, ls s ≡ₚ elements s) → ∀ only, CourseNode c ∉ dot_lines ls (grun ops) only ∧ Arrow c u ∉ dot_lines ls (grun ops) only.
Proof.
  exists bare_ops, "A", "B". split; [by_compute|]. split; [by_compute|].
  split; [apply depends_checked; vm_compute; reflexivity|].
  intros ls Hls only. assert (get_course_lessons (grun bare_ops) "A" = None) as E by by_compute.
  assert (¬ has_lessons (grun bare_ops) "A") as N.
  { intros [l Hl]. unfold lesson_in in Hl. rewrite E in Hl. exact Hl. }
  rewrite (course_nodes ls Hls bare_ops only "A"), (arrows ls Hls bare_ops only "A" "B"). split; [exact N|].
  unfold meant. destruct only; [intros [H _]; exact (N H)|]. intros [[H _]|[[c H] _]]; [exact (N H)|].
  pose proof (proj1 (lesson_of bare_ops "A" c) H) as K. assert (lesson_course_map (grun bare_ops) !! "A" = None) as F by by_compute. rewrite F in K. discriminate K.
Qed.
(** ** A starting lesson that depends on its own course *)
Definition own_ops : list gop :=
  [AddCourse "A"; AddLesson "A::1" "A"; AddDependencies "A::1" Lesson ["A"]; UpdateStartingLessons].
Lemma own_twice : ∃ ops, ∀ ls, (∀ s, ls s ≡ₚ elements s) → ¬ NoDup (arrows_of (dot_lines ls (grun ops) false)).
Proof.
  exists own_ops. intros ls Hls. rewrite (dot_order ls elements Hls (λ s, reflexivity _)).
  assert (arrows_of (dot_lines elements (grun own_ops) false) = [("A", "A::1"); ("A", "A::1")]) as -> by (vm_compute; reflexivity).
  intros H. apply NoDup_cons in H as [H _]. apply H. left.
Qed.
(** ** An identifier with quotes *)
Definition odd_id : uid := "a" +:+ String quote (" [color=red, style=filled]" +:+ eol +:+ "    " +:+ String quote "b").
Definition odd_ops : list gop := [AddCourse odd_id; AddLesson "l" odd_id].
Definition even_ops : list gop := [AddCourse "a"; AddCourse "b"; AddLesson "l" "a"; AddLesson "m" "b"].
Lemma odd_same : ∃ ops ops' c, ∀ ls, (∀ s, ls s ≡ₚ elements s) →
  generate_dot_graph ls (grun ops) true = generate_dot_graph ls (grun ops') true ∧ has_lessons (grun ops) c ∧ ¬ has_lessons (grun ops') c.
Proof.
  exists odd_ops, even_ops, odd_id. intros ls Hls. split; [|split].
  - unfold generate_dot_graph. rewrite !(dot_order ls elements Hls (λ s, reflexivity _)). vm_compute. reflexivity.
  - exists "l". apply lesson_of. by_compute.
  - intros H%has_lessons_key. assert (get_course_lessons (grun even_ops) odd_id = None) as E by by_compute. rewrite E in H. destruct H as [s Hs]. discriminate Hs.
Qed.
