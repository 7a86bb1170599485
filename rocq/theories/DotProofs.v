(** Proofs about the picture of the graph. *)
From Coq Require Import Ascii.
From stdpp Require Import gmap strings list sorting.
From Verif Require Import F32 Graph GraphSpec GraphProofs Library LibraryQueries Generators GenSpec GenBase StrFacts Dot DotSpec Compute.
Local Open Scope string_scope.
Local Open Scope list_scope.

(** * The lines *)
Lemma sort_same l l' : l ≡ₚ l' → sort_ids l = sort_ids l'.
Proof.
  intros H. apply (StronglySorted_unique uid_le); [apply Sorted_StronglySorted; [apply _|apply sort_ids_sorted]..|].
  by rewrite !sort_ids_perm.
Qed.

Lemma filter_same {A : Type} (P : A → bool) l l' : l ≡ₚ l' → List.filter P l ≡ₚ List.filter P l'.
Proof.
  induction 1 as [|x l l' H IH|x y l|l l1 l2 H1 IH1 H2 IH2]; cbn; [done| | |by etrans].
  - destruct (P x); by rewrite IH.
  - destruct (P x), (P y); try done. apply Permutation_swap.
Qed.

Lemma dot_order ls ls' : (∀ s, ls s ≡ₚ elements s) → (∀ s, ls' s ≡ₚ elements s) → ∀ g only, dot_lines ls g only = dot_lines ls' g only.
Proof.
  intros H H' g only.
  assert (∀ s, ls s ≡ₚ ls' s) as E by (intros s; by rewrite H, H').
  unfold dot_lines. rewrite (sort_same _ _ (E (dom (course_lesson_map g)))). apply list_bind_ext; [|done].
  intros c. unfold course_block. f_equal. f_equal.
  - f_equal. unfold course_dependents. apply sort_same. destruct only; [by apply filter_same|].
    apply Permutation_app; [by apply filter_same|done].
  - destruct only; [done|]. rewrite (sort_same _ _ (E _)). apply list_bind_ext; [|done].
    intros l. unfold lesson_block. by rewrite (sort_same _ _ (E _)).
Qed.

Lemma answers_default (o : option (gset uid)) u : u ∈ default ∅ o ↔ answers o u.
Proof. destruct o; cbn; set_solver. Qed.

Section Lines.
  Variable ls : gset uid → list uid.
  Hypothesis Hls : ∀ s, ls s ≡ₚ elements s.

  Lemma sorted_elem (s : gset uid) u : u ∈ sort_ids (ls s) ↔ u ∈ s.
  Proof using Hls. rewrite sort_ids_perm, Hls. apply elem_of_elements. Qed.
  Lemma sorted_NoDup (s : gset uid) : NoDup (sort_ids (ls s)).
  Proof using Hls. rewrite sort_ids_perm, Hls. apply NoDup_elements. Qed.

  Lemma course_dependents_elem g only c d : d ∈ course_dependents ls g only c ↔
    if only then dependent_of g c d ∧ get_unit_type g d = Some Course else dependent_of g c d ∨ starts g c d.
  Proof using Hls.
    unfold course_dependents, dependent_of, starts. rewrite sort_ids_perm.
    destruct only; rewrite ?elem_of_app, elem_of_list_In, filter_In, <-elem_of_list_In, Hls, elem_of_elements, answers_default.
    - by rewrite bool_decide_eq_true.
    - rewrite Hls, elem_of_elements, answers_default. naive_solver.
  Qed.
  Lemma lesson_block_elem g l x : x ∈ lesson_block ls g l ↔ x = LessonNode l ∨ ∃ d, x = Arrow l d ∧ dependent_of g l d.
  Proof using Hls.
    unfold lesson_block. rewrite elem_of_cons, elem_of_list_fmap. f_equiv. f_equiv. intros d.
    by rewrite sorted_elem, answers_default.
  Qed.
  Lemma course_block_elem g only c x : x ∈ course_block ls g only c ↔
    x = CourseNode c ∨ (∃ d, x = Arrow c d ∧ d ∈ course_dependents ls g only c) ∨
    only = false ∧ ∃ l, lesson_in g c l ∧ x ∈ lesson_block ls g l.
  Proof using Hls.
    unfold course_block. rewrite elem_of_cons, elem_of_app, elem_of_list_fmap. f_equiv. f_equiv.
    destruct only.
    - rewrite elem_of_nil. naive_solver.
    - rewrite elem_of_list_bind. split.
      + intros (l & Hx & Hl). split; [done|]. exists l. split; [|done]. by rewrite sorted_elem, answers_default in Hl.
      + intros [_ (l & Hl & Hx)]. exists l. split; [done|]. by rewrite sorted_elem, answers_default.
  Qed.
  Lemma dot_lines_elem g only x : x ∈ dot_lines ls g only ↔ ∃ c, is_Some (get_course_lessons g c) ∧ x ∈ course_block ls g only c.
  Proof using Hls.
    unfold dot_lines. rewrite elem_of_list_bind. split; intros (c & H1 & H2); exists c.
    - split; [|done]. by rewrite sorted_elem, elem_of_dom in H2.
    - split; [done|]. by rewrite sorted_elem, elem_of_dom.
  Qed.
End Lines.

(** A course that is in the map has a lesson. *)
Definition no_empty (g : graph) : Prop := ∀ c s, course_lesson_map g !! c = Some s → s ≠ ∅.
Lemma update_starting_lessons_map g : course_lesson_map (update_starting_lessons g) = course_lesson_map g.
Proof. destruct (update_starting_lessons_eq g) as (s & m & ->). done. Qed.
Lemma update_unit_type_map g u t : course_lesson_map (update_unit_type g u t).1 = course_lesson_map g.
Proof. unfold update_unit_type. by destruct (type_map g !! u); [case_bool_decide|]. Qed.
Lemma gstep_map g o : (∃ c l, course_lesson_map (gstep g o).1 = map_insert_set c l (course_lesson_map g)) ∨
  course_lesson_map (gstep g o).1 = course_lesson_map g.
Proof.
  destruct o; cbn [gstep].
  - right. unfold add_course. destruct (type_map g !! c); [done|]. apply update_unit_type_map.
  - unfold add_lesson. destruct (type_map g !! l); [by right|].
    pose proof (update_unit_type_map g l Lesson) as E1. destruct (update_unit_type g l Lesson) as [g1 [|]]; cbn in *; [|by right].
    pose proof (update_unit_type_map g1 c Course) as E2. destruct (update_unit_type g1 c Course) as [g2 [|]]; cbn in *.
    + left. exists c, l. by rewrite E2, E1.
    + right. by rewrite E2.
  - right. unfold add_exercise. destruct (type_map g !! e); [done|].
    pose proof (update_unit_type_map g e Exercise) as E1. destruct (update_unit_type g e Exercise) as [g1 [|]]; cbn in *; [|done].
    pose proof (update_unit_type_map g1 l Lesson) as E2. destruct (update_unit_type g1 l Lesson) as [g2 [|]]; cbn in *; by rewrite E2.
  - right. unfold add_dependencies. destruct (verify_dependencies _ _ _ _); [|done]. cbn.
    match goal with |- context [update_dependency_sinks ?x ?y ?z] => destruct (update_dependency_sinks_eq x y z) as [s E] end.
    by rewrite E.
  - right. unfold add_encompassed. destruct (forallb _ _); done.
  - right. unfold add_superseded. destruct sup; done.
  - by right.
  - right. apply update_starting_lessons_map.
Qed.
Lemma grun_no_empty ops : no_empty (grun ops).
Proof.
  unfold grun. apply (fold_inv no_empty); [|intros c s; cbn; by rewrite lookup_empty].
  intros g o H. destruct (gstep_map g o) as [(c & l & E)|E]; intros c' s; rewrite E; [|apply H].
  unfold map_insert_set. destruct (decide (c' = c)) as [->|Hne].
  - rewrite lookup_insert. intros [= <-]. set_solver.
  - rewrite lookup_insert_ne by done. apply H.
Qed.
Lemma has_lessons_key ops c : has_lessons (grun ops) c ↔ is_Some (get_course_lessons (grun ops) c).
Proof.
  unfold has_lessons, lesson_in, get_course_lessons. split.
  - intros [l Hl]. destruct (_ !! c); [by eexists|done].
  - intros [s Hs]. pose proof (grun_no_empty ops c s Hs) as Hne. rewrite Hs.
    apply set_choose_L in Hne as [l Hl]. by exists l.
Qed.

Section Content.
  Variable ls : gset uid → list uid.
  Hypothesis Hls : ∀ s, ls s ≡ₚ elements s.
  Variable ops : list gop.
  Local Notation g := (grun ops).

  Lemma dependent_depends a b : dependent_of g a b ↔ depends_on g b a.
  Proof. symmetry. apply (relations_inverse ops). Qed.

  Lemma course_dependents_in only c d : d ∈ course_dependents ls g only c ↔
    if only then depends_on g d c ∧ get_unit_type g d = Some Course else depends_on g d c ∨ starts g c d.
  Proof using Hls. rewrite course_dependents_elem by done. destruct only; by rewrite dependent_depends. Qed.

  Lemma course_nodes only c : CourseNode c ∈ dot_lines ls g only ↔ has_lessons g c.
  Proof using Hls.
    rewrite dot_lines_elem by done. rewrite has_lessons_key. split.
    - intros (c' & Hc & Hx). apply course_block_elem in Hx; [|done].
      destruct Hx as [[= ->]|[(d & [=] & _)|(_ & l & _ & Hx)]]; [done|].
      apply lesson_block_elem in Hx; [|done]. by destruct Hx as [[=]|(d & [=] & _)].
    - intros Hc. exists c. split; [done|]. apply course_block_elem; [done|]. by left.
  Qed.
  Lemma lesson_nodes only l : LessonNode l ∈ dot_lines ls g only ↔ only = false ∧ ∃ c, lesson_in g c l.
  Proof using Hls.
    rewrite dot_lines_elem by done. split.
    - intros (c & Hc & Hx). apply course_block_elem in Hx; [|done].
      destruct Hx as [[=]|[(d & [=] & _)|(-> & l' & Hl & Hx)]].
      apply lesson_block_elem in Hx; [|done]. destruct Hx as [[= ->]|(d & [=] & _)]. split; [done|]. by exists c.
    - intros [-> [c Hl]]. exists c. split; [apply has_lessons_key; by exists l|].
      apply course_block_elem; [done|]. right. right. split; [done|]. exists l. split; [done|].
      apply lesson_block_elem; [done|]. by left.
  Qed.
  Lemma arrows only a b : Arrow a b ∈ dot_lines ls g only ↔ meant g only a b.
  Proof using Hls.
    rewrite dot_lines_elem by done. unfold meant. split.
    - intros (c & Hc & Hx). apply has_lessons_key in Hc. apply course_block_elem in Hx; [|done].
      destruct Hx as [[=]|[(d & [= -> ->] & Hd)|(-> & l' & Hl & Hx)]].
      + apply course_dependents_in in Hd. destruct only; [done|]. by left.
      + apply lesson_block_elem in Hx; [|done]. destruct Hx as [[=]|(d & [= -> ->] & Hd)].
        right. rewrite dependent_depends in Hd. split; [by exists c|done].
    - intros Hm. assert (has_lessons g a ∧ b ∈ course_dependents ls g only a ∨ only = false ∧ (∃ c, lesson_in g c a) ∧ dependent_of g a b) as [[H1 H2]|(-> & [c Hc] & H2)].
      { rewrite course_dependents_in, dependent_depends. destruct only; [by left|]. destruct Hm as [Hm|Hm]; [by left|by right]. }
      + exists a. split; [by apply has_lessons_key|]. apply course_block_elem; [done|]. right. left. by exists b.
      + exists c. split; [apply has_lessons_key; by exists a|]. apply course_block_elem; [done|]. right. right.
        split; [done|]. exists a. split; [done|]. apply lesson_block_elem; [done|]. right. by exists b.
  Qed.

  Lemma nodes_app l l' : nodes_of (l ++ l') = nodes_of l ++ nodes_of l'.
  Proof. apply omap_app. Qed.
  Lemma arrows_app l l' : arrows_of (l ++ l') = arrows_of l ++ arrows_of l'.
  Proof. apply omap_app. Qed.
  Lemma nodes_bind {A : Type} (f : A → list dot_line) l : nodes_of (l ≫= f) = mjoin ((λ x, nodes_of (f x)) <$> l).
  Proof. induction l as [|x l IH]; [done|]. cbn. by rewrite nodes_app, IH. Qed.
  Lemma arrows_bind {A : Type} (f : A → list dot_line) l : arrows_of (l ≫= f) = mjoin ((λ x, arrows_of (f x)) <$> l).
  Proof. induction l as [|x l IH]; [done|]. cbn. by rewrite arrows_app, IH. Qed.
  Lemma nodes_arrow a l : nodes_of (Arrow a <$> l) = [].
  Proof. by induction l. Qed.
  Lemma arrows_arrow a l : arrows_of (Arrow a <$> l) = pair a <$> l.
  Proof. induction l as [|x l IH]; [done|]. cbn. by f_equal. Qed.
  Lemma nodes_elem l u : u ∈ nodes_of l ↔ CourseNode u ∈ l ∨ LessonNode u ∈ l.
  Proof.
    unfold nodes_of. rewrite elem_of_list_omap. split.
    - intros ([c|k|a b] & Hx & [= <-]); auto.
    - intros [H|H]; eexists; split; eauto.
  Qed.
  Lemma arrows_elem l a b : (a, b) ∈ arrows_of l ↔ Arrow a b ∈ l.
  Proof.
    unfold arrows_of. rewrite elem_of_list_omap. split.
    - intros ([c|k|a' b'] & Hx & [= <- <-]); done.
    - intros H. eexists. by split.
  Qed.

  Lemma lesson_of l c : lesson_in g c l ↔ lesson_course_map g !! l = Some c.
  Proof. unfold lesson_in, get_course_lessons. rewrite answers_mget. symmetry. apply (grun_inv ops). Qed.
  Lemma one_course l c c' : lesson_in g c l → lesson_in g c' l → c = c'.
  Proof. rewrite !lesson_of. congruence. Qed.
  Lemma apart c l c' : has_lessons g c → lesson_in g c' l → l ≠ c.
  Proof.
    intros [k Hk] Hl ->. apply lesson_of in Hk, Hl.
    apply (i_lc_t _ (grun_inv ops)) in Hk, Hl. destruct Hk, Hl. congruence.
  Qed.
  Lemma key_has c : c ∈ sort_ids (ls (dom (course_lesson_map g))) ↔ has_lessons g c.
  Proof using Hls. rewrite sorted_elem, elem_of_dom by done. symmetry. apply has_lessons_key. Qed.
  Lemma lessons_elem c l : l ∈ sort_ids (ls (default ∅ (get_course_lessons g c))) ↔ lesson_in g c l.
  Proof using Hls. by rewrite sorted_elem, answers_default by done. Qed.

  Lemma lesson_block_nodes l : nodes_of (lesson_block ls g l) = [l].
  Proof. unfold lesson_block. cbn. by rewrite nodes_arrow. Qed.
  Lemma lesson_block_arrows l : arrows_of (lesson_block ls g l) = pair l <$> sort_ids (ls (default ∅ (get_dependents g l))).
  Proof. unfold lesson_block. cbn. by rewrite arrows_arrow. Qed.

  Lemma block_node only c u : has_lessons g c → u ∈ nodes_of (course_block ls g only c) → u = c ∨ lesson_in g c u.
  Proof using Hls.
    intros _ [H|H]%nodes_elem; apply course_block_elem in H; try done; destruct H as [[=]|[(? & [=] & _)|(_ & l & Hl & H)]]; auto;
      apply lesson_block_elem in H; try done; destruct H as [[=]|(? & [=] & _)]; subst; auto.
  Qed.
  Lemma block_arrow only c a b : has_lessons g c → (a, b) ∈ arrows_of (course_block ls g only c) → a = c ∨ lesson_in g c a.
  Proof using Hls.
    intros _ H%arrows_elem; apply course_block_elem in H; try done; destruct H as [[=]|[(? & [= -> ->] & _)|(_ & l & Hl & H)]]; auto;
      apply lesson_block_elem in H; try done; destruct H as [[=]|(? & [= -> ->] & _)]; auto.
  Qed.
  Lemma same_block c c' u : has_lessons g c → has_lessons g c' → u = c ∨ lesson_in g c u → u = c' ∨ lesson_in g c' u → c = c'.
  Proof.
    intros Hc Hc' [->|H1] [E|H2].
    - done.
    - by destruct (apart c c c' Hc H2).
    - subst u. by destruct (apart c' c' c Hc' H1).
    - by eapply one_course.
  Qed.

  Lemma nodes_once only : NoDup (nodes_of (dot_lines ls g only)).
  Proof using Hls.
    unfold dot_lines. rewrite nodes_bind. apply NoDup_mjoin_fmap.
    - by apply sorted_NoDup.
    - intros c Hc%key_has. unfold course_block. cbn. rewrite nodes_app, nodes_arrow. cbn. destruct only; [apply NoDup_singleton|].
      rewrite nodes_bind. rewrite (list_fmap_ext _ (λ l, [l]) _ (λ _ x _, lesson_block_nodes x)).
      apply NoDup_cons. split.
      + intros H. apply elem_of_list_join in H as (x & Hx & (l & -> & Hl)%elem_of_list_fmap).
        apply elem_of_list_singleton in Hx as <-. apply lessons_elem in Hl. by apply (apart c c c Hc Hl).
      + apply NoDup_mjoin_fmap; [by apply sorted_NoDup|intros; apply NoDup_singleton|].
        intros x y z _ _ ->%elem_of_list_singleton ->%elem_of_list_singleton. done.
    - intros c c' u Hc%key_has Hc'%key_has H1%block_node H2%block_node; [|done..]. by eapply same_block.
  Qed.

  Lemma arrows_once only : (only = true ∨ ∀ c l, starts g c l → ¬ depends_on g l c) → NoDup (arrows_of (dot_lines ls g only)).
  Proof using Hls.
    intros Hno. unfold dot_lines. rewrite arrows_bind. apply NoDup_mjoin_fmap.
    - by apply sorted_NoDup.
    - intros c Hc%key_has. unfold course_block. cbn. rewrite arrows_app, arrows_arrow. apply NoDup_app. split_and!.
      + apply NoDup_fmap; [by intros ?? [=]|]. unfold course_dependents. rewrite sort_ids_perm.
        destruct only; [apply NoDup_ListNoDup, List.NoDup_filter, NoDup_ListNoDup; rewrite Hls; apply NoDup_elements|].
        destruct Hno as [[=]|Hno]. apply NoDup_app. split_and!.
        * apply NoDup_ListNoDup, List.NoDup_filter, NoDup_ListNoDup. rewrite Hls. apply NoDup_elements.
        * intros l H1 H2. apply elem_of_list_In, filter_In in H1 as [H1%elem_of_list_In _]. rewrite Hls, elem_of_elements, answers_default in H1, H2.
          apply (Hno c l H2). by apply dependent_depends.
        * rewrite Hls. apply NoDup_elements.
      + intros [a b] (d & [= -> ->] & _)%elem_of_list_fmap H. destruct only; [by apply elem_of_nil in H|].
        apply arrows_elem, elem_of_list_bind in H as (l & Hx & Hl%lessons_elem).
        apply lesson_block_elem in Hx; [|done]. destruct Hx as [[=]|(? & [= <- <-] & _)].
        by apply (apart c c c Hc Hl).
      + destruct only; [constructor|]. rewrite arrows_bind. apply NoDup_mjoin_fmap; [by apply sorted_NoDup| |].
        * intros l _. rewrite lesson_block_arrows. apply NoDup_fmap; [by intros ?? [=]|]. by apply sorted_NoDup.
        * intros l l' [a b] _ _. rewrite !lesson_block_arrows.
          intros (? & [= -> ->] & _)%elem_of_list_fmap (? & [= -> ->] & _)%elem_of_list_fmap. done.
    - intros c c' [a b] Hc%key_has Hc'%key_has H1%block_arrow H2%block_arrow; [|done..]. by eapply same_block.
  Qed.
End Content.

(** * The text *)
Local Arguments String.append !_ _ /.
Lemma quote_free_cons x u : quote_free (String x u) → x ≠ quote ∧ quote_free u.
Proof.
  intros H. split.
  - intros ->. by apply (H "" u).
  - intros p s ->. by apply (H (String x p) s).
Qed.
Lemma quote_split a : ∀ b s t, quote_free a → quote_free b → a +:+ String quote s = b +:+ String quote t → a = b ∧ s = t.
Proof.
  induction a as [|x a IH]; intros [|y b] s t Ha Hb; cbn.
  - by intros [= ->].
  - intros [= <- _]. by apply quote_free_cons in Hb as [[] _].
  - intros [= -> _]. by apply quote_free_cons in Ha as [[] _].
  - intros [= -> H]. apply quote_free_cons in Ha as [_ Ha], Hb as [_ Hb].
    by destruct (IH b s t Ha Hb H) as [-> ->].
Qed.
Lemma quoted_inv a b s t : quote_free a → quote_free b → quoted a s = quoted b t → a = b ∧ s = t.
Proof. intros Ha Hb [= H]. by apply quote_split. Qed.
Lemma line_inv x y s t : Forall quote_free (ids_of x) → Forall quote_free (ids_of y) → write_line x s = write_line y t → x = y ∧ s = t.
Proof.
  intros Hx Hy. unfold write_line.
  destruct x as [a|a|a a'], y as [b|b|b b']; cbn [ids_of] in *; repeat (apply Forall_cons in Hx as [? Hx]);
    repeat (apply Forall_cons in Hy as [? Hy]); intros E%sapp_inv_l; apply quoted_inv in E as [-> E]; try done; try discriminate E.
  - by apply sapp_inv_l, sapp_inv_l in E as ->.
  - by apply sapp_inv_l, sapp_inv_l in E as ->.
  - apply sapp_inv_l, quoted_inv in E as [-> E]; [|done..]. by apply sapp_inv_l in E as ->.
Qed.
Lemma lines_inv l : ∀ l', Forall (λ x, Forall quote_free (ids_of x)) l → Forall (λ x, Forall quote_free (ids_of x)) l' →
  foldr write_line ("}" +:+ eol) l = foldr write_line ("}" +:+ eol) l' → l = l'.
Proof.
  induction l as [|x l IH]; intros [|y l'] Hl Hl'; cbn [foldr].
  - done.
  - by destruct y.
  - by destruct x.
  - apply Forall_cons in Hl as [Hx Hl], Hl' as [Hy Hl']. intros [-> H]%line_inv; [|done..]. f_equal. by apply IH.
Qed.
Lemma text_inv l l' : Forall (λ x, Forall quote_free (ids_of x)) l → Forall (λ x, Forall quote_free (ids_of x)) l' →
  dot_text l = dot_text l' → l = l'.
Proof. intros H H' E. unfold dot_text in E. apply sapp_inv_l, sapp_inv_l in E. by apply lines_inv. Qed.

Lemma lines_mentioned ls ops only : (∀ s, ls s ≡ₚ elements s) → (∀ u, mentioned (grun ops) u → quote_free u) →
  Forall (λ x, Forall quote_free (ids_of x)) (dot_lines ls (grun ops) only).
Proof.
  intros Hls Hq. apply Forall_forall. intros [c|l|a b] Hx; cbn; repeat constructor; apply Hq.
  - left. by apply (course_nodes ls Hls ops only).
  - right. left. by apply (lesson_nodes ls Hls ops only).
  - apply (arrows ls Hls ops only) in Hx. unfold meant in Hx. destruct only.
    + left. apply Hx.
    + destruct Hx as [[H _]|[H _]]; [by left|by right; left].
  - apply (arrows ls Hls ops only) in Hx. unfold meant in Hx. destruct only.
    + right. right. right. exists a. apply Hx.
    + destruct Hx as [[_ [H|H]]|[_ H]]; right; right; [right|left|right]; by exists a.
Qed.

(** * What is shown *)
Lemma dot_content ls : (∀ s, ls s ≡ₚ elements s) → ∀ ops only, let g := grun ops in let x := dot_lines ls g only in
  generate_dot_graph ls g only = dot_text x ∧
  (∀ c, CourseNode c ∈ x ↔ has_lessons g c) ∧
  (∀ l, LessonNode l ∈ x ↔ only = false ∧ ∃ c, lesson_in g c l) ∧
  (∀ a b, Arrow a b ∈ x ↔ meant g only a b) ∧
  NoDup (nodes_of x).
Proof.
  intros Hls ops only g x. split; [done|]. split; [by apply course_nodes|]. split; [by apply lesson_nodes|].
  split; [by apply arrows|by apply nodes_once].
Qed.
Lemma dot_same ls ls' : (∀ s, ls s ≡ₚ elements s) → (∀ s, ls' s ≡ₚ elements s) → ∀ g only,
  generate_dot_graph ls g only = generate_dot_graph ls' g only.
Proof. intros H H' g only. unfold generate_dot_graph. by rewrite (dot_order ls ls'). Qed.
Lemma dot_readable ls ls' : (∀ s, ls s ≡ₚ elements s) → (∀ s, ls' s ≡ₚ elements s) → ∀ ops ops' only,
  (∀ u, mentioned (grun ops) u → quote_free u) → (∀ u, mentioned (grun ops') u → quote_free u) →
  generate_dot_graph ls (grun ops) only = generate_dot_graph ls' (grun ops') only →
  (∀ c, has_lessons (grun ops) c ↔ has_lessons (grun ops') c) ∧
  (only = false → ∀ l, (∃ c, lesson_in (grun ops) c l) ↔ ∃ c, lesson_in (grun ops') c l) ∧
  ∀ a b, meant (grun ops) only a b ↔ meant (grun ops') only a b.
Proof.
  intros H H' ops ops' only Hq Hq' E. apply text_inv in E; [|by apply lines_mentioned..].
  split; [|split].
  - intros c. rewrite <-(course_nodes ls H ops only c), <-(course_nodes ls' H' ops' only c). by rewrite E.
  - intros -> l. pose proof (lesson_nodes ls H ops false l) as A. pose proof (lesson_nodes ls' H' ops' false l) as B.
    rewrite E in A. naive_solver.
  - intros a b. rewrite <-(arrows ls H ops only a b), <-(arrows ls' H' ops' only a b). by rewrite E.
Qed.
