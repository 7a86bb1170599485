(** Invariants of the unit graph over arbitrary histories of operations. *)
From stdpp Require Import gmap strings list relations.
From Verif Require Import F32 Graph GraphSpec.

(** * Set-valued maps *)
Definition mget (m : gmap uid (gset uid)) (k : uid) : gset uid := default ∅ (m !! k).
Definition vget {A} (m : gmap uid (list A)) (k : uid) : list A := default [] (m !! k).

Lemma answers_mget (m : gmap uid (gset uid)) k x : answers (m !! k) x ↔ x ∈ mget m k.
Proof. unfold answers, mget. destruct (m !! k); simpl; set_solver. Qed.
Lemma lists_vget {A} (m : gmap uid (list A)) k x : lists (m !! k) x ↔ x ∈ vget m k.
Proof. unfold lists, vget. destruct (m !! k); simpl; set_solver. Qed.

Lemma mget_insert_set k x m k' y :
  y ∈ mget (map_insert_set k x m) k' ↔ y ∈ mget m k' ∨ (k' = k ∧ y = x).
Proof.
  unfold mget, map_insert_set. destruct (decide (k = k')) as [->|Hk].
  - rewrite lookup_insert. simpl. set_solver.
  - rewrite lookup_insert_ne by done. naive_solver.
Qed.
Lemma mget_extend_set k xs m k' y :
  y ∈ mget (map_extend_set k xs m) k' ↔ y ∈ mget m k' ∨ (k' = k ∧ y ∈ xs).
Proof.
  unfold mget, map_extend_set. destruct (decide (k = k')) as [->|Hk].
  - rewrite lookup_insert. simpl. set_solver.
  - rewrite lookup_insert_ne by done. naive_solver.
Qed.
Lemma mget_fold_insert (ks : list uid) x m k y :
  y ∈ mget (fold_left (λ m d, map_insert_set d x m) ks m) k ↔ y ∈ mget m k ∨ (k ∈ ks ∧ y = x).
Proof.
  revert m. induction ks as [|k' ks IH]; intros m; simpl.
  - set_solver.
  - rewrite IH, mget_insert_set. set_solver.
Qed.
Lemma vget_extend_vec {A} k (xs : list A) m k' y :
  y ∈ vget (map_extend_vec k xs m) k' ↔ y ∈ vget m k' ∨ (k' = k ∧ y ∈ xs).
Proof.
  unfold vget, map_extend_vec. destruct (decide (k = k')) as [->|Hk].
  - rewrite lookup_insert. simpl. set_solver.
  - rewrite lookup_insert_ne by done. naive_solver.
Qed.
Lemma vget_fold_extend (es : list (uid * f32)) u m k (y : uid * f32) :
  y ∈ vget (fold_left (λ m e, map_extend_vec e.1 [(u, e.2)] m) es m) k ↔
  y ∈ vget m k ∨ (y.1 = u ∧ (k, y.2) ∈ es).
Proof.
  revert m. induction es as [|[e w] es IH]; intros m; simpl.
  - set_solver.
  - rewrite IH, vget_extend_vec. destruct y as [y1 y2]; simpl. set_solver.
Qed.

(** * Sinks only *)
(** Updating the sinks changes nothing else. *)
Definition eq_but_sinks (g g' : graph) : Prop :=
  ∃ s, g' = set_dependency_sinks (λ _, s) g.
Lemma eq_but_sinks_refl g : eq_but_sinks g g.
Proof. exists (dependency_sinks g). by destruct g. Qed.
Lemma eq_but_sinks_trans g1 g2 g3 : eq_but_sinks g1 g2 → eq_but_sinks g2 g3 → eq_but_sinks g1 g3.
Proof. intros [s1 ->] [s2 ->]. by exists s2. Qed.
Lemma update_sink_unit_eq g u b : eq_but_sinks g (update_sink_unit g u b).
Proof.
  unfold update_sink_unit. unfold eq_but_sinks.
  destruct (_ && b); simpl; destruct (get_lesson_course _ u); eexists; by destruct g.
Qed.
Lemma update_dependency_sinks_eq g u deps : eq_but_sinks g (update_dependency_sinks g u deps).
Proof.
  unfold update_dependency_sinks. generalize (match deps with [] => true | _ => false end); intros b.
  apply (eq_but_sinks_trans _ (update_sink_unit g u b)); [apply update_sink_unit_eq|].
  generalize (update_sink_unit g u b).
  induction deps as [|d deps IH]; intros g'; simpl; [apply eq_but_sinks_refl|].
  apply (eq_but_sinks_trans _ (update_sink_unit g' d true)); [apply update_sink_unit_eq|apply IH].
Qed.

(** Changes only starting lessons and sinks. *)
Lemma update_starting_lessons_of_eq g c :
  ∃ s m, update_starting_lessons_of g c =
    set_starting_lessons_map (λ _, m) (set_dependency_sinks (λ _, s) g).
Proof.
  unfold update_starting_lessons_of.
  destruct (_ && _); [eexists _, _; reflexivity|].
  exists (dependency_sinks g). eexists. by destruct g.
Qed.
Lemma update_starting_lessons_eq g :
  ∃ s m, update_starting_lessons g =
    set_starting_lessons_map (λ _, m) (set_dependency_sinks (λ _, s) g).
Proof.
  unfold update_starting_lessons. generalize (elements (dom (course_lesson_map g))). intros cs.
  assert (∀ g', (∃ s m, g' = set_starting_lessons_map (λ _, m) (set_dependency_sinks (λ _, s) g)) →
    ∃ s m, fold_left update_starting_lessons_of cs g' =
      set_starting_lessons_map (λ _, m) (set_dependency_sinks (λ _, s) g)) as H.
  { induction cs as [|c cs IH]; intros g' Hg'; simpl; [done|].
    apply IH. destruct Hg' as (s & m & ->).
    destruct (update_starting_lessons_of_eq (set_starting_lessons_map (λ _, m) (set_dependency_sinks (λ _, s) g)) c)
      as (s' & m' & ->). by exists s', m'. }
  apply H. exists (dependency_sinks g), (starting_lessons_map g). by destruct g.
Qed.

(** * The invariant *)
Record GInv (g : graph) : Prop := {
  i_dep : ∀ u d, d ∈ mget (dependency_graph g) u ↔ u ∈ mget (dependent_graph g) d;
  i_sup : ∀ u s, s ∈ mget (supersedes_graph g) u ↔ u ∈ mget (superseded_by g) s;
  i_enc : ∀ u e w, (e, w) ∈ vget (encompasses_graph g) u ↔ (u, w) ∈ vget (encompassed_by g) e;
  i_enc_ne : ∀ e l, encompassed_by g !! e = Some l → l ≠ [];
  i_enc_w : ∀ u e w, (e, w) ∈ vget (encompasses_graph g) u → fle fzero w = true ∧ fle w f_1 = true;
  i_lc : ∀ l c, lesson_course_map g !! l = Some c ↔ l ∈ mget (course_lesson_map g) c;
  i_el : ∀ e l, exercise_lesson_map g !! e = Some l ↔ e ∈ mget (lesson_exercise_map g) l;
  i_lc_t : ∀ l c, lesson_course_map g !! l = Some c →
             type_map g !! l = Some Lesson ∧ type_map g !! c = Some Course;
  i_el_t : ∀ e l, exercise_lesson_map g !! e = Some l →
             type_map g !! e = Some Exercise ∧ type_map g !! l = Some Lesson;
  i_dep_t : ∀ u s, dependency_graph g !! u = Some s → is_Some (type_map g !! u);
  i_self : ∀ u, u ∉ mget (dependency_graph g) u
}.

Lemma GInv_empty : GInv empty_graph.
Proof. split; unfold mget, vget; cbn; intros; rewrite ?lookup_empty in *; simpl in *; set_solver. Qed.

Lemma GInv_sinks g s : GInv g → GInv (set_dependency_sinks s g).
Proof. intros []; split; assumption. Qed.
Lemma GInv_starting g s : GInv g → GInv (set_starting_lessons_map s g).
Proof. intros []; split; assumption. Qed.

(** Adding types only extends the type map. *)
Lemma update_unit_type_spec g u t g' ok :
  update_unit_type g u t = (g', ok) →
  (type_map g !! u = None ∧ ok = true ∧ g' = set_type_map (<[u := t]>) g) ∨
  (∃ t', type_map g !! u = Some t' ∧ g' = g ∧ ok = bool_decide (t = t')).
Proof.
  unfold update_unit_type. destruct (type_map g !! u) eqn:E; intros [= <- <-]; naive_solver.
Qed.

Lemma GInv_type_mono g m : GInv g → type_map g ⊆ m → GInv (set_type_map (λ _, m) g).
Proof.
  intros [] Hm. split; try assumption; simpl.
  - intros l c Hl. destruct (i_lc_t0 l c Hl). split; eapply lookup_weaken; eauto.
  - intros l c Hl. destruct (i_el_t0 l c Hl). split; eapply lookup_weaken; eauto.
  - intros u s Hu. destruct (i_dep_t0 u s Hu) as [t Ht]. exists t. eapply lookup_weaken; eauto.
Qed.
Lemma update_unit_type_inv g u t : GInv g → GInv (update_unit_type g u t).1.
Proof.
  intros Hg. unfold update_unit_type. destruct (type_map g !! u) eqn:E; [done|].
  simpl. apply (GInv_type_mono g (<[u:=t]> (type_map g)) Hg). by apply insert_subseteq.
Qed.
Lemma update_unit_type_mono g u t : type_map g ⊆ type_map (update_unit_type g u t).1.
Proof.
  unfold update_unit_type. destruct (type_map g !! u) eqn:E; [done|]. simpl. by apply insert_subseteq.
Qed.

Lemma add_lesson_inv g l c : GInv g → GInv (add_lesson g l c).1.
Proof.
  intros Hg. unfold add_lesson. destruct (type_map g !! l) eqn:El; [done|].
  destruct (update_unit_type g l Lesson) as [g1 ok1] eqn:E1.
  pose proof (update_unit_type_inv g l Lesson Hg) as H1. rewrite E1 in H1. simpl in H1.
  destruct ok1; [|done].
  destruct (update_unit_type g1 c Course) as [g2 ok2] eqn:E2.
  pose proof (update_unit_type_inv g1 c Course H1) as H2. rewrite E2 in H2. simpl in H2.
  destruct ok2; [|done]. simpl.
  apply update_unit_type_spec in E1 as [(_ & _ & ->)|(t & Ht & _)]; [|congruence].
  assert (Hl2 : type_map g2 !! l = Some Lesson).
  { apply update_unit_type_spec in E2 as [(Hn & _ & ->)|(t & Ht & -> & _)]; simpl in *.
    - rewrite lookup_insert_ne; [apply lookup_insert|]. intros ->. by rewrite lookup_insert in Hn.
    - apply lookup_insert. }
  assert (Hc2 : type_map g2 !! c = Some Course).
  { apply update_unit_type_spec in E2 as [(Hn & _ & ->)|(t & Ht & -> & Hb)]; simpl in *.
    - apply lookup_insert.
    - symmetry in Hb. apply bool_decide_eq_true in Hb. by subst. }
  assert (Hnl : lesson_course_map g2 !! l = None).
  { assert (lesson_course_map g2 = lesson_course_map g) as ->.
    { apply update_unit_type_spec in E2 as [(_ & _ & ->)|(? & _ & -> & _)]; done. }
    destruct (lesson_course_map g !! l) as [c'|] eqn:E; [|done].
    destruct (i_lc_t g Hg _ _ E) as [? _]. congruence. }
  destruct H2 as [D S E N W LC EL LCT ELT DT SELF]. split; try assumption; simpl.
  - intros l' c'. destruct (decide (l = l')) as [<-|Hne].
    + rewrite lookup_insert, mget_insert_set. rewrite <- LC, Hnl. naive_solver.
    + rewrite lookup_insert_ne by done. rewrite mget_insert_set, LC. naive_solver.
  - intros l' c'. destruct (decide (l = l')) as [<-|Hne].
    + rewrite lookup_insert. intros [= <-]. done.
    + rewrite lookup_insert_ne by done. apply LCT.
Qed.

Lemma add_exercise_inv g e l : GInv g → GInv (add_exercise g e l).1.
Proof.
  intros Hg. unfold add_exercise. destruct (type_map g !! e) eqn:El; [done|].
  destruct (update_unit_type g e Exercise) as [g1 ok1] eqn:E1.
  pose proof (update_unit_type_inv g e Exercise Hg) as H1. rewrite E1 in H1. simpl in H1.
  destruct ok1; [|done].
  destruct (update_unit_type g1 l Lesson) as [g2 ok2] eqn:E2.
  pose proof (update_unit_type_inv g1 l Lesson H1) as H2. rewrite E2 in H2. simpl in H2.
  destruct ok2; [|done]. simpl.
  apply update_unit_type_spec in E1 as [(_ & _ & ->)|(t & Ht & _)]; [|congruence].
  assert (Hl2 : type_map g2 !! e = Some Exercise).
  { apply update_unit_type_spec in E2 as [(Hn & _ & ->)|(t & Ht & -> & _)]; simpl in *.
    - rewrite lookup_insert_ne; [apply lookup_insert|]. intros ->. by rewrite lookup_insert in Hn.
    - apply lookup_insert. }
  assert (Hc2 : type_map g2 !! l = Some Lesson).
  { apply update_unit_type_spec in E2 as [(Hn & _ & ->)|(t & Ht & -> & Hb)]; simpl in *.
    - apply lookup_insert.
    - symmetry in Hb. apply bool_decide_eq_true in Hb. by subst. }
  assert (Hnl : exercise_lesson_map g2 !! e = None).
  { assert (exercise_lesson_map g2 = exercise_lesson_map g) as ->.
    { apply update_unit_type_spec in E2 as [(_ & _ & ->)|(? & _ & -> & _)]; done. }
    destruct (exercise_lesson_map g !! e) as [c'|] eqn:E; [|done].
    destruct (i_el_t g Hg _ _ E) as [? _]. congruence. }
  destruct H2 as [D S E N W LC EL LCT ELT DT SELF]. split; try assumption; simpl.
  - intros e' l'. destruct (decide (e = e')) as [<-|Hne].
    + rewrite lookup_insert, mget_insert_set. rewrite <- EL, Hnl. naive_solver.
    + rewrite lookup_insert_ne by done. rewrite mget_insert_set, EL. naive_solver.
  - intros e' l'. destruct (decide (e = e')) as [<-|Hne].
    + rewrite lookup_insert. intros [= <-]. done.
    + rewrite lookup_insert_ne by done. apply ELT.
Qed.

Lemma verify_dependencies_spec g u t deps :
  verify_dependencies g u t deps = true ↔ t ≠ Exercise ∧ u ∉ deps ∧ is_Some (type_map g !! u).
Proof.
  unfold verify_dependencies. rewrite !andb_true_iff, !bool_decide_eq_true, forallb_forall.
  split.
  - intros [[? H] ?]. split_and!; try done. intros Hu%elem_of_list_In.
    specialize (H u Hu). by rewrite bool_decide_eq_true in H.
  - intros (? & H & ?). split_and!; try done. intros d Hd. rewrite bool_decide_eq_true.
    intros ->. apply H. by apply elem_of_list_In.
Qed.

Lemma add_dependencies_inv g u t deps : GInv g → GInv (add_dependencies g u t deps).1.
Proof.
  intros Hg. unfold add_dependencies. destruct (verify_dependencies g u t deps) eqn:Hv; [|done].
  apply verify_dependencies_spec in Hv as (Ht & Hself & Hty). simpl.
  destruct (update_dependency_sinks_eq g u deps) as [s ->].
  apply (GInv_sinks _ (λ _, s)) in Hg.
  destruct Hg as [D S E N W LC EL LCT ELT DT SELF]. split; try assumption; simpl in *.
  - intros u' d'. rewrite mget_extend_set, mget_fold_insert, D. naive_solver.
  - intros u' s'. unfold map_extend_set. destruct (decide (u = u')) as [<-|Hne]; [done|].
    rewrite lookup_insert_ne by done. apply DT.
  - intros u'. rewrite mget_extend_set. intros [?|[-> ?]]; [by eapply SELF|done].
Qed.

Lemma add_superseded_inv g u sup : GInv g → GInv (add_superseded g u sup).
Proof.
  intros Hg. unfold add_superseded. destruct sup as [|s sup]; [done|].
  set (ss := s :: sup). destruct Hg as [D S E N W LC EL LCT ELT DT SELF]. split; try assumption; simpl.
  intros u' d'. rewrite mget_extend_set.
  change (fold_left (λ m d, map_insert_set d u m) sup (map_insert_set s u (superseded_by g)))
    with (fold_left (λ m d, map_insert_set d u m) ss (superseded_by g)).
  rewrite mget_fold_insert, S. naive_solver.
Qed.

Lemma full_encompassed_spec deps enc e w :
  (e, w) ∈ full_encompassed deps enc ↔
  (e, w) ∈ enc ∨ (w = f_1 ∧ e ∈ deps ∧ ∀ w', (e, w') ∉ enc).
Proof.
  unfold full_encompassed. rewrite elem_of_app, elem_of_list_fmap.
  assert (∀ d, existsb (λ e0 : uid * f32, bool_decide (e0.1 = d)) enc = true ↔ ∃ w', (d, w') ∈ enc) as Hex.
  { intros d. rewrite existsb_exists. split.
    - intros ([d' w'] & Hin & Hd). rewrite bool_decide_eq_true in Hd. simpl in Hd; subst.
      exists w'. by apply elem_of_list_In.
    - intros [w' Hin]. exists (d, w'). rewrite bool_decide_eq_true. split; [by apply elem_of_list_In|done]. }
  assert (∀ d, d ∈ List.filter (λ d, negb (existsb (λ e, bool_decide (e.1 = d)) enc)) deps ↔
     d ∈ deps ∧ ∀ w', (d, w') ∉ enc) as Hf.
  { intros d. rewrite elem_of_list_In, filter_In, <- elem_of_list_In, negb_true_iff.
    rewrite <- not_true_iff_false, Hex. naive_solver. }
  split.
  - intros [?|(d & [= -> ->] & Hd)]; [by left|]. right. apply Hf in Hd. naive_solver.
  - intros [?|(-> & Hd)]; [by left|]. right. exists e. split; [done|]. by apply Hf.
Qed.

Lemma fold_extend_ne (es : list (uid * f32)) (u : uid) (m : gmap uid (list (uid * f32))) e l :
  (∀ e l, m !! e = Some l → l ≠ []) →
  fold_left (λ m e, map_extend_vec e.1 [(u, e.2)] m) es m !! e = Some l → l ≠ [].
Proof.
  revert m. induction es as [|[e' w'] es IH]; intros m Hm; simpl; [apply Hm|].
  apply IH. intros e0 l0. unfold map_extend_vec.
  destruct (decide (e' = e0)) as [<-|]; simpl.
  - rewrite lookup_insert. intros [= <-]. by destruct (default [] _).
  - rewrite lookup_insert_ne by done. apply Hm.
Qed.

Lemma f_1_unit : fle fzero f_1 = true ∧ fle f_1 f_1 = true.
Proof. by vm_compute. Qed.

Lemma add_encompassed_inv g u deps enc : GInv g → GInv (add_encompassed g u deps enc).1.
Proof.
  intros Hg. unfold add_encompassed. destruct (forallb _ enc) eqn:Hw; [|done].
  cbn zeta. cbn [fst].
  destruct Hg as [D S E N W LC EL LCT ELT DT SELF]. split; try assumption; simpl.
  - intros u' e w. rewrite vget_extend_vec, vget_fold_extend, E. simpl. naive_solver.
  - intros e l. by apply fold_extend_ne.
  - intros u' e w. rewrite vget_extend_vec. intros [?|[-> Hin]]; [by eapply W|].
    apply full_encompassed_spec in Hin as [Hin|(-> & _)]; [|apply f_1_unit].
    rewrite forallb_forall in Hw. apply elem_of_list_In in Hin. specialize (Hw _ Hin).
    by apply andb_true_iff in Hw.
Qed.

Lemma set_equals_inv g : GInv g → GInv (set_encompasing_equals_dependency g).
Proof.
  intros [D S E N W LC EL LCT ELT DT SELF]. split; try assumption; simpl;
    unfold vget; intros; rewrite ?lookup_empty in *; simpl in *; set_solver.
Qed.

Lemma update_starting_inv g : GInv g → GInv (update_starting_lessons g).
Proof.
  intros Hg. destruct (update_starting_lessons_eq g) as (s & m & ->).
  by apply GInv_starting, GInv_sinks.
Qed.

Lemma gstep_inv g o : GInv g → GInv (gstep g o).1.
Proof.
  intros Hg. destruct o; simpl.
  - unfold add_course. destruct (type_map g !! c); [done|]. by apply update_unit_type_inv.
  - by apply add_lesson_inv.
  - by apply add_exercise_inv.
  - by apply add_dependencies_inv.
  - by apply add_encompassed_inv.
  - by apply add_superseded_inv.
  - by apply set_equals_inv.
  - by apply update_starting_inv.
Qed.

Lemma fold_inv (P : graph → Prop) ops g :
  (∀ g o, P g → P (gstep g o).1) → P g → P (fold_left (λ g o, (gstep g o).1) ops g).
Proof. intros Hs. revert g. induction ops as [|o ops IH]; intros g Hg; simpl; [done|]. apply IH, Hs, Hg. Qed.

Lemma grun_inv ops : GInv (grun ops).
Proof. apply (fold_inv GInv); [apply gstep_inv|apply GInv_empty]. Qed.

Lemma grun_app ops1 ops2 : grun (ops1 ++ ops2) = fold_left (λ g o, (gstep g o).1) ops2 (grun ops1).
Proof. apply fold_left_app. Qed.

(** * C01 *)
Lemma relations_inverse ops :
  let g := grun ops in
  (∀ u d, depends_on g u d ↔ dependent_of g d u) ∧
  (∀ u s, supersedes g u s ↔ is_superseded_by g s u) ∧
  (∀ l c, get_lesson_course g l = Some c ↔ answers (get_course_lessons g c) l) ∧
  (∀ e l, get_exercise_lesson g e = Some l ↔ answers (get_lesson_exercises g l) e).
Proof.
  intros g. destruct (grun_inv ops) as [D S E N W LC EL LCT ELT DT SELF]. fold g in D, S, LC, EL.
  split_and!; intros; unfold depends_on, dependent_of, supersedes, is_superseded_by,
    get_dependencies, get_dependents, get_supersedes, get_superseded_by, get_course_lessons,
    get_lesson_exercises, get_lesson_course, get_exercise_lesson;
    rewrite ?answers_mget; auto.
Qed.

(** * C02: types never change *)
Lemma gstep_type_mono g o : type_map g ⊆ type_map (gstep g o).1.
Proof.
  destruct o; simpl; try done.
  - unfold add_course. destruct (type_map g !! c); [done|]. apply update_unit_type_mono.
  - unfold add_lesson. destruct (type_map g !! l) eqn:El; [done|].
    destruct (update_unit_type g l Lesson) as [g1 ok1] eqn:E1.
    pose proof (update_unit_type_mono g l Lesson) as H1. rewrite E1 in H1. simpl in H1.
    destruct ok1; [|done].
    destruct (update_unit_type g1 c Course) as [g2 ok2] eqn:E2.
    pose proof (update_unit_type_mono g1 c Course) as H2. rewrite E2 in H2. simpl in H2.
    destruct ok2; simpl; by etrans.
  - unfold add_exercise. destruct (type_map g !! e) eqn:El; [done|].
    destruct (update_unit_type g e Exercise) as [g1 ok1] eqn:E1.
    pose proof (update_unit_type_mono g e Exercise) as H1. rewrite E1 in H1. simpl in H1.
    destruct ok1; [|done].
    destruct (update_unit_type g1 l Lesson) as [g2 ok2] eqn:E2.
    pose proof (update_unit_type_mono g1 l Lesson) as H2. rewrite E2 in H2. simpl in H2.
    destruct ok2; simpl; by etrans.
  - unfold add_dependencies. destruct (verify_dependencies _ _ _ _); [|done]. simpl.
    by destruct (update_dependency_sinks_eq g u deps) as [s ->].
  - unfold add_encompassed. by destruct (forallb _ _).
  - unfold add_superseded. by destruct sup.
  - by destruct (update_starting_lessons_eq g) as (s & m & ->).
Qed.

Lemma type_stable ops1 ops2 u t :
  get_unit_type (grun ops1) u = Some t → get_unit_type (grun (ops1 ++ ops2)) u = Some t.
Proof.
  unfold get_unit_type. rewrite grun_app. generalize (grun ops1). induction ops2 as [|o ops IH]; intros g Hg; simpl.
  - done.
  - apply IH. eapply lookup_weaken; [exact Hg|apply gstep_type_mono].
Qed.

(** Adding a known identifier again is rejected and changes nothing. *)
Lemma readd_rejected g u t c :
  get_unit_type g u = Some t →
  add_course g u = (g, false) ∧ add_lesson g u c = (g, false) ∧ add_exercise g u c = (g, false).
Proof. unfold get_unit_type, add_course, add_lesson, add_exercise. intros ->. done. Qed.

(** * C06 *)
Lemma weights_in_unit ops u e w :
  let g := grun ops in
  encompasses g u e w ∨ is_encompassed_by g u e w → fle fzero w = true ∧ fle w f_1 = true.
Proof.
  intros g. destruct (grun_inv ops) as [D S E N W LC EL LCT ELT DT SELF]. fold g in E, W.
  unfold encompasses, is_encompassed_by, get_encompasses, get_encompassed_by.
  intros [H|H]; case_decide.
  - unfold lists in H. destruct (get_dependencies g u); simpl in H; [|done].
    apply elem_of_list_fmap in H as (d & [= _ ->] & _). apply f_1_unit.
  - apply lists_vget in H. eauto.
  - unfold lists in H. destruct (get_dependents g u); simpl in H; [|done].
    apply elem_of_list_fmap in H as (d & [= _ ->] & _). apply f_1_unit.
  - apply lists_vget in H. apply E in H. eauto.
Qed.
