(** What the builders of knowledge bases leave on the disk. *)
From stdpp Require Import gmap strings list.
From Verif Require Import F32 F32Real Library Generators GenSpec StrFacts GenBase GenKb FileSystem FileSpec FileProofs ConfigProofs BuildProofs KbBuilder KbSpec.
Local Open Scope string_scope.
Local Open Scope list_scope.

Notation writes := (list (list string * string)) (only parsing).

(** ** Writing in a directory that exists *)
Definition inside (dir : list string) (f : files) : Prop := ∀ q, q `prefix_of` dir → f !! q = Some Dir.
Definition writes_in (dir : list string) (ws : writes) (m : io ()) : Prop :=
  ∀ n f a n' f', inside dir f → m n f = Over a n' f' → wrote ws f f' ∧ inside dir f'.
Lemma wi_give dir : writes_in dir [] (give ()).
Proof. intros n f a n' f' Hi [= _ _ <-]. split; [apply wrote_nil|done]. Qed.
Lemma wi_then dir ws1 ws2 m1 m2 : writes_in dir ws1 m1 → writes_in dir ws2 m2 → writes_in dir (ws1 ++ ws2) (m1 >>> m2).
Proof.
  intros H1 H2 n f a n' f' Hi H. apply bind_over in H as (a1 & n1 & f1 & E1 & E2). destruct (H1 _ _ _ _ _ Hi E1) as [W1 I1].
  destruct (H2 _ _ _ _ _ I1 E2) as [W2 I2]. split; [eapply wrote_app; done|done].
Qed.
Lemma wi_each {A : Type} dir (F : A → writes) (k : A → io ()) l : (∀ x, writes_in dir (F x) (k x)) → writes_in dir (mjoin (F <$> l)) (each k l).
Proof.
  intros H. induction l as [|x l IH]; [apply wi_give|]. cbn [each]. rewrite fmap_cons. change (mjoin (F x :: (F <$> l))) with (F x ++ mjoin (F <$> l)).
  apply wi_then; [apply H|apply IH].
Qed.
Lemma wrote_inside dir ws f f' : inside dir f → wrote ws f f' → (∀ w, w ∈ ws → ¬ w.1 `prefix_of` dir) → inside dir f'.
Proof.
  intros Hi Hw Hn q Hq. rewrite Hw. unfold after_writing. rewrite (proj2 (last_at_none q ws)), (Hi q Hq); [done|].
  intros w Hw' E. apply (Hn w Hw'). rewrite E. done.
Qed.
Lemma not_back (dir r : list string) : r ≠ [] → ¬ dir ++ r `prefix_of` dir.
Proof. intros H [s E]. apply (f_equal length) in E. rewrite !app_length in E. destruct r; [done|]. cbn in E. lia. Qed.
Lemma wi_file dir x s : writes_in dir [(dir ++ [x], s)] (write_file (dir ++ [x]) s).
Proof.
  intros n f a n' f' Hi H. apply write_file_over in H as (-> & _).
  assert (wrote [(dir ++ [x], s)] f (<[dir ++ [x] := File s]> f)) as W.
  { apply wrote_one; [apply snoc_nonempty|]. rewrite parent_snoc. intros q. destruct (f !! q) eqn:E; [done|].
    rewrite decide_False; [done|]. intros Hq. rewrite (Hi q Hq) in E. discriminate. }
  split; [done|]. eapply wrote_inside; [done..|]. intros w ->%elem_of_list_singleton. apply not_back. discriminate.
Qed.
Lemma wi_some dir x o : writes_in dir (some_file (dir ++ [x]) o) (write_some (dir ++ [x]) o).
Proof. destruct o as [s|]; [apply wi_file|apply wi_give]. Qed.
Lemma asset_named dir a n f b n' f' : build_asset dir a n f = Over b n' f' → ab_name a ≠ [].
Proof.
  intros H E. apply bind_over in H as (a1 & n1 & f1 & H1 & H). apply create_dir_all_over in H1 as [_ D].
  apply bind_over in H as (a2 & n2 & f2 & H2 & _). apply require_over in H2 as (H2 & _). rewrite E, app_nil_r in H2.
  unfold path_exists in H2. rewrite D in H2 by done. discriminate.
Qed.
Lemma wi_asset dir a : writes_in dir [asset_file dir a] (build_asset dir a).
Proof.
  intros n f b n' f' Hi H. pose proof (asset_named _ _ _ _ _ _ _ H) as Hn. apply (proj1 (builds_asset dir a)) in H. split; [done|].
  eapply wrote_inside; [done..|]. intros w ->%elem_of_list_singleton. apply not_back. done.
Qed.
Lemma wi_assets dir l : writes_in dir (asset_file dir <$> l) (each (build_asset dir) l).
Proof. rewrite <- assets_join. apply (wi_each dir (λ a, [asset_file dir a])). intros a. apply wi_asset. Qed.
Lemma wi_exercise w dir b : writes_in dir (kb_exercise_files w dir b) (build_kb_exercise w dir b).
Proof. unfold kb_exercise_files, build_kb_exercise. repeat (apply wi_then; [first [apply wi_assets|apply wi_some]|]). apply wi_some. Qed.

(** ** A lesson *)
Definition lesson_built (w : writers) (f : files) (dir : list string) (l : kb_lesson_builder) : Prop :=
  f !! dir = Some Dir ∧ ∀ r, r ≠ [] → f !! (dir ++ r) = after_writing (kb_lesson_files w dir l) ∅ (dir ++ r).
Lemma lesson_inside w dir l f1 n a n' f' : inside dir f1 → (each (build_asset dir) (yb_assets l) >>>
  each (build_kb_exercise w dir) (yb_exercises l) >>>
  write_some (dir ++ ["lesson.name.json"]) (w_name w <$> yb_name l) >>>
  write_some (dir ++ ["lesson.description.json"]) (w_name w <$> yb_description l) >>>
  write_some (dir ++ ["lesson.dependencies.json"]) (unless_empty (w_ids w) (yb_dependencies l)) >>>
  write_some (dir ++ ["lesson.superseded.json"]) (unless_empty (w_ids w) (yb_superseded l)) >>>
  write_some (dir ++ ["lesson.encompassed.json"]) (unless_empty (w_weights w) (yb_encompassed l)) >>>
  write_some (dir ++ ["lesson.metadata.json"]) (w_metadata w <$> yb_metadata l) >>>
  write_some (dir ++ ["lesson.default_exercise_type.json"]) (w_type w <$> yb_type l)) n f1 = Over a n' f' →
  wrote (kb_lesson_files w dir l) f1 f' ∧ inside dir f'.
Proof.
  revert n f1 a n' f'. change (writes_in dir (kb_lesson_files w dir l) (each (build_asset dir) (yb_assets l) >>>
    each (build_kb_exercise w dir) (yb_exercises l) >>>
    write_some (dir ++ ["lesson.name.json"]) (w_name w <$> yb_name l) >>>
    write_some (dir ++ ["lesson.description.json"]) (w_name w <$> yb_description l) >>>
    write_some (dir ++ ["lesson.dependencies.json"]) (unless_empty (w_ids w) (yb_dependencies l)) >>>
    write_some (dir ++ ["lesson.superseded.json"]) (unless_empty (w_ids w) (yb_superseded l)) >>>
    write_some (dir ++ ["lesson.encompassed.json"]) (unless_empty (w_weights w) (yb_encompassed l)) >>>
    write_some (dir ++ ["lesson.metadata.json"]) (w_metadata w <$> yb_metadata l) >>>
    write_some (dir ++ ["lesson.default_exercise_type.json"]) (w_type w <$> yb_type l))).
  unfold kb_lesson_files. apply wi_then; [apply wi_assets|]. apply wi_then; [apply wi_each; intros e; apply wi_exercise|].
  repeat (apply wi_then; [apply wi_some|]). apply wi_some.
Qed.
(** All files of a lesson are below its directory. *)
Lemma in_join {A : Type} (F : A → writes) l w : w ∈ mjoin (F <$> l) ↔ ∃ x, x ∈ l ∧ w ∈ F x.
Proof.
  rewrite elem_of_list_join. split.
  - intros (ws & Hw & (x & -> & Hx)%elem_of_list_fmap). eauto.
  - intros (x & Hx & Hw). exists (F x). split; [done|]. apply elem_of_list_fmap. eauto.
Qed.
Lemma some_in p o v : v ∈ some_file p o ↔ ∃ s, o = Some s ∧ v = (p, s).
Proof. destruct o as [s|]; cbn; [rewrite elem_of_list_singleton|rewrite elem_of_nil]; naive_solver. Qed.
Lemma lesson_below w dir l v : v ∈ kb_lesson_files w dir l → dir `prefix_of` v.1.
Proof.
  assert (∀ a, dir `prefix_of` (asset_file dir a).1) as HA by (intros a; exists (ab_name a); done).
  unfold kb_lesson_files. rewrite !elem_of_app, in_join, !some_in, elem_of_list_fmap.
  intros [(a & -> & _)|[(e & _ & He)|H]]; [apply HA| |].
  - unfold kb_exercise_files in He. rewrite !elem_of_app, !some_in, elem_of_list_fmap in He.
    destruct He as [(a & -> & _)|He]; [apply HA|]. repeat destruct He as [He|He]; destruct He as (s & _ & ->); cbn [fst]; eexists; reflexivity.
  - repeat destruct H as [H|H]; destruct H as (s & _ & ->); cbn [fst]; eexists; reflexivity.
Qed.
Lemma kb_lesson_over w dir l n f a n' f' : (∀ r, r ≠ [] → f !! (dir ++ r) = None) → build_kb_lesson w dir l n f = Over a n' f' →
  lesson_built w f' dir l ∧ ∀ p, ¬ dir `prefix_of` p → f' !! p = f !! p ∨ (f !! p = None ∧ f' !! p = Some Dir ∧ p `prefix_of` dir).
Proof.
  intros Hn H. apply bind_over in H as (a1 & n1 & f1 & H1 & H2). apply create_dir_all_over in H1 as [D1 D2].
  apply lesson_inside in H2 as [W I]; [|exact D2]. split; [split; [apply I; done|]|].
  - intros r Hr. rewrite W. unfold after_writing. destruct (last_at _ _); [done|]. rewrite D1, (Hn r Hr).
    rewrite decide_False by (apply not_back; done). rewrite lookup_empty. done.
  - intros p Hp. rewrite W. unfold after_writing. rewrite (proj2 (last_at_none p _)).
    2: { intros v Hv E. apply Hp. rewrite <- E. eapply lesson_below. exact Hv. }
    rewrite D1. destruct (f !! p); [auto|]. case_decide as Hd; [auto|]. case_decide as He; [|auto]. exfalso.
    apply Exists_exists in He as (v & Hv & [Ha _]). pose proof (lesson_below _ _ _ _ Hv) as Hb.
    destruct (prefix_weak_total _ _ _ Ha Hb); done.
Qed.
Lemma rebuilt_over w root l n f a n' f' : let dir := kb_lesson_path root (yb_id l) in
  (f !! dir = None → ∀ r, f !! (dir ++ r) = None) → rebuild_lesson w root l n f = Over a n' f' →
  lesson_built w f' dir l ∧ ∀ p, ¬ dir `prefix_of` p → f' !! p = f !! p ∨ (f !! p = None ∧ f' !! p = Some Dir ∧ p `prefix_of` dir).
Proof.
  cbv zeta. set (dir := kb_lesson_path root (yb_id l)). intros Hn H. apply bind_over in H as (a1 & n1 & f1 & H1 & H2). fold dir in H1, H2.
  apply bind_over in H1 as (b & n2 & f2 & H0 & H1). apply look_over in H0 as (-> & -> & ->). unfold path_exists in H1. destruct (f !! dir) as [x|] eqn:Ed.
  - apply step_over in H1. unfold remove_tree in H1. destruct (is_dir f dir); [|discriminate]. injection H1 as <-.
    assert (∀ p, ¬ dir `prefix_of` p → filter (λ x : list string * node, ¬ dir `prefix_of` x.1) f !! p = f !! p) as Hout.
    { intros p Hp. apply option_eq. intros y. rewrite map_filter_lookup_Some. cbn. tauto. }
    apply kb_lesson_over in H2 as [H2 H3].
    + split; [done|]. intros p Hp. rewrite <- (Hout p Hp). apply H3. done.
    + intros r _. apply map_filter_lookup_None. right. intros y _. cbn. intros Hx. apply Hx. exists r. done.
  - injection H1 as _ _ <-. apply kb_lesson_over in H2; [done|]. intros r _. apply Hn. done.
Qed.

(** ** All lessons *)
Lemma lesson_paths root s s' : kb_lesson_path root s `prefix_of` kb_lesson_path root s' → s = s'.
Proof.
  unfold kb_lesson_path. intros [r E]. rewrite <- app_assoc in E. apply app_inv_head in E. cbn in E. injection E as E _. apply sapp_inv_r in E. done.
Qed.
Lemma lesson_paths_below root s s' r : kb_lesson_path root s `prefix_of` kb_lesson_path root s' ++ r → s = s'.
Proof.
  unfold kb_lesson_path. intros [q E]. rewrite <- !app_assoc in E. apply app_inv_head in E. cbn in E. injection E as E _. apply sapp_inv_r in E. done.
Qed.
Lemma above_lesson root s p : p `prefix_of` kb_lesson_path root s → p `prefix_of` root ∨ p = kb_lesson_path root s.
Proof.
  unfold kb_lesson_path. intros [r E]. destruct r as [|x r _] using rev_ind; [right; rewrite app_nil_r in E; done|].
  rewrite app_assoc in E. apply app_inj_tail in E as [-> _]. left. exists r. done.
Qed.
Section lessons.
  Context (w : writers) (root : list string) (k : kb_lesson_builder → io ()) (Q : (list string → option node) → Prop).
  Context (HQ : ∀ g h, (∀ r, g r = h r) → Q g → Q h).
  Context (Hk : ∀ l n f a n' f', Q (λ r, f !! (kb_lesson_path root (yb_id l) ++ r)) → k l n f = Over a n' f' →
    lesson_built w f' (kb_lesson_path root (yb_id l)) l ∧
    ∀ p, ¬ kb_lesson_path root (yb_id l) `prefix_of` p → f' !! p = f !! p ∨ (f !! p = None ∧ f' !! p = Some Dir ∧ p `prefix_of` kb_lesson_path root (yb_id l))).
  Lemma lessons_over ls n f a n' f' : NoDup (yb_id <$> ls) → (∀ l, l ∈ ls → Q (λ r, f !! (kb_lesson_path root (yb_id l) ++ r))) →
    each k ls n f = Over a n' f' →
    (∀ l, l ∈ ls → lesson_built w f' (kb_lesson_path root (yb_id l)) l) ∧
    ∀ p, ¬ p `prefix_of` root → (∀ l, l ∈ ls → ¬ kb_lesson_path root (yb_id l) `prefix_of` p) → f' !! p = f !! p.
  Proof using HQ Hk.
    revert n f. induction ls as [|l ls IH]; intros n f Hnd Hq H.
    { injection H as _ _ <-. split; [intros l Hl; by apply elem_of_nil in Hl|done]. }
    cbn [each] in H. apply bind_over in H as (a1 & n1 & f1 & H1 & H2). rewrite fmap_cons in Hnd. apply NoDup_cons in Hnd as [Hni Hnd].
    apply Hk in H1 as [B1 O1]; [|apply Hq; left].
    assert (∀ p, ¬ p `prefix_of` root → ¬ kb_lesson_path root (yb_id l) `prefix_of` p → f1 !! p = f !! p) as O1'.
    { intros p Hp1 Hp2. destruct (O1 p Hp2) as [E|(_ & _ & E)]; [done|]. apply above_lesson in E as [E|E]; [done|]. rewrite E in Hp2. exfalso. by apply Hp2. }
    assert (∀ s r, ¬ kb_lesson_path root s ++ r `prefix_of` root) as Hnp.
    { intros s r. unfold kb_lesson_path. rewrite <- app_assoc. apply not_back. discriminate. }
    assert (∀ l', l' ∈ ls → yb_id l' ≠ yb_id l) as Hne.
    { intros l' Hl' E. apply Hni. rewrite <- E. apply elem_of_list_fmap_1. done. }
    apply IH in H2 as [B2 O2]; [|done|].
    2: { intros l' Hl'. eapply HQ; [|apply Hq; right; exact Hl']. intros r. symmetry. apply O1'; [apply Hnp|]. intros E. apply (Hne l' Hl'). symmetry. eapply lesson_paths_below. exact E. }
    assert (∀ r, f' !! (kb_lesson_path root (yb_id l) ++ r) = f1 !! (kb_lesson_path root (yb_id l) ++ r)) as Hsame.
    { intros r. apply O2; [apply Hnp|]. intros l' Hl' E. apply (Hne l' Hl'). eapply lesson_paths_below. exact E. }
    split.
    - intros l' [->|Hl']%elem_of_cons; [|by apply B2]. destruct B1 as [B1 B1']. split.
      + specialize (Hsame []). rewrite app_nil_r in Hsame. rewrite Hsame. done.
      + intros r Hr. rewrite Hsame. by apply B1'.
    - intros p Hp Hl. rewrite O2; [|done|intros l' Hl'; apply Hl; by right]. apply O1'; [done|]. apply Hl. left.
  Qed.
End lessons.

(** ** Courses *)
(** The lessons are on the disk, and there are no other lesson directories. *)
Definition course_on_disk (w : writers) (f : files) (root : list string) (ls : list kb_lesson_builder) : Prop :=
  (∀ l, l ∈ ls → lesson_built w f (kb_lesson_path root (yb_id l)) l) ∧
  ∀ s, f !! kb_lesson_path root s = Some Dir → s ∈ yb_id <$> ls.
Lemma manifest_apart root s : ¬ kb_lesson_path root s `prefix_of` root ++ ["course_manifest.json"].
Proof.
  unfold kb_lesson_path. intros [r E]. rewrite <- app_assoc in E. apply app_inv_head in E. cbn in E. injection E as E _. symmetry in E.
  revert E. apply (ends_differ s "" ".lesson" "course_manifest.json" eq_refl).
Qed.
Lemma lesson_built_insert w f dir l p x : ¬ dir `prefix_of` p → lesson_built w f dir l → lesson_built w (<[p := x]> f) dir l.
Proof.
  intros Hp [H1 H2]. split; [|intros r Hr]; rewrite lookup_insert_ne.
  - done.
  - intros ->. apply Hp. done.
  - by apply H2.
  - intros ->. apply Hp. exists r. done.
Qed.
Lemma manifest_written w f root ls text : course_on_disk w f root ls → course_on_disk w (<[root ++ ["course_manifest.json"] := File text]> f) root ls.
Proof.
  intros [H1 H2]. split.
  - intros l Hl. apply lesson_built_insert; [apply manifest_apart|]. by apply H1.
  - intros s. destruct (decide (kb_lesson_path root s = root ++ ["course_manifest.json"])) as [E|E]; [exfalso; eapply manifest_apart; rewrite <- E; done|].
    rewrite lookup_insert_ne by done. apply H2.
Qed.
Lemma kb_course_over w above b n f a n' f' : tree f → tidy_course b → build_kb_course w above b n f = Over a n' f' →
  course_on_disk w f' (above ++ [zb_dir b]) (zb_lessons b) ∧
  f' !! (above ++ [zb_dir b; "course_manifest.json"]) = Some (File (w_course w (zb_manifest b) +:+ newline)).
Proof.
  intros Ht (Hnd & _ & Has) H. unfold build_kb_course in H. cbv zeta in H. replace (above ++ [zb_dir b; "course_manifest.json"]) with ((above ++ [zb_dir b]) ++ ["course_manifest.json"]) by (rewrite <- app_assoc; done).
  revert H. generalize (above ++ [zb_dir b]). intros root H.
  apply bind_over in H as (a1 & n1 & f1 & H1 & H). apply require_over in H1 as (H1 & -> & ->).
  apply bind_over in H as (a2 & n2 & f2 & H2 & H). apply create_dir_all_over in H2 as [D1 D2].
  assert (f !! root = None) as Hr.
  { specialize (D1 root). rewrite (D2 root) in D1 by done. unfold is_dir in H1. destruct (f !! root) as [[|t]|]; [discriminate..|done]. }
  apply bind_over in H as (a3 & n3 & f3 & H3 & H). apply wi_assets in H3 as [W3 I3]; [|exact D2].
  assert (∀ s r, f3 !! (kb_lesson_path root s ++ r) = None) as Hnone.
  { intros s r. assert (∀ v, v ∈ asset_file root <$> zb_assets b → ¬ kb_lesson_path root s `prefix_of` v.1) as Hv.
    { intros v (x & -> & Hx)%elem_of_list_fmap [q E]. cbn [asset_file fst] in E. unfold kb_lesson_path in E. rewrite <- app_assoc in E. apply app_inv_head in E.
      cbn in E. eapply (Has x _ _ s Hx E). reflexivity. }
    rewrite W3. unfold after_writing. rewrite (proj2 (last_at_none _ _)).
    2: { intros v Hin E. apply (Hv v Hin). rewrite E. exists r. done. }
    rewrite D1. rewrite (tree_none f root (kb_lesson_path root s ++ r) Ht); [| |done].
    2: { unfold kb_lesson_path. rewrite <- app_assoc. eexists. reflexivity. }
    rewrite decide_False by (unfold kb_lesson_path; rewrite <- app_assoc; apply not_back; discriminate).
    rewrite decide_False; [done|]. rewrite Exists_exists. intros (v & Hin & [Ha _]). apply (Hv v Hin). etrans; [|exact Ha]. exists r. done. }
  apply bind_over in H as (a4 & n4 & f4 & H4 & H).
  apply (lessons_over w root _ (λ g, ∀ r, g r = None)) in H4 as [B4 O4].
  - apply write_file_over in H as (-> & _). split; [|rewrite lookup_insert; done]. apply manifest_written. split; [exact B4|].
    intros s Hs. destruct (decide (s ∈ yb_id <$> zb_lessons b)) as [Hin|Hin]; [done|]. exfalso. rewrite O4 in Hs.
    + specialize (Hnone s []). rewrite app_nil_r in Hnone. rewrite Hnone in Hs. discriminate.
    + unfold kb_lesson_path. apply not_back. discriminate.
    + intros l Hl E. apply Hin. rewrite <- (lesson_paths _ _ _ E). apply elem_of_list_fmap_1. done.
  - intros g h E Hg r. rewrite <- E. apply Hg.
  - intros l m g x m' g' Hq Hrun. eapply kb_lesson_over; [|exact Hrun]. intros r _. apply Hq.
  - exact Hnd.
  - intros l _ r. apply Hnone.
Qed.
(** The identifiers of the lessons of a simple course. *)
Lemma simple_builders c ls : try_map simple_lesson_builder (sc_lessons c) = Some ls → yb_id <$> ls = sl_id <$> sc_lessons c.
Proof.
  intros H. rewrite (try_map_fmap _ sl_id yb_id _ _ H); [done|]. intros l b E. unfold simple_lesson_builder in E.
  case_bool_decide; [discriminate|]. destruct (negb _); [discriminate|]. destruct (try_map simple_exercise_builder (sl_exercises l)); [|discriminate]. cbn [mbind option_bind] in E. injection E as <-. done.
Qed.
Definition settled (root : list string) (f : files) : Prop := ∀ s, f !! kb_lesson_path root s = None → ∀ r, f !! (kb_lesson_path root s ++ r) = None.
Lemma tree_settled root f : tree f → settled root f.
Proof. intros Ht s H r. eapply tree_none; [done| |exact H]. exists r. done. Qed.
Lemma simple_over w root c n f a n' f' : settled root f → build_simple w root c n f = Over a n' f' → ∃ ls,
  try_map simple_lesson_builder (sc_lessons c) = Some ls ∧ NoDup (yb_id <$> ls) ∧
  (∀ l, l ∈ ls → lesson_built w f' (kb_lesson_path root (yb_id l)) l) ∧
  (∀ p, ¬ p `prefix_of` root → (∀ l, l ∈ ls → ¬ kb_lesson_path root (yb_id l) `prefix_of` p) → p ≠ root ++ ["course_manifest.json"] → f' !! p = f !! p) ∧
  f' !! root = Some Dir ∧
  f' !! (root ++ ["course_manifest.json"]) = Some (File (w_course w (simple_manifest c))).
Proof.
  intros Ht H. unfold build_simple in H. destruct (negb _) eqn:En; [discriminate|]. apply negb_false_iff, bool_decide_eq_true in En.
  destruct (try_map simple_lesson_builder (sc_lessons c)) as [ls|] eqn:El; [|discriminate]. exists ls. split; [done|].
  assert (NoDup (yb_id <$> ls)) as Hnd by (rewrite (simple_builders c ls El); done). split; [done|].
  apply bind_over in H as (a1 & n1 & f1 & H1 & H2).
  apply (lessons_over w root _ (λ g, g [] = None → ∀ r, g r = None)) in H1 as [B1 O1].
  - apply write_file_over in H2 as (-> & Hpar & _). rewrite parent_snoc in Hpar. split; [|split; [|split; [|rewrite lookup_insert; done]]].
    + intros l Hl. apply lesson_built_insert; [apply manifest_apart|]. by apply B1.
    + intros p H1 H3 H4. rewrite lookup_insert_ne by done. by apply O1.
    + rewrite lookup_insert_ne; [done|]. intros E. apply (not_back root ["course_manifest.json"]); [discriminate|]. rewrite E. done.
  - intros g h E Hg H0 r. rewrite <- E. apply Hg. rewrite E. done.
  - intros l m g x m' g' Hq Hrun. eapply rebuilt_over; [|exact Hrun]. intros H0. apply Hq. rewrite app_nil_r. done.
  - exact Hnd.
  - intros l _. rewrite app_nil_r. apply Ht.
Qed.
