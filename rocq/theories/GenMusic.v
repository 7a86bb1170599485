(** Music courses. *)
From stdpp Require Import gmap strings list pretty relations.
From Verif Require Import F32 Graph GraphSpec Library LibrarySpec LoadProofs Generators GenSpec StrFacts GenBase.
Local Open Scope string_scope.
Local Open Scope list_scope.

(** Induction over passages. *)
Lemma passage_ind2 (P : passage → Prop) : (∀ subs, (∀ i q, (i, q) ∈ subs → P q) → P (Passage subs)) → ∀ p, P p.
Proof.
  intros H. fix IH 1. intros [subs]. apply H.
  assert (Forall (λ x, P x.2) subs) as HF.
  { induction subs as [|[j r] subs IHs]; constructor; [apply IH|exact IHs]. }
  clear IH. intros i q Hq. rewrite Forall_forall in HF. apply (HF (i, q) Hq).
Qed.

Lemma concat_comps (x : string) (l : list string) : String.concat "::" (x :: l) = x +:+ comps l.
Proof.
  revert x. induction l as [|y l IH]; intros x; cbn [comps].
  - cbn. by rewrite sapp_nil.
  - change (String.concat "::" (x :: y :: l)) with (x +:+ ("::" +:+ String.concat "::" (y :: l))). by rewrite IH.
Qed.
Lemma music_id_path c i path : music_id c (i :: path) = id_of c (pretty <$> (i :: path)).
Proof. unfold music_id, under, id_of. cbn [fmap list_fmap]. rewrite concat_comps. done. Qed.

Definition start_id (c : uid) (path : list N) : uid := id_of c (pretty <$> path).
(** The lesson for the sub-passage [q] at the full path. *)
Definition lesson_at (c : uid) (path : list N) (q : passage) : lesson_manifest * list exercise_manifest :=
  (LessonManifest (start_id c path) c ((λ i, start_id c (path ++ [i])) <$> sub_indices q) [] [] None,
   [ExerciseManifest (under (start_id c path) "exercise") (start_id c path) c true]).

Lemma helper_eq c i path subs : music_helper c (i :: path) (Passage subs) =
  mjoin ((λ '(j, q), music_helper c ((i :: path) ++ [j]) q) <$> subs) ++ [lesson_at c (i :: path) (Passage subs)].
Proof.
  cbn [music_helper]. f_equal. unfold lesson_at. rewrite music_id_path. cbn [sub_indices].
  assert (((λ '(j, _), music_id c ((i :: path) ++ [j])) <$> subs) = (λ j, start_id c ((i :: path) ++ [j])) <$> subs.*1) as ->; [|done].
  rewrite <-list_fmap_compose. apply list_fmap_ext. intros ? [j q] _. cbn [compose fst]. apply music_id_path.
Qed.
Lemma helper_spec c p : ∀ i path le, le ∈ music_helper c (i :: path) p ↔
  ∃ rest q, sub_at p rest q ∧ le = lesson_at c ((i :: path) ++ rest) q.
Proof.
  induction p as [subs IH] using passage_ind2. intros i path le. rewrite helper_eq, elem_of_app, elem_of_mjoin_fmap, elem_of_list_singleton.
  split.
  - intros [([j q] & Hq & Hle)| ->].
    + apply (IH j q Hq) in Hle as (rest & r & Hr & ->). exists (j :: rest), r. split; [by econstructor|]. cbn [app]. by rewrite <-app_assoc.
    + exists [], (Passage subs). split; [constructor|]. by rewrite app_nil_r.
  - intros (rest & r & Hr & ->). inversion Hr as [|j q ? rest' ? Hq Hr']; subst.
    + right. by rewrite app_nil_r.
    + left. exists (j, q). split; [done|]. apply (IH j q Hq). exists rest', r. split; [done|]. cbn [app]. by rewrite <-app_assoc.
Qed.
Lemma start_passage_id c path : start_id c (0%N :: path) = passage_id c path.
Proof. done. Qed.
Lemma lesson_at_passage c path q : lesson_at c (0%N :: path) q = passage_lesson c path q.
Proof. unfold lesson_at, passage_lesson. done. Qed.

Lemma music_lessons_iff c p le : le ∈ music_lessons c p ↔ ∃ path q, sub_at p path q ∧ le = passage_lesson c path q.
Proof. unfold music_lessons. rewrite helper_spec. done. Qed.

Lemma start_id_inj c path path' : start_id c path = start_id c path' → path = path'.
Proof.
  intros E. apply id_of_inj in E.
  - by apply (inj (fmap pretty)) in E.
  - apply Forall_fmap, Forall_true. intros x. apply pretty_colon.
  - apply Forall_fmap, Forall_true. intros x. apply pretty_colon.
Qed.
Lemma passage_id_inj c path path' : passage_id c path = passage_id c path' → path = path'.
Proof. rewrite <-!start_passage_id. intros E. apply start_id_inj in E. congruence. Qed.
Lemma exercise_not_lesson c path path' : under (start_id c path) "exercise" ≠ start_id c path'.
Proof.
  unfold start_id. rewrite id_of_under. intros E. apply id_of_inj in E.
  - assert (H : "exercise" ∈ (pretty <$> path' : list string)) by (rewrite <-E; apply elem_of_app; right; by apply elem_of_list_singleton).
    apply elem_of_list_fmap in H as (x & H & _). by apply (pretty_word x "exercise").
  - apply Forall_app. split; [apply Forall_fmap, Forall_true; intros x; apply pretty_colon|]. repeat constructor. by apply has_no_colon_spec.
  - apply Forall_fmap, Forall_true. intros x. apply pretty_colon.
Qed.

Definition lesson_ids_of (le : lesson_manifest * list exercise_manifest) : list uid := lm_id le.1 :: (em_id <$> le.2).
Lemma helper_ids_app c path p z : z ∈ mjoin (lesson_ids_of <$> music_helper c (0%N :: path) p) →
  ∃ rest, z = start_id c ((0%N :: path) ++ rest) ∨ z = under (start_id c ((0%N :: path) ++ rest)) "exercise".
Proof.
  intros H. apply elem_of_mjoin_fmap in H as (le & Hle & Hz). apply helper_spec in Hle as (rest & q & _ & ->). exists rest.
  unfold lesson_ids_of, lesson_at in Hz. cbn in Hz. rewrite elem_of_cons, elem_of_list_singleton in Hz. done.
Qed.
Lemma unique_sub i q subs : unique_indices (Passage subs) → (i, q) ∈ subs → unique_indices q.
Proof. intros H Hq path r Hr. apply (H (i :: path)). by econstructor. Qed.
Lemma helper_distinct c p : ∀ path, unique_indices p → NoDup (mjoin (lesson_ids_of <$> music_helper c (0%N :: path) p)).
Proof.
  induction p as [subs IH] using passage_ind2. intros path Hu. rewrite helper_eq, fmap_app, mjoin_app. apply NoDup_app. split_and!.
  - pose proof (Hu [] _ (sub_here _)) as Hn. cbn [sub_indices] in Hn.
    assert (NoDup subs) as Hsubs by by eapply NoDup_fmap_1.
    assert (mjoin (lesson_ids_of <$> mjoin ((λ '(j, q), music_helper c ((0%N :: path) ++ [j]) q) <$> subs)) =
      mjoin ((λ '(j, q), mjoin (lesson_ids_of <$> music_helper c (0%N :: (path ++ [j])) q)) <$> subs)) as ->.
    { clear. induction subs as [|[j q] subs IHs]; [done|]. cbn. rewrite fmap_app, mjoin_app. by f_equal. }
    apply NoDup_mjoin_fmap; [done| |].
    + intros [j q] Hq. apply (IH j q Hq). by eapply unique_sub.
    + intros [j q] [j' q'] z Hq Hq' Hz Hz'.
      assert (j = j') as ->.
      { apply helper_ids_app in Hz as (rest & Hz). apply helper_ids_app in Hz' as (rest' & Hz').
        assert (start_id c ((0%N :: path ++ [j]) ++ rest) = start_id c ((0%N :: path ++ [j']) ++ rest')) as E.
        { destruct Hz as [->| ->], Hz' as [E|E]; [done|by symmetry in E; apply exercise_not_lesson in E|by apply exercise_not_lesson in E|].
          by apply under_inj_l in E. }
        apply start_id_inj in E. cbn in E. injection E as E. rewrite <-!app_assoc in E. apply app_inv_head in E. by injection E. }
      by apply (NoDup_fmap_elem fst subs).
  - intros z Hz Hz'. apply elem_of_mjoin_fmap in Hz as (le & Hle & Hz). apply elem_of_mjoin_fmap in Hle as ([j q] & Hq & Hle).
    apply helper_spec in Hle as (rest & r & _ & ->). unfold lesson_ids_of, lesson_at in Hz, Hz'. cbn in Hz, Hz'.
    rewrite elem_of_cons, elem_of_list_singleton in Hz. rewrite elem_of_cons, elem_of_list_singleton in Hz'.
    assert (start_id c (0%N :: (path ++ [j]) ++ rest) = start_id c (0%N :: path)) as E.
    { destruct Hz as [->| ->], Hz' as [E|E]; [done|by symmetry in E; apply exercise_not_lesson in E|by apply exercise_not_lesson in E|].
      by apply under_inj_l in E. }
    apply start_id_inj in E. injection E as E. rewrite <-app_assoc in E. apply (f_equal length) in E. rewrite !app_length in E. cbn in E. lia.
  - unfold lesson_ids_of, lesson_at. cbn. apply NoDup_cons. split; [|apply NoDup_singleton].
    rewrite elem_of_list_singleton. intros E. symmetry in E. by apply exercise_not_lesson in E.
Qed.
Lemma music_distinct p cm : unique_indices p → NoDup (course_ids (generate_music p cm)).
Proof.
  intros Hu. unfold course_ids, generate_music. cbn [oc_manifest oc_lessons]. apply NoDup_cons. split; [|by apply helper_distinct].
  intros H. apply helper_ids_app in H as (rest & H). change ((0%N :: []) ++ rest) with (0%N :: rest) in H.
  rewrite start_passage_id in H.
  assert (String.length (cm_id cm) < String.length (passage_id (cm_id cm) rest)).
  { unfold passage_id, id_of. rewrite !slen_app. cbn [comps]. rewrite !slen_app. cbn. lia. }
  pose proof (under_longer (passage_id (cm_id cm) rest) "exercise").
  destruct H as [H|H]; apply (f_equal String.length) in H; lia.
Qed.
Lemma music_consistent p cm : consistent (generate_music p cm).
Proof.
  intros lm exs H. apply music_lessons_iff in H as (path & q & _ & [= -> ->]). split; [done|].
  intros em Hem. by apply elem_of_list_singleton in Hem as ->.
Qed.

(** A music course in any library. *)
Lemma passage_dep_longer c path i : String.length (passage_id c path) < String.length (passage_id c (path ++ [i])).
Proof.
  rewrite <-!start_passage_id. unfold start_id. change (0%N :: path ++ [i]) with ((0%N :: path) ++ [i]).
  rewrite fmap_app, id_of_app. cbn [fmap list_fmap]. rewrite <-under_id. apply under_longer.
Qed.
Section music_library.
  Context (before after : list open_course) (cm : course_manifest) (p : passage).
  Local Notation full := (before ++ generate_music p cm :: after).
  Local Notation small := (before ++ bare cm :: after).
  Context (Hd : distinct_ids full).
  Local Notation part u := (∃ path q, sub_at p path q ∧ u = passage_id (cm_id cm) path).
  Lemma music_decl d : d ∈ declared full → d ∈ declared small ∨
    (∃ path q, sub_at p path q ∧ (d = lesson_decl (passage_lesson (cm_id cm) path q).1 ∨ (d_deps d = [] ∧ d_enc d = [] ∧ d_sup d = []))).
  Proof.
    unfold generate_music. rewrite full_decl. intros [H|(lm & exs & H & Hd')]; [by left|right].
    apply music_lessons_iff in H as (path & q & Hs & [= -> ->]). exists path, q. split; [done|].
    destruct Hd' as [->|(em & _ & ->)]; [by left|by right].
  Qed.
  Lemma music_decl_unique d path q : d ∈ declared full → sub_at p path q → d_id d = passage_id (cm_id cm) path →
    d = lesson_decl (passage_lesson (cm_id cm) path q).1.
  Proof using Hd.
    intros H Hs E. apply (NoDup_fmap_elem d_id (declared full)); [exact Hd|done| |done].
    unfold generate_music. apply full_decl. right. exists (passage_lesson (cm_id cm) path q).1, (passage_lesson (cm_id cm) path q).2.
    split; [|by left]. apply music_lessons_iff. exists path, q. done.
  Qed.
  Lemma music_closed d u path q : d ∈ declared full → d_id d = u → sub_at p path q → u = passage_id (cm_id cm) path →
    d_enc d = [] ∧ d_sup d = [] ∧
    ∀ x, x ∈ d_deps d → ∃ i r, sub_at p (path ++ [i]) r ∧ x = passage_id (cm_id cm) (path ++ [i]).
  Proof using Hd.
    intros H E Hs ->. rewrite (music_decl_unique d path q H Hs E). split; [done|]. split; [done|].
    cbn. intros x Hx. apply elem_of_list_fmap in Hx as (i & -> & Hi).
    assert (∃ r, sub_at q [i] r) as [r Hr].
    { destruct q as [subs]. cbn in Hi. apply elem_of_list_fmap in Hi as ([j r] & -> & Hj). exists r. econstructor; [exact Hj|constructor]. }
    exists i, r. split; [|done]. clear - Hs Hr. induction Hs as [|j s subs path q Hj Hs IH]; cbn; [done|]. econstructor; [done|]. by apply IH.
  Qed.
  Lemma part_dec u : part u ∨ ¬ part u.
  Proof using.
    destruct (decide (u ∈ (λ le, lm_id le.1) <$> music_lessons (cm_id cm) p)) as [H|H].
    - left. apply elem_of_list_fmap in H as (le & -> & H). apply music_lessons_iff in H as (path & q & Hs & ->). by exists path, q.
    - right. intros (path & q & Hs & ->). apply H. apply elem_of_list_fmap. exists (passage_lesson (cm_id cm) path q).
      split; [done|]. apply music_lessons_iff. by exists path, q.
  Qed.
  Lemma small_decl d : d ∈ declared small → d ∈ declared full.
  Proof using. intros H. apply full_decl. by left. Qed.
  (** The relations of the whole library, on the passages and elsewhere. *)
  Lemma music_relation (R : decl → uid → Prop) :
    (∀ d x, d_deps d = [] → d_enc d = [] → d_sup d = [] → ¬ R d x) →
    (∀ d x, d_enc d = [] → d_sup d = [] → R d x → x ∈ d_deps d) →
    acyclic (λ u x, ∃ d, d ∈ declared small ∧ d_id d = u ∧ R d x) → acyclic (λ u x, ∃ d, d ∈ declared full ∧ d_id d = u ∧ R d x).
  Proof using Hd.
    intros Hn HR. apply (acyclic_part _ _ (λ u, part u)).
    - intros u v (d & H & E & HRd) (path & q & Hs & Hu).
      destruct (music_closed d u path q H E Hs Hu) as (He & Hsup & Hdeps). destruct (Hdeps v) as (i & r & Hr & ->); [by apply HR|]. by exists (path ++ [i]), r.
    - intros u (path & q & Hs & ->) Ht.
      assert (∀ a b, tc (λ u x, ∃ d, d ∈ declared full ∧ d_id d = u ∧ R d x) a b → part a → String.length a < String.length b) as HL.
      { clear Ht. assert (∀ a b, (∃ d, d ∈ declared full ∧ d_id d = a ∧ R d b) → part a → part b ∧ String.length a < String.length b) as H1.
        { intros a b (d & H & E & HRd) (pa & qa & Ha & Hu).
          destruct (music_closed d a pa qa H E Ha Hu) as (He & Hsup & Hdeps). destruct (Hdeps b) as (i & r & Hr & ->); [by apply HR|].
          split; [by exists (pa ++ [i]), r|]. subst a. rewrite Hu. apply passage_dep_longer. }
        intros a b Ht. induction Ht as [a b Hab|a x b Hax Hxb IH]; intros Ha; [by apply H1|].
        destruct (H1 a x Hax Ha) as [Hx Hl]. specialize (IH Hx). lia. }
      apply HL in Ht; [lia|]. by exists path, q.
    - intros u v (d & H & E & HRd) Hu. exists d. split; [|done]. destruct (music_decl d H) as [?|(path & q & Hs & [->|(? & ? & ?)])]; [done| |].
      + exfalso. apply Hu. exists path, q. split; [done|]. by rewrite <-E.
      + by destruct (Hn d v).
    - apply part_dec.
  Qed.
  Lemma music_opens o : order_ok o → Forall consistent before → Forall consistent after →
    is_Some (open_library o full) ↔ is_Some (open_library o small).
  Proof using Hd.
    intros Ho Hb Ha.
    assert (Forall consistent full) as Hcf.
    { apply Forall_app. split; [done|]. constructor; [apply music_consistent|done]. }
    assert (Forall consistent small) as Hcs.
    { apply Forall_app. split; [done|]. constructor; [|done]. intros lm exs H. by apply elem_of_nil in H. }
    rewrite (open_library_iff o full Ho Hcf), (open_library_iff o small Ho Hcs). split.
    - intros (_ & Hw & Hc1 & Hc2 & Hc3). split_and!.
      + unfold distinct_ids in *. rewrite declared_app, declared_cons in *. rewrite !fmap_app in *.
        apply NoDup_app in Hd as (H1 & H2 & H3). apply NoDup_app in H3 as (H3 & H4 & H5).
        apply NoDup_app. split_and!; [done| |].
        * intros x Hx Hx'. apply (H2 x Hx). rewrite elem_of_app in *. destruct Hx' as [Hx'|?]; [left|by right].
          cbn in Hx'. apply elem_of_list_singleton in Hx' as ->. cbn. by left.
        * apply NoDup_app. split_and!; [apply NoDup_singleton| |done]. intros x Hx. apply H4. cbn in Hx.
          apply elem_of_list_singleton in Hx as ->. cbn. by left.
      + intros d x w Hd'. apply Hw. by apply small_decl.
      + split_and!.
        * eapply acyclic_sub; [|exact Hc1]. intros u v (d & H & ?). exists d. split; [by apply small_decl|done].
        * eapply acyclic_sub; [|exact Hc2]. intros u v (d & H & ?). exists d. split; [by apply small_decl|done].
        * eapply acyclic_sub; [|exact Hc3]. intros u v (w & d & H & ?). exists w, d. split; [by apply small_decl|done].
    - intros (_ & Hw & Hc1 & Hc2 & Hc3). split_and!; [done| |].
      + intros d x w H Hx. destruct (music_decl d H) as [?|(path & q & Hs & [->|(? & He & ?)])]; [by eapply Hw| |].
        * cbn in Hx. by apply elem_of_nil in Hx.
        * rewrite He in Hx. by apply elem_of_nil in Hx.
      + split_and!.
        * eapply (music_relation (λ d x, x ∈ d_deps d)); [|done|exact Hc1]. intros d x -> _ _. apply not_elem_of_nil.
        * eapply (music_relation (λ d x, x ∈ d_sup d)); [| |exact Hc2].
          -- intros d x _ _ ->. apply not_elem_of_nil.
          -- intros d x _ ->. intros Hx. by apply elem_of_nil in Hx.
        * pose (R d x := ∃ w, (x, w) ∈ d_enc d ∨ (w = f_1 ∧ x ∈ d_deps d ∧ ∀ w', (x, w') ∉ d_enc d)).
          eapply acyclic_sub; [|apply (music_relation R)].
          -- intros u v (w & d & H & E & H'). exists d. split; [done|]. split; [done|]. by exists w.
          -- unfold R. intros d x -> -> _ (w & [Hx|(_ & Hx & _)]); by apply elem_of_nil in Hx.
          -- unfold R. intros d x -> _ (w & [Hx|(_ & Hx & _)]); [by apply elem_of_nil in Hx|done].
          -- eapply acyclic_sub; [|exact Hc3]. intros u v (d & H & E & w & H'). exists w, d. done.
  Qed.
End music_library.

Lemma music_depends_within c p lm es x : (lm, es) ∈ music_lessons c p → x ∈ lm_dependencies lm → ∃ lm' es', (lm', es') ∈ music_lessons c p ∧ lm_id lm' = x.
Proof.
  intros Hin Hx. apply music_lessons_iff in Hin as (path & q & Hs & [= -> ->]). cbn in Hx. apply elem_of_list_fmap in Hx as (i & -> & Hi).
  destruct q as [subs]. cbn in Hi. apply elem_of_list_fmap in Hi as ([j r] & -> & Hr).
  exists (passage_lesson c (path ++ [j]) r).1, (passage_lesson c (path ++ [j]) r).2. split; [|done]. apply music_lessons_iff. exists (path ++ [j]), r. split; [|done].
  clear -Hs Hr. remember (Passage subs) as q eqn:E. induction Hs; [subst; econstructor; [done|constructor]|]. cbn. econstructor; [done|]. by apply IHHs.
Qed.
