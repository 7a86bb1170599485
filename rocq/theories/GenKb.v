(** Knowledge base courses. *)
From stdpp Require Import gmap strings list sorting.
From Verif Require Import F32 Graph GraphSpec Library LibrarySpec LoadProofs Generators GenSpec StrFacts GenBase GenLiteracy.
Local Open Scope string_scope.
Local Open Scope list_scope.

Global Instance kb_file_eq_dec : EqDecision kb_file.
Proof. solve_decision. Defined.

(** ** File names *)
Lemma kb_kind_name n f : kb_kind n = Some f → kb_name f = n.
Proof.
  unfold kb_kind. repeat (case_bool_decide as H; [intros [= <-]; by rewrite H|]; clear H).
  repeat (match goal with |- context [strip_suffix ?a ?b] => destruct (strip_suffix a b) as [id|] eqn:E; [apply strip_suffix_spec in E as ->; by intros [= <-]|]; clear E end).
  done.
Qed.
Lemma kb_name_kind f : ¬ kb_shadowed f → kb_kind (kb_name f) = Some f.
Proof.
  intros Hs. destruct f as [| | | | | | | | |id|id|id|id|id]; try reflexivity; cbn [kb_name]; unfold kb_kind.
  all: repeat (rewrite bool_decide_false; [|match goal with |- ?p +:+ ?s ≠ ?t => first [apply (ends_differ p "" s t eq_refl) | intros E; apply Hs; first [apply (sapp_inv_r _ "lesson") in E; subst; by left | apply (sapp_inv_r _ "lesson") in E; subst; by right]] end]).
  all: repeat (rewrite strip_other by reflexivity); by rewrite strip_suffix_app.
Qed.
Lemma kb_shadowed_wrong f : kb_shadowed f → kb_kind (kb_name f) ≠ Some f.
Proof. by intros [-> | ->]. Qed.

(** ** Opening a lesson *)
Section open.
  Context (dir : list (string * content)) (Hd : NoDup dir.*1).
  Lemma kb_entry_file n c f : (n, c) ∈ dir → kb_kind n = Some f → find_file dir (kb_name f) = Some c.
  Proof using Hd. intros Hin Hk. rewrite (kb_kind_name n f Hk). by apply find_file_iff. Qed.
  Definition kafter (es : list (string * content)) (l : kb_lesson) : kb_lesson :=
    KbLesson (default (kl_dependencies l) (find_file es "lesson.dependencies.json" ≫= as_ids))
      (default (kl_encompassed l) (find_file es "lesson.encompassed.json" ≫= as_weights))
      (default (kl_superseded l) (find_file es "lesson.superseded.json" ≫= as_ids))
      (match find_file es "lesson.metadata.json" ≫= as_metadata with Some m => Some m | None => kl_metadata l end)
      (match find_file es "lesson.default_exercise_type.json" ≫= as_type with Some m => Some m | None => kl_default_type l end).
  Lemma kb_skip n c es l : (match kb_kind n with Some KLessonDependencies | Some KLessonEncompassed | Some KLessonSuperseded | Some KLessonMetadata | Some KLessonDefaultExerciseType => false | _ => true end) = true →
    kafter ((n, c) :: es) l = kafter es l.
  Proof using.
    intros H. unfold kafter. cbn [find_file]. rewrite !bool_decide_false; [done| | | | |]; by intros ->.
  Qed.
  Lemma kb_step_spec n c f es l l' : (n, c) ∈ dir → n ∉ es.*1 → kb_kind n = Some f → kb_exercise_of f = None →
    kb_lesson_step dir l f = Some l' → kafter es l' = kafter ((n, c) :: es) l.
  Proof using Hd.
    intros Hc Hn Ek He. pose proof (kb_entry_file n c f Hc Ek) as Ef. pose proof (kb_kind_name n f Ek) as En.
    unfold kb_lesson_step. rewrite Ef. cbn [mbind option_bind].
    destruct f; cbn in He, En; try done; intros H; try (injection H as <-); try (apply fmap_Some in H as (v & Hv & ->)).
    all: try (rewrite kb_skip; [done|by rewrite Ek]).
    all: unfold kafter; cbn [kl_dependencies kl_encompassed kl_superseded kl_metadata kl_default_type find_file]; subst n.
    all: repeat match goal with
        | |- context [bool_decide (?a = ?a)] => rewrite (bool_decide_true (a = a)) by done; rewrite (find_file_none es a) by done; cbn [mbind option_bind default from_option]; rewrite Hv
        | |- context [bool_decide (?a = ?b)] => rewrite (bool_decide_false (a = b)) by done
        end; done.
  Qed.
  Lemma kb_fold_spec es l l' : (∀ x, x ∈ es → x ∈ dir) → NoDup es.*1 →
    try_fold (kb_lesson_step dir) (filter (λ f, kb_exercise_of f = None) (omap kb_kind es.*1)) l = Some l' → l' = kafter es l.
  Proof using Hd.
    revert l. induction es as [|[n c] es IH]; intros l Hin Hn.
    { cbn. intros [= <-]. unfold kafter. cbn. by destruct l. }
    cbn [fmap list_fmap fst] in Hn |- *. apply NoDup_cons in Hn as [Hn1 Hn].
    assert (∀ x, x ∈ es → x ∈ dir) as Hin' by (intros x Hx; apply Hin; by right).
    assert ((n, c) ∈ dir) as Hc by (apply Hin; by left). cbn [omap list_omap].
    destruct (kb_kind n) as [f|] eqn:Ek.
    - destruct (decide (kb_exercise_of f = None)) as [He|He].
      + rewrite filter_cons_True by done. cbn [try_fold]. destruct (kb_lesson_step dir l f) as [l1|] eqn:E1; [|done]. cbn [mbind option_bind].
        intros H. rewrite (IH l1 Hin' Hn H). by apply (kb_step_spec n c f es l l1).
      + rewrite filter_cons_False by done. intros H. rewrite (IH l Hin' Hn H). symmetry. apply kb_skip. rewrite Ek. by destruct f.
    - intros H. rewrite (IH l Hin' Hn H). symmetry. apply kb_skip. by rewrite Ek.
  Qed.
  Lemma kb_files_in f : f ∈ omap kb_kind dir.*1 ↔ ∃ c, (kb_name f, c) ∈ dir ∧ kb_kind (kb_name f) = Some f.
  Proof using.
    rewrite elem_of_list_omap. split.
    - intros (n & ([n' c] & -> & Hin)%elem_of_list_fmap & Hk). cbn in Hk |- *. exists c. by rewrite (kb_kind_name _ _ Hk).
    - intros (c & Hin & Hk). exists (kb_name f). split; [|done]. apply elem_of_list_fmap. by exists (kb_name f, c).
  Qed.
  Lemma kb_exercises_in e : e ∈ kb_exercise_ids (omap kb_kind dir.*1) ↔ kb_has_exercise dir e.
  Proof using.
    unfold kb_exercise_ids, kb_has_exercise. rewrite elem_of_list_filter, elem_of_remove_dups, elem_of_list_omap.
    assert (existsb is_front (files_of (omap kb_kind dir.*1) e) = true ↔ e +:+ ".front.md" ∈ dir.*1) as H.
    { rewrite existsb_exists. unfold files_of. split.
      - intros (f & Hf & Hi). apply elem_of_list_In, elem_of_list_filter in Hf as [He Hf]. destruct f; try done. injection He as ->.
        apply kb_files_in in Hf as (c & Hf & _). apply elem_of_list_fmap. by exists (e +:+ ".front.md", c).
      - intros ([n c] & En & Hin)%elem_of_list_fmap. cbn in En. subst n. exists (KExerciseFront e). split; [|done].
        apply elem_of_list_In, elem_of_list_filter. split; [done|]. apply kb_files_in. exists c. split; [done|].
        apply kb_name_kind. by intros []. }
    rewrite H. split; [by intros [[? ?] _]|]. intros [He Hf]. split; [done|]. apply H in Hf.
    apply existsb_exists in Hf as (f & Hf & _). apply elem_of_list_In in Hf. unfold files_of in Hf. apply elem_of_list_filter in Hf as [? ?]. by exists f.
  Qed.
  (** An exercise. *)
  Definition types_in (e : string) (files : list kb_file) (old : option bool) : option bool :=
    if bool_decide (KExerciseType e ∈ files) then find_file dir (e +:+ ".type.json") ≫= as_type else old.
  Lemma kb_exercise_fold e files x x' : (∀ f, f ∈ files → kb_exercise_of f = Some e) →
    try_fold (kb_exercise_step dir e) files x = Some x' → ke_id x' = ke_id x ∧ ke_back x' = ke_back x ∧ ke_type x' = types_in e files (ke_type x).
  Proof using.
    revert x. induction files as [|f files IH]; intros x Hf; cbn [try_fold].
    { intros [= <-]. done. }
    assert (kb_exercise_of f = Some e) as He by (apply Hf; by left).
    assert (∀ g, g ∈ files → kb_exercise_of g = Some e) as Hf' by (intros g Hg; apply Hf; by right).
    destruct (kb_exercise_step dir e x f) as [y|] eqn:Ey; [|done]. cbn [mbind option_bind]. intros H. destruct (IH y Hf' H) as (E1 & E2 & E3).
    rewrite E1, E2, E3. clear E1 E2 E3 H IH. destruct f; cbn in He; try done; injection He as ->.
    - injection Ey as <-. split_and!; [done|done|]. unfold types_in.
      destruct (decide (KExerciseType e ∈ files)) as [Ht|Ht].
      + rewrite !bool_decide_true; [done|by right|done].
      + rewrite !bool_decide_false; [done| |done]. intros [?|?]%elem_of_cons; done.
    - injection Ey as <-. split_and!; [done|done|]. unfold types_in. destruct (decide (KExerciseType e ∈ files)) as [Ht|Ht].
      + rewrite !bool_decide_true; [done|by right|done].
      + rewrite !bool_decide_false; [done| |done]. intros [?|?]%elem_of_cons; done.
    - cbn in Ey. apply fmap_Some in Ey as (v & _ & ->). split_and!; [done|done|]. unfold types_in. destruct (decide (KExerciseType e ∈ files)) as [Ht|Ht].
      + rewrite !bool_decide_true; [done|by right|done].
      + rewrite !bool_decide_false; [done| |done]. intros [?|?]%elem_of_cons; done.
    - cbn in Ey. apply fmap_Some in Ey as (v & _ & ->). split_and!; [done|done|]. unfold types_in. destruct (decide (KExerciseType e ∈ files)) as [Ht|Ht].
      + rewrite !bool_decide_true; [done|by right|done].
      + rewrite !bool_decide_false; [done| |done]. intros [?|?]%elem_of_cons; done.
    - cbn in Ey. apply fmap_Some in Ey as (v & Hv & ->). cbn [ke_id ke_back ke_type]. split_and!; [done|done|]. unfold types_in.
      rewrite (bool_decide_true (KExerciseType e ∈ KExerciseType e :: files)) by by left.
      destruct (decide (KExerciseType e ∈ files)) as [Ht|Ht].
      + by rewrite bool_decide_true.
      + by rewrite bool_decide_false.
  Qed.
  Lemma kb_created e x : kb_create_exercise dir e (files_of (omap kb_kind dir.*1) e) = Some x →
    ke_id x = e ∧ ke_type x = find_file dir (e +:+ ".type.json") ≫= as_type ∧
    (ke_back x = true ↔ e +:+ ".back.md" ∈ dir.*1).
  Proof using.
    unfold kb_create_exercise. intros H. apply kb_exercise_fold in H as (E1 & E2 & E3).
    2: { intros f Hf. unfold files_of in Hf. by apply elem_of_list_filter in Hf as [? _]. }
    cbn in E1, E2, E3. split; [done|]. split.
    - rewrite E3. unfold types_in. case_bool_decide as Ht; [done|]. rewrite find_file_none; [done|].
      intros ([n c] & En & Hin)%elem_of_list_fmap. cbn in En. subst n. apply Ht. unfold files_of. apply elem_of_list_filter. split; [done|].
      apply kb_files_in. exists c. split; [done|]. apply kb_name_kind. by intros [].
    - rewrite E2, existsb_exists. split.
      + intros (f & Hf & Hb). destruct f; try done. cbn in Hb. apply bool_decide_eq_true in Hb as ->. apply elem_of_list_In in Hf. unfold files_of in Hf.
        apply elem_of_list_filter in Hf as [_ Hf]. apply kb_files_in in Hf as (c & Hf & _). apply elem_of_list_fmap. by exists (e +:+ ".back.md", c).
      + intros ([n c] & En & Hin)%elem_of_list_fmap. cbn in En. subst n. exists (KExerciseBack e). split; [|cbn; by apply bool_decide_eq_true].
        apply elem_of_list_In. unfold files_of. apply elem_of_list_filter. split; [done|]. apply kb_files_in. exists c. split; [done|]. apply kb_name_kind. by intros [].
  Qed.
End open.

Lemma try_map_spec {A B} (f : A → option B) l l' : try_map f l = Some l' → Forall2 (λ a b, f a = Some b) l l'.
Proof.
  revert l'. induction l as [|a l IH]; intros l'; cbn [try_map]; [by intros [= <-]|].
  destruct (f a) as [b|] eqn:E; cbn; [|done]. destruct (try_map f l) as [bs|]; cbn; [|done]. intros [= <-]. constructor; [done|by apply IH].
Qed.
Lemma try_map_in {A B} (f : A → option B) l l' b : try_map f l = Some l' → b ∈ l' ↔ ∃ a, a ∈ l ∧ f a = Some b.
Proof.
  intros H%try_map_spec. split.
  - intros [i Hi]%elem_of_list_lookup. destruct (Forall2_lookup_r _ _ _ _ _ H Hi) as (a & Ha & E). exists a. split; [|done]. by eapply elem_of_list_lookup_2.
  - intros (a & [i Hi]%elem_of_list_lookup & E). destruct (Forall2_lookup_l _ _ _ _ _ H Hi) as (b' & Hb & E'). rewrite E in E'. injection E' as <-.
    by eapply elem_of_list_lookup_2.
Qed.
Lemma try_map_fmap {A B C} (f : A → option B) (g : A → C) (h : B → C) l l' : try_map f l = Some l' →
  (∀ a b, f a = Some b → h b = g a) → h <$> l' = g <$> l.
Proof. intros H%try_map_spec Hg. induction H as [|a b l l' E _ IH]; [done|]. cbn. f_equal; [by apply Hg|done]. Qed.

Lemma kb_opened (ord : list string → list string) dir l es : (∀ x, ord x ≡ₚ x) → NoDup dir.*1 → open_kb_lesson ord dir = Some (l, es) →
  kb_settings dir l ∧ NoDup (ke_id <$> es) ∧ (∀ e, e ∈ ke_id <$> es ↔ kb_has_exercise dir e) ∧
  ∀ x, x ∈ es → ke_type x = find_file dir (ke_id x +:+ ".type.json") ≫= as_type.
Proof.
  intros Ho Hd. unfold open_kb_lesson. destruct (try_fold _ _ _) as [l0|] eqn:El; [|done]. cbn [mbind option_bind].
  destruct (try_map _ _) as [es0|] eqn:Ee; [|done]. cbn. intros [= <- <-].
  apply (kb_fold_spec dir Hd dir) in El; [|done|done].
  assert (ke_id <$> es0 = ord (kb_exercise_ids (omap kb_kind dir.*1))) as Ei.
  { rewrite (try_map_fmap _ Datatypes.id ke_id _ _ Ee); [apply list_fmap_id|]. intros a b Hab. by apply kb_created in Hab as [? _]. }
  split_and!.
  - rewrite El. unfold kb_settings, kafter. cbn. split_and!; try done; by destruct (_ ≫= _).
  - rewrite Ei, Ho. unfold kb_exercise_ids. apply NoDup_filter, NoDup_remove_dups.
  - intros e. rewrite Ei, Ho. apply kb_exercises_in.
  - intros x Hx. rewrite (try_map_in _ _ _ _ Ee) in Hx. destruct Hx as (e & _ & Hx). apply kb_created in Hx as (-> & ? & _). done.
Qed.

(** ** Generated courses *)
Lemma kb_dirs_in dirs s dir : (s, dir) ∈ kb_dirs dirs ↔ kb_lesson_dir dirs s dir.
Proof.
  unfold kb_dirs, kb_lesson_dir. rewrite elem_of_list_omap. split.
  - intros ([n d] & Hin & H). apply fmap_Some in H as (id & E & H). injection H as -> ->. by apply strip_suffix_spec in E as ->.
  - intros Hin. eexists. split; [exact Hin|]. cbn. by rewrite strip_suffix_app.
Qed.
Lemma kb_dirs_NoDup dirs : NoDup dirs.*1 → NoDup (kb_dirs dirs).*1.
Proof.
  induction dirs as [|[n d] dirs IH]; cbn [fmap list_fmap fst]; intros H; [constructor|]. apply NoDup_cons in H as [Hn H]. unfold kb_dirs. cbn [omap list_omap].
  fold (kb_dirs dirs). destruct (strip_suffix ".lesson" n) as [id|] eqn:E; [|by apply IH]. cbn [fmap option_fmap option_map list_fmap fst].
  apply NoDup_cons. split; [|by apply IH]. intros ([s d'] & Es & Hin)%elem_of_list_fmap. cbn in Es. subst s.
  apply Hn. apply kb_dirs_in in Hin. apply elem_of_list_fmap. exists (id +:+ ".lesson", d'). split; [|done]. by apply strip_suffix_spec in E.
Qed.
Lemma full_id_one c ids (inside : uid → Prop) y x : (∀ s, s ∈ ids ↔ inside s) → x = full_id c ids "" y ↔ expanded inside (λ s, id_of c [s]) y x.
Proof.
  intros H. unfold expanded. rewrite <-H. destruct (decide (y ∈ ids)) as [Hy|Hy].
  - rewrite full_id_in by done. rewrite sapp_nil, under_id. naive_solver.
  - rewrite full_id_out by done. naive_solver.
Qed.

Lemma id_of_two c x y : id_of c [x; y] = id_of (id_of c [x]) [y].
Proof. apply (id_of_app c [x] [y]). Qed.

Section generated.
  Context (ord : ∀ A, list (uid * A) → list (uid * A)) (Hord : ∀ A l, ord A l ≡ₚ l).
  Context (orde : list string → list string) (Horde : ∀ x, orde x ≡ₚ x).
  Context (inlined : bool) (dirs : list (string * list (string * content))) (cm : course_manifest) (oc : open_course).
  Context (Hn : NoDup dirs.*1) (Hnn : ∀ n dir, (n, dir) ∈ dirs → NoDup dir.*1).
  Context (Hg : generate_kb ord orde inlined dirs cm = Some oc).
  Lemma kb_generated : oc_manifest oc = cm ∧
    ((λ le, lm_id le.1) <$> oc_lessons oc) ≡ₚ (λ s, id_of (cm_id cm) [s]) <$> (kb_dirs dirs).*1 ∧
    ∀ lm es, (lm, es) ∈ oc_lessons oc → ∃ s dir, kb_lesson_dir dirs s dir ∧ kb_lesson_of (cm_id cm) dirs s dir lm es.
  Proof using All.
    unfold generate_kb in Hg. set (opener := λ dir, pair dir <$> open_kb_lesson orde dir) in Hg.
    destruct (open_all opener (kb_dirs dirs)) as [ls|] eqn:Els; [|done]. cbn [mbind option_bind] in Hg.
    destruct (try_map _ _) as [ms|] eqn:Em; [|done]. injection Hg as <-. cbn [oc_manifest oc_lessons]. split; [done|].
    assert (∀ s, s ∈ ls.*1 ↔ kb_inside dirs s) as Hids.
    { intros s. rewrite (open_all_fst _ _ _ Els), elem_of_list_fmap. unfold kb_inside. split.
      - intros ([s' d] & -> & Hin). exists d. by apply kb_dirs_in.
      - intros (d & Hin). exists (s, d). split; [done|]. by apply kb_dirs_in. }
    split.
    - rewrite (try_map_fmap _ (λ x, id_of (cm_id cm) [x.1]) (λ le, lm_id le.1) _ _ Em).
      + rewrite Hord, <-(open_all_fst _ _ _ Els), <-list_fmap_compose. done.
      + intros [s [d [l es]]] [lm ems] H. cbn in H. destruct (try_map _ es); [|done]. cbn in H. injection H as <- _. cbn. by rewrite under_id.
    - intros lm ems Hin. rewrite (try_map_in _ _ _ _ Em) in Hin. destruct Hin as ([s [d [l es]]] & Hin & H). rewrite Hord in Hin.
      apply (open_all_in _ _ _ _ _ Els) in Hin as (d' & Hd & Ho & _). unfold opener in Ho. apply fmap_Some in Ho as ([l' es'] & Ho & [= <- <- <-]).
      apply kb_dirs_in in Hd. exists s, d. split; [done|]. assert (NoDup d.*1) as Hdd by by eapply Hnn.
      apply kb_opened in Ho as (Hset & Hnd & Hex & Hty); [|done|done].
      cbn in H. destruct (try_map _ es) as [xs|] eqn:Ex; [|done]. cbn in H. injection H as <- <-. unfold kb_lesson_of.
      assert (∀ y x, x = full_id (cm_id cm) ls.*1 "" y ↔ expanded (kb_inside dirs) (λ s, id_of (cm_id cm) [s]) y x) as HE.
      { intros y x. by apply full_id_one. }
      assert (∀ e em, (_ ← (if inlined then kb_inlined d e else Some ()); Some (kb_exercise_manifest (cm_id cm) s (kl_default_type l) e)) = Some em →
        em = kb_exercise_manifest (cm_id cm) s (kl_default_type l) e) as Hem.
      { intros e em He. destruct (if inlined then kb_inlined d e else Some ()); [|done]. by injection He as <-. }
      split_and!.
      + cbn. by rewrite under_id.
      + done.
      + exists l. split; [done|]. unfold kb_lesson_manifest. cbn [lm_dependencies lm_encompassed lm_superseded lm_metadata]. split_and!.
        * intros x. rewrite elem_of_list_fmap. setoid_rewrite HE. naive_solver.
        * intros x w. rewrite elem_of_list_fmap. setoid_rewrite <-HE. split.
          -- intros ([y w'] & [= -> ->] & Hin). by exists y.
          -- intros (y & Hin & ->). by exists (y, w).
        * intros x. rewrite elem_of_list_fmap. setoid_rewrite HE. naive_solver.
        * done.
      + apply (NoDup_fmap_1 em_id). rewrite (try_map_fmap _ (λ e, under (under (cm_id cm) s) (ke_id e)) em_id _ _ Ex).
        * change (λ e, under (under (cm_id cm) s) (ke_id e)) with (under (under (cm_id cm) s) ∘ ke_id). rewrite list_fmap_compose.
          apply NoDup_fmap_2_strong; [|done]. intros x y _ _. apply under_inj_r.
        * intros e em ->%Hem. done.
      + assert (∀ e, e ∈ es → kb_exercise_manifest (cm_id cm) s (kl_default_type l) e =
          ExerciseManifest (id_of (cm_id cm) [s; ke_id e]) (id_of (cm_id cm) [s]) (cm_id cm) (kb_type d (ke_id e))) as Hm.
        { intros e He. unfold kb_exercise_manifest, kb_type. rewrite (Hty e He), <-(proj2 (proj2 (proj2 (proj2 Hset)))).
          rewrite (under_id (cm_id cm) s), id_of_under. done. }
        intros em. rewrite (try_map_in _ _ _ _ Ex). split.
        * intros (e & He & ->%Hem). exists (ke_id e). rewrite <-Hex. split; [by apply elem_of_list_fmap_1|by apply Hm].
        * intros (x & Hx & ->). apply Hex in Hx. apply elem_of_list_fmap in Hx as (e & -> & He). exists e. split; [done|]. rewrite <-Hm by done.
          destruct (try_map_spec _ _ _ Ex) as [|]; [by apply elem_of_nil in He|].
          apply try_map_spec in Ex. apply elem_of_list_lookup in He as [i Hi]. destruct (Forall2_lookup_l _ _ _ _ _ Ex Hi) as (em & _ & E).
          rewrite (Hem e em E) in E. done.
  Qed.
  Lemma kb_course_consistent : consistent oc.
  Proof using All.
    destruct kb_generated as (E & _ & H). intros lm es Hin. destruct (H lm es Hin) as (s & d & _ & H1 & H2 & _ & _ & H3). rewrite E. split; [done|].
    intros em (e & _ & ->)%H3. by rewrite H1.
  Qed.
  Lemma kb_distinct : (∀ s, kb_inside dirs s → colon_free s) → NoDup (course_ids oc).
  Proof using All.
    intros Hc. destruct kb_generated as (E & Hl & H). unfold course_ids. rewrite E. set (C := cm_id cm) in *.
    assert (∀ a x, id_of a [x] = a +:+ ("::" +:+ x)) as S0 by (intros; unfold id_of; cbn [comps]; by rewrite sapp_nil).
    assert (NoDup ((λ le, lm_id le.1) <$> oc_lessons oc)) as HN.
    { rewrite Hl. apply NoDup_fmap_2_strong; [|by apply kb_dirs_NoDup]. intros x y _ _. rewrite !S0. intros Exy%sapp_inv_l. by apply (sapp_inv_l "::") in Exy. }
    (** What an identifier of a lesson looks like. *)
    assert (∀ le z, le ∈ oc_lessons oc → z ∈ lm_id le.1 :: (em_id <$> le.2) → ∃ s t, colon_free s ∧ lm_id le.1 = id_of C [s] ∧ z = id_of C [s] +:+ comps t ∧
      (t = [] ∧ z = lm_id le.1 ∨ ∃ e, t = [e] ∧ z ∈ em_id <$> le.2)) as Hz.
    { intros [lm es] z Hin Hz. destruct (H lm es Hin) as (s & d & Hs & H1 & H2 & _ & _ & H3). assert (colon_free s) as Hsc by (apply Hc; by exists d).
      cbn [fst snd] in Hz. apply elem_of_cons in Hz as [->|Hz].
      - exists s, []. cbn. rewrite sapp_nil. split_and!; [done|done|done|by left].
      - pose proof Hz as Hz'. apply elem_of_list_fmap in Hz as (em & Ez & Hem). destruct (proj1 (H3 em) Hem) as (e & _ & Ee). exists s, [e]. split_and!; [done|done| |right; by exists e].
        rewrite Ez, Ee. cbn [em_id]. by rewrite (id_of_two C s e). }
    assert (∀ s s' t t', colon_free s → colon_free s' → id_of C [s] +:+ comps t = id_of C [s'] +:+ comps t' → s = s' ∧ comps t = comps t') as HI.
    { intros s s' t t' Hs Hs'. rewrite !S0, !sapp_assoc. intros Ez%sapp_inv_l. apply (sapp_inv_l "::") in Ez.
      apply comps_first in Ez; [done|done|done|apply comps_head|apply comps_head]. }
    apply NoDup_cons. split.
    - intros (le & Hin & Hx)%elem_of_mjoin_fmap. destruct (Hz le C Hin Hx) as (s & t & _ & _ & Ez & _).
      apply (f_equal String.length) in Ez. rewrite S0, !slen_app in Ez. cbn in Ez. lia.
    - apply NoDup_mjoin_fmap; [by eapply NoDup_fmap_1| |].
      + intros [lm es] Hin. destruct (H lm es Hin) as (s & d & Hs & H1 & H2 & _ & H4 & H3). cbn [fst snd]. apply NoDup_cons. split.
        * intros (em & Eem & Hem)%elem_of_list_fmap. destruct (proj1 (H3 em) Hem) as (e & _ & ->). cbn in Eem. rewrite H1 in Eem. rewrite (id_of_two C s e) in Eem.
          apply (f_equal String.length) in Eem. rewrite (S0 _ e), !slen_app in Eem. cbn in Eem. lia.
        * apply NoDup_fmap_2_strong; [|done]. intros x y Hx Hy. destruct (proj1 (H3 x) Hx) as (e & _ & ->). destruct (proj1 (H3 y) Hy) as (e' & _ & ->). cbn. rewrite (id_of_two C s e), (id_of_two C s e'), !(S0 (id_of C [s])).
          intros Exy%sapp_inv_l. apply (sapp_inv_l "::") in Exy. by subst.
      + intros le le' z Hin Hin' Hx Hx'. destruct (Hz le z Hin Hx) as (s & t & Hs & E1 & Ez & _). destruct (Hz le' z Hin' Hx') as (s' & t' & Hs' & E1' & Ez' & _).
        rewrite Ez in Ez'. destruct (HI s s' t t' Hs Hs' Ez') as [<- _]. apply (NoDup_fmap_elem (λ le, lm_id le.1) (oc_lessons oc)); [done|done|done|]. cbn. by rewrite E1, E1'.
  Qed.
End generated.

Lemma kb_lessons ord (Hord : ∀ A l, ord A l ≡ₚ l) orde (Horde : ∀ x, orde x ≡ₚ x) inlined dirs cm oc :
  NoDup dirs.*1 → (∀ n dir, (n, dir) ∈ dirs → NoDup dir.*1) → generate_kb ord orde inlined dirs cm = Some oc →
  oc_manifest oc = cm ∧
  (∃ ss, NoDup ss ∧ (∀ s, s ∈ ss ↔ kb_inside dirs s) ∧ ((λ le, lm_id le.1) <$> oc_lessons oc) = (λ s, id_of (cm_id cm) [s]) <$> ss) ∧
  ∀ lm es, (lm, es) ∈ oc_lessons oc → ∃ s dir, kb_lesson_dir dirs s dir ∧ kb_lesson_of (cm_id cm) dirs s dir lm es.
Proof.
  intros Hn Hnn Hg. destruct (kb_generated ord Hord orde Horde inlined dirs cm oc Hn Hnn Hg) as (H1 & H2 & H3). split; [done|]. split; [|done].
  destruct (Permutation_map_inv _ _ H2) as (ss & E & Hp). exists ss. split_and!; [|intros s|by rewrite E].
  - rewrite <- Hp. by apply kb_dirs_NoDup.
  - rewrite <- Hp, elem_of_list_fmap. unfold kb_inside. split.
    + intros ([s' d] & -> & Hin). exists d. by apply kb_dirs_in.
    + intros (d & Hin). exists (s, d). split; [done|]. by apply kb_dirs_in.
Qed.
