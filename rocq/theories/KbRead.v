(** What the generator makes of a knowledge base written by a builder. *)
From stdpp Require Import gmap strings list sorting.
From Verif Require Import F32 F32Real Graph Library Generators GenSpec StrFacts GenBase GenLiteracy GenKb FileSystem FileSpec FileProofs BuildProofs KbBuilder KbSpec KbOpens KbDisk.
Local Open Scope string_scope.
Local Open Scope list_scope.

(** ** The files of a lesson by name *)
Section names.
  Context (w : writers) (dir : list string) (l : kb_lesson_builder) (Ht : tidy_lesson l).
  Definition expected (k : kb_file) (s : string) : Prop :=
    match k with
    | KLessonName => ∃ x, yb_name l = Some x ∧ s = w_name w x
    | KLessonDescription => ∃ x, yb_description l = Some x ∧ s = w_name w x
    | KLessonDependencies => yb_dependencies l ≠ [] ∧ s = w_ids w (yb_dependencies l)
    | KLessonSuperseded => yb_superseded l ≠ [] ∧ s = w_ids w (yb_superseded l)
    | KLessonEncompassed => yb_encompassed l ≠ [] ∧ s = w_weights w (yb_encompassed l)
    | KLessonMetadata => ∃ x, yb_metadata l = Some x ∧ s = w_metadata w x
    | KLessonInstructions | KLessonMaterial => True
    | KLessonDefaultExerciseType => ∃ x, yb_type l = Some x ∧ s = w_type w x
    | KExerciseFront e | KExerciseBack e => ∃ b, b ∈ yb_exercises l ∧ xb_id b = e
    | KExerciseName e => ∃ b x, b ∈ yb_exercises l ∧ xb_id b = e ∧ xb_name b = Some x ∧ s = w_name w x
    | KExerciseDescription e => ∃ b x, b ∈ yb_exercises l ∧ xb_id b = e ∧ xb_description b = Some x ∧ s = w_name w x
    | KExerciseType e => ∃ b x, b ∈ yb_exercises l ∧ xb_id b = e ∧ xb_type b = Some x ∧ s = w_type w x
    end.
  (** Either a direct file with a meaning, or the first name is plain. *)
  Lemma files_known p s : (p, s) ∈ kb_lesson_files w dir l → ∃ n rest, p = dir ++ n :: rest ∧
    (plain_name n ∨ rest = [] ∧ ∃ k, kb_kind n = Some k ∧ expected k s).
  Proof using Ht.
    destruct Ht as (_ & Hex & Has & _). unfold kb_lesson_files. rewrite !elem_of_app, in_join, !some_in, elem_of_list_fmap.
    assert (∀ a, plain_asset a → (p, s) = asset_file dir a → ∃ n rest, p = dir ++ n :: rest ∧ (plain_name n ∨ rest = [] ∧ ∃ k, kb_kind n = Some k ∧ expected k s)) as Hplain.
    { intros a (n & rest & E & Hp) [= -> ->]. exists n, rest. rewrite E. auto. }
    assert (∀ n k t, (p, s) = (dir ++ [n], t) → kb_kind n = Some k → expected k t → ∃ n rest, p = dir ++ n :: rest ∧ (plain_name n ∨ rest = [] ∧ ∃ k, kb_kind n = Some k ∧ expected k s)) as Hone.
    { intros n k t [= -> ->] Hk He. exists n, []. eauto 10. }
    intros [(a & E & Ha)|[(e & He & Hin)|H]].
    - eapply Hplain; [|exact E]. by apply Has.
    - destruct (Hex e He) as (He0 & Hl & _ & Hassets). unfold kb_exercise_files in Hin. rewrite !elem_of_app, !some_in, elem_of_list_fmap in Hin.
      destruct Hin as [(a & E & Ha)|[(t & E & E')|[(t & E & E')|(t & E & E')]]].
      + destruct (Hassets a Ha) as [En|[En|Hp]]; [| |by eapply Hplain].
        * unfold asset_file in E. rewrite En in E. eapply Hone; [exact E|apply (kb_name_kind (KExerciseFront (xb_id e))); by intros []|]. exists e. done.
        * unfold asset_file in E. rewrite En in E. eapply Hone; [exact E|apply (kb_name_kind (KExerciseBack (xb_id e))); by intros []|]. exists e. done.
      + apply fmap_Some in E as (x & Ex & ->). eapply Hone; [exact E'|apply (kb_name_kind (KExerciseName (xb_id e)))|exists e, x; done].
        intros [[= Hx]|[=]]. destruct (Hl Hx) as [? _]. congruence.
      + apply fmap_Some in E as (x & Ex & ->). eapply Hone; [exact E'|apply (kb_name_kind (KExerciseDescription (xb_id e)))|exists e, x; done].
        intros [[=]|[= Hx]]. destruct (Hl Hx) as [_ ?]. congruence.
      + apply fmap_Some in E as (x & Ex & ->). eapply Hone; [exact E'|apply (kb_name_kind (KExerciseType (xb_id e))); by intros []|exists e, x; done].
    - assert (∀ (A : Type) (f : list A → string) y t, unless_empty f y = Some t → y ≠ [] ∧ t = f y) as Hu.
      { intros A f y t. destruct y; cbn; [discriminate|]. intros [= <-]. done. }
      destruct H as [(t & E & E')|[(t & E & E')|[(t & E & E')|[(t & E & E')|[(t & E & E')|[(t & E & E')|(t & E & E')]]]]]].
      + apply fmap_Some in E as (x & Ex & ->). eapply Hone; [exact E'|reflexivity|]. exists x. done.
      + apply fmap_Some in E as (x & Ex & ->). eapply Hone; [exact E'|reflexivity|]. exists x. done.
      + apply Hu in E. eapply Hone; [exact E'|reflexivity|exact E].
      + apply Hu in E. eapply Hone; [exact E'|reflexivity|exact E].
      + apply Hu in E. eapply Hone; [exact E'|reflexivity|exact E].
      + apply fmap_Some in E as (x & Ex & ->). eapply Hone; [exact E'|reflexivity|]. exists x. done.
      + apply fmap_Some in E as (x & Ex & ->). eapply Hone; [exact E'|reflexivity|]. exists x. done.
  Qed.
  Definition special (k : kb_file) : bool := match k with KLessonInstructions | KLessonMaterial => true | _ => false end.
  Lemma special_plain n k : kb_kind n = Some k → plain_name n → special k = true.
  Proof using. intros Hk [H|[H|H]]; rewrite Hk in H; try discriminate; injection H as ->; done. Qed.

  Context (read : string → content) (f : files) (d : list (string * content)).
  Context (Hb : lesson_built w f dir l) (Hl : lists read f dir d).
  (** A file with a meaning is one of those that were written. *)
  Lemma found n k : kb_kind n = Some k → special k = false →
    find_file d n = read <$> last_at (dir ++ [n]) (kb_lesson_files w dir l).
  Proof using Ht Hb Hl.
    intros Hk Hs. destruct Hl as [Hnd Hin]. destruct Hb as [_ Hb'].
    assert (f !! (dir ++ [n]) = File <$> last_at (dir ++ [n]) (kb_lesson_files w dir l)) as E.
    { rewrite Hb' by discriminate. unfold after_writing. rewrite lookup_empty. destruct (last_at _ _); [done|]. rewrite decide_False; [done|].
      rewrite Exists_exists. intros ([p s] & Hp & [[r Hr] Hne]). cbn [fst] in Hr, Hne. destruct (files_known p s Hp) as (m & rest & -> & H).
      rewrite <- app_assoc in Hr. apply app_inv_head in Hr. cbn in Hr. injection Hr as -> ->. destruct H as [H|[-> _]]; [|done].
      apply (special_plain n k Hk) in H. congruence. }
    destruct (last_at (dir ++ [n]) (kb_lesson_files w dir l)) as [s|].
    - cbn [fmap option_fmap option_map] in *. apply find_file_iff; [done|]. apply Hin. eexists. split; [exact E|done].
    - apply find_file_none. intros ([m c] & -> & Hm)%elem_of_list_fmap. apply Hin in Hm as (x & Hx & _). cbn [fst] in E. rewrite E in Hx. discriminate.
  Qed.
  Lemma written n k s : kb_kind n = Some k → special k = false → last_at (dir ++ [n]) (kb_lesson_files w dir l) = Some s → expected k s.
  Proof using Ht.
    intros Hk Hs H%last_at_some. apply files_known in H as (m & rest & E & H). apply app_inv_head in E. injection E as <- <-.
    destruct H as [H|(_ & k' & Hk' & He)]; [apply (special_plain n k Hk) in H; congruence|]. rewrite Hk in Hk'. injection Hk' as <-. done.
  Qed.
  Lemma present n s : (dir ++ [n], s) ∈ kb_lesson_files w dir l → ∃ t, last_at (dir ++ [n]) (kb_lesson_files w dir l) = Some t.
  Proof using.
    intros H. destruct (last_at _ _) eqn:E; [eauto|]. exfalso. apply (proj1 (last_at_none _ _) E _ H). done.
  Qed.

  (** *** Settings *)
  Context (Hc : codec_ok w read).
  Lemma setting {A B : Type} (n : string) (k : kb_file) (o : option A) (wr : A → string) (rd : content → option B) (v : A → B) :
    kb_kind n = Some k → special k = false → (∀ s, expected k s ↔ ∃ x, o = Some x ∧ s = wr x) →
    (∀ x, o = Some x → (dir ++ [n], wr x) ∈ kb_lesson_files w dir l) → (∀ x, o = Some x → rd (read (wr x)) = Some (v x)) →
    find_file d n ≫= rd = v <$> o.
  Proof using Ht Hb Hl.
    intros Hk Hs He Hi Hr. rewrite (found n k Hk Hs). destruct (last_at (dir ++ [n]) (kb_lesson_files w dir l)) as [s|] eqn:E.
    - apply (written n k s Hk Hs) in E. apply He in E as (x & Ho & ->). cbn. rewrite (Hr x Ho), Ho. done.
    - destruct o as [x|]; [|done]. destruct (present n (wr x)) as [t Ht']; [by apply Hi|]. congruence.
  Qed.
  Definition filled {A : Type} (y : list A) : option (list A) := match y with [] => None | _ => Some y end.
  Lemma filled_some {A : Type} (y x : list A) : filled y = Some x ↔ y ≠ [] ∧ x = y.
  Proof using. destruct y; cbn; naive_solver. Qed.
  Lemma filled_default {A : Type} (y : list A) : default [] (filled y) = y.
  Proof using. by destruct y. Qed.
  Ltac in_lesson := unfold kb_lesson_files; rewrite !elem_of_app, !some_in.
  Lemma settings_read k0 : kb_settings d k0 → k0 = KbLesson (yb_dependencies l) (yb_encompassed l) (yb_superseded l) (yb_metadata l) (yb_type l).
  Proof using Ht Hb Hl Hc.
    destruct Hc as (C1 & C2 & C3 & C4 & C5 & C6). destruct Ht as (_ & _ & _ & Hfin). destruct k0 as [d0 e0 s0 m0 t0]. intros (E1 & E2 & E3 & E4 & E5). cbn in *.
    assert (∀ (A : Type) (wr : list A → string) y x, filled y = Some x → unless_empty wr y = Some (wr x)) as Hu.
    { intros A wr [|z y] x; [discriminate|]. intros [= <-]. done. }
    rewrite (setting "lesson.dependencies.json" KLessonDependencies (filled (yb_dependencies l)) (w_ids w) as_ids (λ x, x)) in E1; [|done|done| | |].
    2: { intros s. cbn. setoid_rewrite filled_some. naive_solver. }
    2: { intros x Hx. in_lesson. do 4 right. left. eexists. split; [by apply Hu|done]. }
    2: { intros x _. apply C2. }
    rewrite (setting "lesson.encompassed.json" KLessonEncompassed (filled (yb_encompassed l)) (w_weights w) as_weights (λ x, x)) in E2; [|done|done| | |].
    2: { intros s. cbn. setoid_rewrite filled_some. naive_solver. }
    2: { intros x Hx. in_lesson. do 6 right. left. eexists. split; [by apply Hu|done]. }
    2: { intros x [_ ->]%filled_some. by apply C3. }
    rewrite (setting "lesson.superseded.json" KLessonSuperseded (filled (yb_superseded l)) (w_ids w) as_ids (λ x, x)) in E3; [|done|done| | |].
    2: { intros s. cbn. setoid_rewrite filled_some. naive_solver. }
    2: { intros x Hx. in_lesson. do 5 right. left. eexists. split; [by apply Hu|done]. }
    2: { intros x _. apply C2. }
    rewrite (setting "lesson.metadata.json" KLessonMetadata (yb_metadata l) (w_metadata w) as_metadata (λ x, x)) in E4; [|done|done|done| |].
    2: { intros x Hx. in_lesson. do 7 right. left. eexists. split; [by rewrite Hx|done]. }
    2: { intros x _. apply C4. }
    rewrite (setting "lesson.default_exercise_type.json" KLessonDefaultExerciseType (yb_type l) (w_type w) as_type (λ x, x)) in E5; [|done|done|done| |].
    2: { intros x Hx. in_lesson. do 8 right. eexists. split; [by rewrite Hx|done]. }
    2: { intros x _. apply C5. }
    rewrite option_fmap_id, filled_default in E1. rewrite option_fmap_id, filled_default in E2. rewrite option_fmap_id, filled_default in E3.
    rewrite option_fmap_id in E4. rewrite option_fmap_id in E5. by subst.
  Qed.
  (** *** Exercises *)
  Lemma exercise_file b v : b ∈ yb_exercises l → v ∈ kb_exercise_files w dir b → v ∈ kb_lesson_files w dir l.
  Proof using. intros Hb' Hv. unfold kb_lesson_files. rewrite !elem_of_app, in_join. right. left. eauto. Qed.
  Lemma same_exercise b b' : b ∈ yb_exercises l → b' ∈ yb_exercises l → xb_id b = xb_id b' → b = b'.
  Proof using Ht. destruct Ht as (Hn & _). intros H1 H2 E. by apply (NoDup_fmap_elem xb_id (yb_exercises l)). Qed.
  Lemma exercises_read e : kb_has_exercise d e ↔ e ∈ xb_id <$> yb_exercises l.
  Proof using Ht Hb Hl.
    pose proof (kb_name_kind (KExerciseFront e)) as Hk. cbn [kb_name] in Hk. assert (kb_kind (e +:+ ".front.md") = Some (KExerciseFront e)) as Hk' by (apply Hk; by intros []). clear Hk.
    assert (e +:+ ".front.md" ∈ d.*1 ↔ is_Some (last_at (dir ++ [e +:+ ".front.md"]) (kb_lesson_files w dir l))) as E.
    { rewrite <- (fmap_is_Some read), <- (found _ _ Hk' eq_refl). split.
      - intros ([n c] & -> & Hin)%elem_of_list_fmap. exists c. apply find_file_iff; [apply Hl|done].
      - intros [c Hx]. apply find_file_iff in Hx; [|apply Hl]. apply elem_of_list_fmap. by exists (e +:+ ".front.md", c). }
    unfold kb_has_exercise. rewrite E. split.
    - intros [He [s Hs]]. apply (written _ _ _ Hk' eq_refl) in Hs as (b & Hb' & <-). by apply elem_of_list_fmap_1.
    - intros (b & -> & Hb')%elem_of_list_fmap. destruct Ht as (_ & Hex & _). destruct (Hex b Hb') as (H1 & _ & (a & Ha & Ea) & _). split; [done|].
      destruct (present (xb_id b +:+ ".front.md") (ab_contents a)) as [t Ht']; [|eauto]. apply (exercise_file b); [done|].
      unfold kb_exercise_files. rewrite elem_of_app. left. apply elem_of_list_fmap. exists a. unfold asset_file. rewrite Ea. done.
  Qed.
  Lemma type_read b : b ∈ yb_exercises l → find_file d (xb_id b +:+ ".type.json") ≫= as_type = xb_type b.
  Proof using Ht Hb Hl Hc.
    intros Hb'. rewrite (setting (xb_id b +:+ ".type.json") (KExerciseType (xb_id b)) (xb_type b) (w_type w) as_type (λ x, x)).
    - apply option_fmap_id.
    - apply (kb_name_kind (KExerciseType (xb_id b))). by intros [].
    - done.
    - intros s. cbn. split; [|intros (x & Hx & ->); by exists b, x]. intros (b' & x & Hin & E & Hx & ->). apply (same_exercise b' b Hin Hb') in E as ->. eauto.
    - intros x Hx. apply (exercise_file b); [done|]. unfold kb_exercise_files. rewrite !elem_of_app, !some_in. do 3 right. eexists. split; [by rewrite Hx|done].
    - intros x _. apply Hc.
  Qed.
  Lemma all_readable inlined : kb_all_readable inlined d.
  Proof using Ht Hb Hl Hc.
    intros n c k Hin Hk _. destruct (special k) eqn:Hs; [by destruct k|]. pose proof (found n k Hk Hs) as E.
    apply (find_file_iff d n c (proj1 Hl)) in Hin. rewrite Hin in E. symmetry in E. apply fmap_Some in E as (s & Hs' & ->).
    apply (written n k s Hk Hs) in Hs'. destruct Hc as (C1 & C2 & C3 & C4 & C5 & C6). destruct Ht as (_ & _ & _ & Hfin).
    destruct k; cbn in *; try discriminate.
    - destruct Hs' as (x & _ & ->). rewrite C1. eauto.
    - destruct Hs' as (x & _ & ->). rewrite C1. eauto.
    - destruct Hs' as (_ & ->). rewrite C2. eauto.
    - destruct Hs' as (_ & ->). rewrite C2. eauto.
    - destruct Hs' as (_ & ->). rewrite C3 by done. eauto.
    - destruct Hs' as (x & _ & ->). rewrite C4. eauto.
    - destruct Hs' as (x & _ & ->). rewrite C5. eauto.
    - intros _. rewrite C6. eauto.
    - intros _. rewrite C6. eauto.
    - destruct Hs' as (b & x & _ & _ & _ & ->). rewrite C1. eauto.
    - destruct Hs' as (b & x & _ & _ & _ & ->). rewrite C1. eauto.
    - destruct Hs' as (b & x & _ & _ & _ & ->). rewrite C5. eauto.
  Qed.
End names.

(** ** The generated course, exactly *)
Lemma kb_exact ord (Hord : ∀ A l, ord A l ≡ₚ l) orde inlined dirs cm oc : generate_kb ord orde inlined dirs cm = Some oc →
  oc_manifest oc = cm ∧ ∃ ids ks, (∀ s, s ∈ ids ↔ kb_inside dirs s) ∧ ks ≡ₚ kb_dirs dirs ∧
    Forall2 (λ sd le, ∃ l es, open_kb_lesson orde sd.2 = Some (l, es) ∧
      le = (kb_lesson_manifest (cm_id cm) ids sd.1 l, kb_exercise_manifest (cm_id cm) sd.1 (kl_default_type l) <$> es)) ks (oc_lessons oc).
Proof.
  unfold generate_kb. set (opener := λ dir, pair dir <$> open_kb_lesson orde dir).
  destruct (open_all opener (kb_dirs dirs)) as [ls|] eqn:Els; [|discriminate]. cbn [mbind option_bind].
  destruct (try_map (kb_manifests inlined (cm_id cm) ls.*1) (ord _ ls)) as [ms|] eqn:Em; [|discriminate]. cbn [mbind option_bind]. intros [= <-].
  cbn [oc_manifest oc_lessons]. split; [done|]. exists ls.*1, ((λ x, (x.1, x.2.1)) <$> ord _ ls). split_and!.
  - intros s. rewrite (open_all_fst _ _ _ Els), elem_of_list_fmap. unfold kb_inside. split.
    + intros ([s' d] & -> & Hin). exists d. by apply kb_dirs_in.
    + intros (d & Hin). exists (s, d). split; [done|]. by apply kb_dirs_in.
  - rewrite Hord. apply open_all_spec in Els. clear Em ms. induction Els as [|[s d] [s' x] ds l [E1 E2] _ IH]; [done|]. cbn in E1, E2. subst s'. rewrite fmap_cons, IH. cbn.
    unfold opener in E2. apply fmap_Some in E2 as (y & _ & ->). done.
  - apply try_map_spec in Em. apply Forall2_fmap_l. assert (∀ x, x ∈ ord _ ls → x ∈ ls) as Hin by (intros x; by rewrite Hord).
    revert Hin Em. generalize (ord _ ls). intros xs Hin Em.
    assert (∀ x, x ∈ xs → ∃ es, x = (x.1, (x.2.1, es)) ∧ open_kb_lesson orde x.2.1 = Some es) as Hx.
    { intros [s y] Hy%Hin. apply (open_all_in _ _ _ _ _ Els) in Hy as (d & _ & Ho & _). unfold opener in Ho. apply fmap_Some in Ho as (es & Ho & ->). eauto. }
    clear Hin Els. induction Em as [|x le xs ms E _ IH]; constructor; [|apply IH; intros y Hy; apply Hx; by right].
    destruct (Hx x) as ([l es] & Ex & Ho); [by left|]. exists l, es. split; [done|]. destruct x as [s [d y]]. cbn [fst snd] in *. injection Ex as ->.
    unfold kb_manifests in E. destruct (try_map _ es) as [ems|] eqn:Ee; [|discriminate]. cbn [mbind option_bind] in E. injection E as <-. f_equal.
    apply try_map_spec in Ee. clear -Ee. induction Ee as [|e em es ems E _ IH]; [done|]. cbn. f_equal; [|done].
    destruct (if inlined then kb_inlined d e else Some ()); [|discriminate]. cbn [mbind option_bind] in E. by injection E.
Qed.
Lemma forall2_perm {A B : Type} (R : A → B → Prop) (l l' : list A) (k : list B) : l ≡ₚ l' → Forall2 R l k → ∃ k', k' ≡ₚ k ∧ Forall2 R l' k'.
Proof.
  intros Hp. revert k. induction Hp as [|x l l' _ IH|x y l|l1 l2 l3 _ IH1 _ IH2]; intros k H.
  - exists k. done.
  - inversion H as [|? b ? k' Hb Hk]; subst. destruct (IH k' Hk) as (k1 & Hp & H1). exists (b :: k1). split; [by rewrite Hp|by constructor].
  - inversion H as [|? b ? k' Hb Hk]; subst. inversion Hk as [|? b' ? k'' Hb' Hk']; subst. exists (b' :: b :: k''). split; [apply Permutation_swap|by repeat constructor].
  - destruct (IH1 k H) as (k1 & P1 & H1). destruct (IH2 k1 H1) as (k2 & P2 & H2). exists k2. split; [by rewrite P2|done].
Qed.
Lemma expand_full c ids ids' x : (∀ s, s ∈ ids ↔ s ∈ ids') → full_id c ids "" x = expand c ids' x.
Proof.
  intros H. unfold expand. case_decide as Hx.
  - rewrite full_id_in by (by apply H). by rewrite sapp_nil, under_id.
  - rewrite full_id_out; [done|]. by rewrite H.
Qed.
(** ** Round trip *)
Lemma kb_restored w read f root ls : codec_ok w read → NoDup (yb_id <$> ls) → (∀ l, l ∈ ls → tidy_lesson l) → course_on_disk w f root ls →
  ∀ dirs, lists_dirs read f root dirs → ∀ ord, (∀ A l, ord A l ≡ₚ l) → ∀ orde, (∀ x, orde x ≡ₚ x) → ∀ inlined cm,
  ∃ oc, generate_kb ord orde inlined dirs cm = Some oc ∧ oc_manifest oc = cm ∧
    one_each (stands_for (cm_id cm) (yb_id <$> ls)) ls (oc_lessons oc).
Proof.
  intros Hc Hnd Htidy [Hon Hno] dirs (Hn & Hdirs & Hls) ord Hord orde Horde inlined cm.
  assert (∀ n d, (n, d) ∈ dirs → NoDup d.*1) as Hnn by (intros n d Hin; apply (Hls n d Hin)).
  assert (∀ s d, kb_lesson_dir dirs s d → ∃ l, l ∈ ls ∧ yb_id l = s ∧ lists read f (kb_lesson_path root (yb_id l)) d) as Hlesson.
  { intros s d Hin. assert (f !! kb_lesson_path root s = Some Dir) as Hs by (apply Hdirs, elem_of_list_fmap; eexists; split; [|exact Hin]; done).
    apply Hno, elem_of_list_fmap in Hs as (l & -> & Hl). exists l. split_and!; [done|done|]. by apply Hls. }
  assert (∀ s, kb_inside dirs s ↔ s ∈ yb_id <$> ls) as Hin.
  { intros s. split.
    - intros (d & Hd). destruct (Hlesson s d Hd) as (l & Hl & <- & _). by apply elem_of_list_fmap_1.
    - intros (l & -> & Hl)%elem_of_list_fmap. destruct (Hon l Hl) as [Hd _]. apply Hdirs in Hd. apply elem_of_list_fmap in Hd as ([n d] & En & Hd).
      cbn [fst] in En. subst n. exists d. done. }
  destruct (proj2 (kb_generates ord Hord orde Horde inlined dirs cm Hn Hnn)) as [oc Hoc].
  { intros s d Hd. destruct (Hlesson s d Hd) as (l & Hl & _ & Hlist). eapply all_readable; [by apply Htidy|by apply Hon|done|done]. }
  exists oc. split; [done|]. destruct (kb_exact ord Hord orde inlined dirs cm oc Hoc) as (Hm & ids & ks & Hids & Hks & HF). split; [done|].
  assert (ks.*1 ≡ₚ yb_id <$> ls) as Hperm.
  { rewrite Hks. apply NoDup_Permutation; [by apply kb_dirs_NoDup|done|]. intros s. rewrite <- Hin, elem_of_list_fmap. unfold kb_inside. split.
    - intros ([s' d] & -> & Hd). exists d. by apply kb_dirs_in.
    - intros (d & Hd). exists (s, d). split; [done|]. by apply kb_dirs_in. }
  destruct (Permutation_map_inv _ _ (Permutation_sym Hperm)) as (ks' & Eks & Hp). destruct (forall2_perm _ _ ks' _ Hp HF) as (k & Hk & HF'). exists k. split; [done|].
  assert (∀ x, x ∈ ks' → kb_lesson_dir dirs x.1 x.2) as Hks'.
  { intros [s d] Hx. apply kb_dirs_in. rewrite <- Hks, Hp. done. }
  assert (∀ l, l ∈ ls → tidy_lesson l ∧ lesson_built w f (kb_lesson_path root (yb_id l)) l) as Hgood by (intros l Hl; split; [by apply Htidy|by apply Hon]).
  assert (∀ s, s ∈ ids ↔ s ∈ yb_id <$> ls) as Hids' by (intros s; rewrite Hids; apply Hin).
  revert Hids'. generalize (yb_id <$> ls) at 1 2 as all. intros all Hids'.
  clear Hperm Hp HF Hon Hno Htidy Hnd Hin Hlesson Hk Hks Hoc Hm. revert ls Eks Hgood. induction HF' as [|[s d] le ks' k (l0 & es & Ho & ->) _ IH]; intros ls Eks Hgood.
  { destruct ls; [constructor|discriminate]. }
  destruct ls as [|l ls]; [discriminate|]. cbn in Eks. injection Eks as Es Eks. constructor; [|apply IH; [intros x Hx; apply Hks'; by right|done|intros l' Hl'; apply Hgood; by right]].
  destruct (Hgood l) as [Ht Hb]; [by left|]. assert (kb_lesson_dir dirs s d) as Hd by (apply (Hks' (s, d)); by left).
  assert (lists read f (kb_lesson_path root (yb_id l)) d) as Hl by (apply Hls; rewrite Es; done).
  cbn [fst snd] in Ho |- *. assert (NoDup d.*1) as Hdd by apply Hl. destruct (kb_opened orde d l0 es Horde Hdd Ho) as (Hset & Hne & Hex & Hty).
  apply (settings_read w _ l Ht read f d Hb Hl Hc) in Hset as ->. cbn [kl_default_type]. split; cbn [fst snd].
  - unfold kb_lesson_manifest. cbn [kl_dependencies kl_encompassed kl_superseded kl_metadata]. rewrite under_id, Es. f_equal.
    + apply list_fmap_ext. intros _ x _. by apply expand_full.
    + apply list_fmap_ext. intros _ [x v] _. cbn. f_equal. by apply expand_full.
    + apply list_fmap_ext. intros _ x _. by apply expand_full.
  - assert (ke_id <$> es ≡ₚ xb_id <$> yb_exercises l) as Hpe.
    { apply NoDup_Permutation; [done|apply Ht|]. intros e. rewrite Hex. eapply exercises_read; done. }
    assert (∀ x, x ∈ es → ∃ b, b ∈ yb_exercises l ∧ xb_id b = ke_id x ∧ ke_type x = xb_type b) as Hxb.
    { intros x Hx. assert (ke_id x ∈ xb_id <$> yb_exercises l) as Hi by (rewrite <- Hpe; by apply elem_of_list_fmap_1).
      apply elem_of_list_fmap in Hi as (b & Ei & Hbin). exists b. split_and!; [done|done|]. rewrite (Hty x Hx), Ei. eapply type_read; done. }
    assert ((λ x, (ke_id x, ke_type x)) <$> es ≡ₚ (λ b, (xb_id b, xb_type b)) <$> yb_exercises l) as Hpp.
    { assert (NoDup ((λ x, (ke_id x, ke_type x)) <$> es)) as N1 by (apply (NoDup_fmap_1 fst); by rewrite <- list_fmap_compose).
      assert (NoDup ((λ b, (xb_id b, xb_type b)) <$> yb_exercises l)) as N2 by (apply (NoDup_fmap_1 fst); rewrite <- list_fmap_compose; apply Ht).
      apply NoDup_Permutation; [done|done|]. intros [i t]. rewrite !elem_of_list_fmap. split.
      - intros (x & [= -> ->] & Hx). destruct (Hxb x Hx) as (b & Hbin & E1 & E2). exists b. by rewrite E1, E2.
      - intros (b & [= -> ->] & Hbin). assert (xb_id b ∈ ke_id <$> es) as Hi by (rewrite Hpe; by apply elem_of_list_fmap_1).
        apply elem_of_list_fmap in Hi as (x & Ei & Hx). destruct (Hxb x Hx) as (b' & Hb' & E1 & E2). rewrite <- Ei in E1.
        apply (same_exercise l Ht b' b Hb' Hbin) in E1 as ->. exists x. by rewrite Ei, E2. }
    apply (fmap_Permutation (λ y : string * option bool, ExerciseManifest (id_of (cm_id cm) [yb_id l; y.1]) (id_of (cm_id cm) [yb_id l]) (cm_id cm) (default (default true (yb_type l)) y.2))) in Hpp.
    rewrite <- !list_fmap_compose in Hpp. rewrite <- Hpp.
    assert (∀ g h : kb_exercise → exercise_manifest, (∀ x, g x = h x) → g <$> es ≡ₚ h <$> es) as HE by (intros g h E; by rewrite (list_fmap_ext g h es (λ _ x _, E x))).
    apply HE. intros x. unfold kb_exercise_manifest. cbn. rewrite Es. by rewrite (under_id (cm_id cm) s), id_of_under.
Qed.
