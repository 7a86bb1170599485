(** When a knowledge base can be opened. *)
From stdpp Require Import gmap strings list sorting.
From Verif Require Import F32 Graph GraphSpec Library LibrarySpec Generators GenSpec StrFacts GenBase GenLiteracy GenKb FileSystem KbBuilder KbSpec.
Local Open Scope string_scope.
Local Open Scope list_scope.

Lemma try_fold_iff {A B : Type} (step : A → B → option A) (ok : B → Prop) l : (∀ x b, b ∈ l → is_Some (step x b) ↔ ok b) →
  ∀ x, is_Some (try_fold step l x) ↔ ∀ b, b ∈ l → ok b.
Proof.
  induction l as [|b l IH]; intros H x; cbn [try_fold].
  { split; [intros _ b Hb; by apply elem_of_nil in Hb|eauto]. }
  assert (is_Some (step x b) ↔ ok b) as Hb by (apply H; by left).
  assert (∀ x b, b ∈ l → is_Some (step x b) ↔ ok b) as H' by (intros; apply H; by right).
  destruct (step x b) as [y|]; cbn [mbind option_bind].
  - rewrite (IH H' y). split; [|intros Hl c Hc; apply Hl; by right]. intros Hl c [->|Hc]%elem_of_cons; [apply Hb; eauto|by apply Hl].
  - split; [intros [? [=]]|]. intros Hl. destruct (proj2 Hb) as [? [=]]. apply Hl. by left.
Qed.
Lemma try_map_iff {A B : Type} (f : A → option B) l : is_Some (try_map f l) ↔ ∀ a, a ∈ l → is_Some (f a).
Proof.
  induction l as [|a l IH]; cbn [try_map].
  { split; [intros _ b Hb; by apply elem_of_nil in Hb|eauto]. }
  destruct (f a) as [b|] eqn:E; cbn [mbind option_bind].
  - destruct (try_map f l) as [bs|] eqn:El; cbn [mbind option_bind].
    + split; [|eauto]. intros _ c [->|Hc]%elem_of_cons; [by rewrite E|]. apply IH; eauto.
    + split; [intros [? [=]]|]. intros H. destruct (proj2 IH) as [? [=]]. intros c Hc. apply H. by right.
  - split; [intros [? [=]]|]. intros H. destruct (H a) as [? H']; [by left|congruence].
Qed.
Lemma open_all_iff {A : Type} (f : list (string * content) → option A) ds : is_Some (open_all f ds) ↔ ∀ s d, (s, d) ∈ ds → is_Some (f d).
Proof.
  induction ds as [|[s d] ds IH]; cbn [open_all].
  { split; [intros _ s d Hb; by apply elem_of_nil in Hb|eauto]. }
  destruct (f d) as [b|] eqn:E; cbn [mbind option_bind].
  - destruct (open_all f ds) as [bs|] eqn:El; cbn [mbind option_bind].
    + split; [|eauto]. intros _ s' d' [[= -> ->]|Hc]%elem_of_cons; [by rewrite E|]. eapply IH; eauto.
    + split; [intros [? [=]]|]. intros H. destruct (proj2 IH) as [? [=]]. intros s' d' Hc. eapply H. by right.
  - split; [intros [? [=]]|]. intros H. destruct (H s d) as [? H']; [by left|congruence].
Qed.

Section lesson.
  Context (dir : list (string * content)) (Hd : NoDup dir.*1).
  (** The files that are read when the lesson is opened. *)
  Definition ok (f : kb_file) : Prop := ∀ c, find_file dir (kb_name f) = Some c → kb_readable false f c.
  Lemma in_dir f : f ∈ omap kb_kind dir.*1 → ∃ c, find_file dir (kb_name f) = Some c.
  Proof using Hd. intros (c & Hc & _)%kb_files_in. exists c. by apply find_file_iff. Qed.
  Lemma lesson_step_ok l f : f ∈ omap kb_kind dir.*1 → kb_exercise_of f = None → is_Some (kb_lesson_step dir l f) ↔ ok f.
  Proof using Hd.
    intros (c & Hc)%in_dir He. unfold kb_lesson_step, ok. rewrite Hc. cbn [mbind option_bind].
    destruct f; try done; cbn [kb_readable]; rewrite ?fmap_is_Some; naive_solver.
  Qed.
  Lemma exercise_step_ok e x f : f ∈ omap kb_kind dir.*1 → kb_exercise_of f = Some e → is_Some (kb_exercise_step dir e x f) ↔ ok f.
  Proof using Hd.
    intros (c & Hc)%in_dir He. unfold kb_exercise_step, ok.
    destruct f; try done; injection He as ->; rewrite Hc; cbn [mbind option_bind kb_readable]; rewrite ?fmap_is_Some; naive_solver.
  Qed.
  Lemma created_ok e : is_Some (kb_create_exercise dir e (files_of (omap kb_kind dir.*1) e)) ↔ ∀ f, f ∈ files_of (omap kb_kind dir.*1) e → ok f.
  Proof using Hd.
    unfold kb_create_exercise. apply (try_fold_iff (kb_exercise_step dir e) ok). intros x g [Hg1 Hg2]%elem_of_list_filter. by apply exercise_step_ok.
  Qed.
  Lemma kb_opens (ord : list string → list string) : (∀ x, ord x ≡ₚ x) → is_Some (open_kb_lesson ord dir) ↔ kb_all_readable false dir.
  Proof using Hd.
    intros Ho. unfold open_kb_lesson.
    assert (is_Some (try_fold (kb_lesson_step dir) (filter (λ f, kb_exercise_of f = None) (omap kb_kind dir.*1)) new_kb_lesson) ↔
      ∀ f, f ∈ filter (λ f, kb_exercise_of f = None) (omap kb_kind dir.*1) → ok f) as H1.
    { apply try_fold_iff. intros l f [Hf1 Hf2]%elem_of_list_filter. by apply lesson_step_ok. }
    assert (is_Some (try_map (λ id, kb_create_exercise dir id (files_of (omap kb_kind dir.*1) id)) (ord (kb_exercise_ids (omap kb_kind dir.*1)))) ↔
      ∀ e f, kb_has_exercise dir e → f ∈ files_of (omap kb_kind dir.*1) e → ok f) as H2.
    { rewrite try_map_iff. split.
      - intros H e f He Hf. assert (e ∈ ord (kb_exercise_ids (omap kb_kind dir.*1))) as He' by (rewrite Ho; by apply kb_exercises_in).
        apply H in He'. by apply (proj1 (created_ok e) He').
      - intros H e He. rewrite Ho in He. apply kb_exercises_in in He. apply created_ok. intros f Hf. by apply (H e). }
    trans ((∀ f, f ∈ filter (λ f, kb_exercise_of f = None) (omap kb_kind dir.*1) → ok f) ∧
      (∀ e f, kb_has_exercise dir e → f ∈ files_of (omap kb_kind dir.*1) e → ok f)).
    { rewrite <- H1, <- H2. destruct (try_fold _ _ _) as [l|]; cbn [mbind option_bind]; [|split; [intros [? [=]]|intros [[? [=]] _]]].
      destruct (try_map _ _) as [es|]; cbn [mbind option_bind]; split; eauto; [intros [? [=]]|intros [_ [? [=]]]]. }
    clear H1 H2. assert (∀ n c f, (n, c) ∈ dir → kb_kind n = Some f → f ∈ omap kb_kind dir.*1 ∧ find_file dir (kb_name f) = Some c) as HI.
    { intros n c f Hin Hk. split; [|by eapply kb_entry_file]. apply kb_files_in. exists c. by rewrite (kb_kind_name n f Hk). }
    split.
    - intros [H1 H2] n c f Hin Hk Hu. destruct (HI n c f Hin Hk) as [Hf Hc]. unfold kb_used in Hu. destruct (kb_exercise_of f) as [e|] eqn:He.
      + apply (H2 e); [done| |done]. apply elem_of_list_filter. done.
      + apply H1; [|done]. apply elem_of_list_filter. done.
    - intros H. assert (∀ f, f ∈ omap kb_kind dir.*1 → kb_used dir f → ok f) as Hok.
      { intros f (c & Hin & Hk)%kb_files_in Hu c' Hc'. apply find_file_iff in Hc'; [|done]. by eapply H. }
      split.
      + intros f [He Hf]%elem_of_list_filter. apply Hok; [done|]. unfold kb_used. by rewrite He.
      + intros e f Hh [He Hf]%elem_of_list_filter. apply Hok; [done|]. unfold kb_used. by rewrite He.
  Qed.
End lesson.
Lemma kb_readable_split inlined f c : kb_readable inlined f c ↔
  kb_readable false f c ∧ (inlined = true → match f with KExerciseFront _ | KExerciseBack _ => is_Some (as_text c) | _ => True end).
Proof. destruct f, inlined; cbn; naive_solver. Qed.
Lemma kb_generates ord (Hord : ∀ A l, ord A l ≡ₚ l) orde (Horde : ∀ x, orde x ≡ₚ x) inlined dirs cm :
  NoDup dirs.*1 → (∀ n dir, (n, dir) ∈ dirs → NoDup dir.*1) →
  is_Some (generate_kb ord orde inlined dirs cm) ↔ ∀ s dir, kb_lesson_dir dirs s dir → kb_all_readable inlined dir.
Proof.
  intros Hn Hnn. unfold generate_kb. set (opener := λ dir, pair dir <$> open_kb_lesson orde dir).
  assert (is_Some (open_all opener (kb_dirs dirs)) ↔ ∀ s dir, kb_lesson_dir dirs s dir → kb_all_readable false dir) as H1.
  { rewrite open_all_iff. unfold opener. split; intros H s d Hd.
    - assert (NoDup d.*1) as Hdd by by eapply Hnn. apply (kb_opens d Hdd orde Horde). eapply fmap_is_Some. eapply H. by apply kb_dirs_in.
    - apply kb_dirs_in in Hd. assert (NoDup d.*1) as Hdd by by eapply Hnn. apply fmap_is_Some. apply kb_opens; [done..|]. by eapply H. }
  destruct (open_all opener (kb_dirs dirs)) as [ls|] eqn:Els; cbn [mbind option_bind].
  2: { split; [intros [? [=]]|]. intros H. destruct (proj2 H1) as [? [=]]. intros s d Hd n c f Hin Hk Hu. apply (kb_readable_split inlined). by apply (H s d Hd n c f). }
  assert (∀ s dir, kb_lesson_dir dirs s dir → kb_all_readable false dir) as H0 by (apply H1; eauto).
  trans (is_Some (try_map (kb_manifests inlined (cm_id cm) ls.*1) (ord _ ls))).
  { destruct (try_map _ _); cbn; split; eauto; intros [? [=]]. }
  rewrite try_map_iff.
  assert (∀ d es, open_kb_lesson orde d = Some es → NoDup d.*1 →
    (∀ e, e ∈ es.2 → is_Some (kb_inlined d e)) ↔ ∀ n c f, (n, c) ∈ d → kb_kind n = Some f → kb_used d f → match f with KExerciseFront _ | KExerciseBack _ => is_Some (as_text c) | _ => True end) as HT.
  { intros d [l es] Ho Hdd. cbn [snd]. pose proof (kb_opened orde d l es Horde Hdd Ho) as (_ & _ & Hex & _).
    assert (∀ e, e ∈ es → ke_back e = true ↔ ke_id e +:+ ".back.md" ∈ d.*1) as Hb.
    { intros e He. unfold open_kb_lesson in Ho. destruct (try_fold _ _ _) as [l0|]; [|done]. cbn [mbind option_bind] in Ho.
      destruct (try_map _ _) as [es0|] eqn:Ee; [|done]. cbn in Ho. injection Ho as <- <-.
      rewrite (try_map_in _ _ _ _ Ee) in He. destruct He as (x & _ & Hx). apply kb_created in Hx as (-> & _ & ?). done. }
    split.
    - intros H n c f Hin Hk Hu. pose proof (kb_entry_file d Hdd n c f Hin Hk) as Hc. destruct f as [| | | | | | | | |e|e|e|e|e]; try done; cbn in Hu.
      all: apply Hex, elem_of_list_fmap in Hu as (x & -> & Hx); pose proof (H x Hx) as Hi; unfold kb_inlined in Hi.
      + rewrite Hc in Hi. cbn in Hi. destruct (as_text c); [eauto|]. by destruct Hi.
      + destruct (find_file d (kb_name (KExerciseFront (ke_id x))) ≫= as_text); [|by destruct Hi]. cbn [mbind option_bind] in Hi.
        rewrite (proj2 (Hb x Hx)) in Hi. 2: { rewrite <- (kb_kind_name n _ Hk) in Hin. apply elem_of_list_fmap. eexists. split; [|exact Hin]. done. }
        rewrite Hc in Hi. cbn [mbind option_bind] in Hi. by apply fmap_is_Some in Hi.
    - intros H e He. assert (kb_has_exercise d (ke_id e)) as Hh by (apply Hex; by apply elem_of_list_fmap_1).
      unfold kb_inlined. destruct Hh as [He0 Hf]. apply elem_of_list_fmap in Hf as ([n c] & En & Hin). cbn in En. subst n.
      assert (kb_has_exercise d (ke_id e)) as Hh by (apply Hex; by apply elem_of_list_fmap_1).
      cbn [kb_name]. rewrite (proj2 (find_file_iff d _ c Hdd) Hin). cbn [mbind option_bind].
      destruct (H _ c (KExerciseFront (ke_id e)) Hin) as [t Ht]; [apply (kb_name_kind (KExerciseFront (ke_id e))); by intros []|done|]. rewrite Ht. cbn [mbind option_bind].
      destruct (ke_back e) eqn:Eb; [|eauto]. apply Hb in Eb; [|done]. apply elem_of_list_fmap in Eb as ([n c'] & En & Hin'). cbn in En. subst n.
      rewrite (proj2 (find_file_iff d _ c' Hdd) Hin'). cbn [mbind option_bind]. apply fmap_is_Some.
      apply (H _ c' (KExerciseBack (ke_id e)) Hin'); [apply (kb_name_kind (KExerciseBack (ke_id e))); by intros []|done]. }
  assert (∀ s x, (s, x) ∈ ls → ∃ d es, x = (d, es) ∧ kb_lesson_dir dirs s d ∧ NoDup d.*1 ∧ open_kb_lesson orde d = Some es) as Hls.
  { intros s x Hin. apply (open_all_in _ _ _ _ _ Els) in Hin as (d & Hd & Ho & _). unfold opener in Ho. apply fmap_Some in Ho as (es & Ho & ->).
    apply kb_dirs_in in Hd. exists d, es. split_and!; [done|done|by eapply Hnn|done]. }
  assert (∀ s d es, is_Some (kb_manifests inlined (cm_id cm) ls.*1 (s, (d, es))) ↔ (inlined = true → ∀ e, e ∈ es.2 → is_Some (kb_inlined d e))) as HM.
  { intros s d [l es]. unfold kb_manifests. cbn [snd].
    trans (is_Some (try_map (λ e, _ ← (if inlined then kb_inlined d e else Some ()); Some (kb_exercise_manifest (cm_id cm) s (kl_default_type l) e)) es)).
    { destruct (try_map _ _); cbn; split; eauto; intros [? [=]]. }
    rewrite try_map_iff. destruct inlined.
    - split; [intros H _ e He; specialize (H e He)|intros H e He; specialize (H eq_refl e He)].
      + destruct (kb_inlined d e); [eauto|]. cbn in H. by destruct H.
      + destruct H as [? ->]. cbn. eauto.
    - split; [done|]. intros _ e _. cbn. eauto. }
  split.
  - intros H s d Hd n c f Hin Hk Hu. apply kb_readable_split. split; [by eapply H0|]. intros Hi.
    assert (∃ es, (s, (d, es)) ∈ ls ∧ open_kb_lesson orde d = Some es) as (es & Hes & Ho).
    { apply kb_dirs_in in Hd. destruct (open_all_from _ _ _ _ _ Els Hd) as (a & Ha & Hin'). unfold opener in Ha. apply fmap_Some in Ha as (es & Ho & ->). eauto. }
    assert (NoDup d.*1) as Hdd by (by eapply Hnn). eapply (HT d es Ho Hdd); [|done..]. apply (HM s d es); [|done]. apply H. by rewrite Hord.
  - intros H [s x] Hx. rewrite Hord in Hx. destruct (Hls s x Hx) as (d & es & -> & Hd & Hdd & Ho). apply HM. intros Hi. apply (HT d es Ho Hdd).
    intros n c f Hin Hk Hu. pose proof (H s d Hd n c f Hin Hk Hu) as Hr. apply kb_readable_split in Hr as [_ Hr]. by apply Hr.
Qed.
