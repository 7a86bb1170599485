(** A course that was built is read back. *)
From stdpp Require Import gmap strings list.
From Verif Require Import Graph GraphSpec Library LibrarySpec LibraryQueries Options Generators FileSystem FileSpec FileProofs BuildProofs Walk WalkSpec WalkProofs WalkMore.
Local Open Scope string_scope.
Local Open Scope list_scope.

Lemma Forall2_impl_in {A B : Type} (P Q : A → B → Prop) l k : Forall2 P l k → (∀ x y, x ∈ l → P x y → Q x y) → Forall2 Q l k.
Proof.
  induction 1 as [|x y l k Hxy _ IH]; intros H; [constructor|]. constructor; [apply H; [left|done]|]. apply IH. intros a b Ha. apply H. by right.
Qed.

Lemma Forall2_in_l {A B : Type} (P : A → B → Prop) l k a : Forall2 P l k → a ∈ l → ∃ y, y ∈ k ∧ P a y.
Proof. intros H Hx. apply elem_of_list_lookup in Hx as [i Hi]. destruct (Forall2_lookup_l _ _ _ _ _ H Hi) as (y & Hy & Hp). exists y. split; [by eapply elem_of_list_lookup_2|done]. Qed.

(** * What does not change *)
Section frame.
  Context (rd : readers) (f f' : files).
  Definition same_below (d : path) : Prop :=
    (∀ p s n, d `prefix_of` p → last p = Some n → reserved n → f !! p = Some (File s) ↔ f' !! p = Some (File s)) ∧
    (∀ p, d `prefix_of` p → f !! p ≠ None → f' !! p ≠ None).
  Lemma there_frame d dir r : same_below d → d `prefix_of` dir → there f dir r → there f' dir r.
  Proof using. intros [_ H] Hd Hr p E. apply H; [by apply prefix_app_r|]. by apply Hr. Qed.
  Lemma basic_frame d dir o : same_below d → d `prefix_of` dir → basic_there f dir o → basic_there f' dir o.
  Proof using. intros H Hd Ho r E. eapply there_frame; [done|done|]. by apply Ho. Qed.
  Lemma exercise_frame d dir a : same_below d → d `prefix_of` dir → exercise_there f dir a → exercise_there f' dir a.
  Proof using.
    intros H Hd. destruct a as [a|front back| |backup|]; cbn; [by apply basic_frame with d| |done| |done].
    - intros [H1 H2]. split; [by eapply there_frame|]. intros r E. eapply there_frame; [done|done|]. by apply H2.
    - intros H1 r E. eapply there_frame; [done|done|]. by apply H1.
  Qed.
  Lemma file_frame d dir n s : same_below d → d `prefix_of` dir → reserved n → f !! (dir ++ [n]) = Some (File s) ↔ f' !! (dir ++ [n]) = Some (File s).
  Proof using. intros [H _] Hd Hn. apply (H _ _ n); [by apply prefix_app_r|by rewrite last_snoc|done]. Qed.
  Lemma files_frame d dir x n : same_below d → d `prefix_of` dir → reserved n →
    (∃ s, f !! (dir ++ [x; n]) = Some (File s)) ↔ ∃ s, f' !! (dir ++ [x; n]) = Some (File s).
  Proof using.
    intros H Hd Hn. rewrite two_names. split; intros [s Hs]; exists s; (eapply file_frame; [done|by apply prefix_app_r|done|done]).
  Qed.
  Lemma r_course : reserved "course_manifest.json". Proof using. by left. Qed.
  Lemma r_lesson : reserved "lesson_manifest.json". Proof using. by right; left. Qed.
  Lemma r_exercise : reserved "exercise_manifest.json". Proof using. by right; right. Qed.
  Lemma course_frame d c : same_below d → (∀ cm config, generate rd f d cm config = generate rd f' d cm config) → course_reads rd f d c → course_reads rd f' d c.
  Proof using.
    intros H Hg (s & cf & cm & gen & ls & ds & E & Es & Hi & Hm & E1 & Hgen & Hn & Hds & Hl & ->).
    exists s, cf, cm, gen, ls, ds. split; [by apply (file_frame d d _ _ H ltac:(done) r_course)|]. split; [done|].
    split; [by eapply basic_frame|]. split; [by eapply basic_frame|]. split; [done|].
    split; [destruct (cf_generator cf); [by setoid_rewrite <- Hg|done]|]. split; [done|].
    split; [intros x; rewrite Hds; apply (files_frame d d _ _ H ltac:(done) r_lesson)|]. split; [|done].
    eapply Forall2_impl; [exact Hl|]. clear -H. intros x [lm es] (s & i & m & ds & E & Es & Hi & Hm & E1 & E2 & Hn & Hds & He).
    assert (Hd : d `prefix_of` d ++ [x]) by by apply prefix_app_r.
    exists s, i, m, ds. split; [by apply (file_frame d _ _ _ H Hd r_lesson)|]. split; [done|].
    split; [by eapply basic_frame|]. split; [by eapply basic_frame|]. split; [done|]. split; [done|]. split; [done|].
    split; [intros y; rewrite Hds; apply (files_frame d _ _ _ H Hd r_exercise)|].
    eapply Forall2_impl; [exact He|]. intros y em (s' & a & E' & Es' & Ha & E3 & E4 & E5).
    assert (Hd' : d `prefix_of` (d ++ [x]) ++ [y]) by by apply prefix_app_r.
    exists s', a. split; [by apply (file_frame d _ _ _ H Hd' r_exercise)|]. split; [done|]. split; [by eapply exercise_frame|]. done.
  Qed.
  (** A library whose courses do not change. *)
  Lemma library_frame root skip cs :
    (∀ p s n, last p = Some n → reserved n → f !! p = Some (File s) ↔ f' !! p = Some (File s)) → (∀ p, f !! p ≠ None → f' !! p ≠ None) →
    (∀ d cm config, course_dir f root skip d → generate rd f d cm config = generate rd f' d cm config) →
    library_reads rd f root skip cs → library_reads rd f' root skip cs.
  Proof using.
    intros H1 H2 Hg (dirs & Hn & Hd & H). exists dirs. split; [done|].
    assert (Hc : ∀ d s, f !! (d ++ ["course_manifest.json"]) = Some (File s) ↔ f' !! (d ++ ["course_manifest.json"]) = Some (File s)).
    { intros d s. apply (H1 _ _ "course_manifest.json"); [by rewrite last_snoc|apply r_course]. }
    split. { intros d. rewrite Hd. unfold course_dir. by setoid_rewrite Hc. }
    eapply Forall2_impl_in; [exact H|]. intros d c Hin Hr. apply course_frame; [|intros; by apply Hg, Hd|done].
    split; [intros p s n _; apply H1|intros p _; apply H2].
  Qed.
End frame.

(** * The files of a builder *)
Lemma three_names (d : path) x y z : d ++ [x; y; z] = ((d ++ [x]) ++ [y]) ++ [z].
Proof. by rewrite <- !app_assoc. Qed.
Lemma apart_join {A : Type} (F : A → list (list string * string)) l : apart (mjoin (F <$> l)) →
  (∀ x, x ∈ l → apart (F x)) ∧ ∀ i j x y v w, l !! i = Some x → l !! j = Some y → i ≠ j → v ∈ F x → w ∈ F y → ¬ v.1 `prefix_of` w.1.
Proof.
  induction l as [|a l IH]; intros H; [split; [by intros x Hx%elem_of_nil|done]|]. cbn in H. apply apart_app in H as (H1 & H2 & H3).
  destruct (IH H2) as [IH1 IH2]. split; [intros x [->|Hx]%elem_of_cons; auto|].
  assert (HJ : ∀ j y w, l !! j = Some y → w ∈ F y → w ∈ mjoin (F <$> l)).
  { intros j y w Hy Hw. apply elem_of_list_join. exists (F y). split; [done|]. apply elem_of_list_fmap. exists y. split; [done|]. by eapply elem_of_list_lookup_2. }
  intros [|i] [|j] x y v w Hi Hj Hne Hv Hw; [done| | |]; cbn in Hi, Hj.
  - injection Hi as <-. apply (H3 v w); [done|by eapply HJ].
  - injection Hj as <-. apply (H3 w v); [done|by eapply HJ].
  - eapply (IH2 i j); [done|done|congruence|done|done].
Qed.
Lemma apart_cons w ws : apart (w :: ws) → apart ws.
Proof. intros H. change (w :: ws) with ([w] ++ ws) in H. by apply apart_app in H as (_ & ? & _). Qed.
Lemma lessons_apart parent b : apart (course_files parent b) → NoDup (lb_dir <$> cb_lessons b).
Proof.
  intros H. apply apart_cons, apart_app in H as (_ & H & _). apply apart_join in H as [_ H].
  apply NoDup_alt. intros i j d Hi Hj. rewrite list_lookup_fmap in Hi, Hj. apply fmap_Some in Hi as (x & Hi & ->), Hj as (y & Hj & E).
  destruct (decide (i = j)) as [|Hne]; [done|]. exfalso. eapply (H i j x y); [done|done|done|by left|by left|]. cbn [fst]. by rewrite E.
Qed.
Lemma exercises_apart parent b l : apart (course_files parent b) → l ∈ cb_lessons b → NoDup (eb_dir <$> lb_exercises l).
Proof.
  intros H Hl. apply apart_cons, apart_app in H as (_ & H & _). apply apart_join in H as [H _]. specialize (H l Hl).
  apply apart_cons, apart_app in H as (_ & H & _). apply apart_join in H as [_ H].
  apply NoDup_alt. intros i j d Hi Hj. rewrite list_lookup_fmap in Hi, Hj. apply fmap_Some in Hi as (x & Hi & ->), Hj as (y & Hj & E).
  destruct (decide (i = j)) as [|Hne]; [done|]. exfalso. eapply (H i j x y); [done|done|done|by left|by left|]. cbn [fst]. by rewrite E.
Qed.

Section build.
  Context (parent : path) (b : course_builder) (Hnames : names_given b) (Hplain : course_plain b).
  Let dir := parent ++ [cb_dir b].
  Definition is_course_file (w : list string * string) : Prop := w = (dir ++ ["course_manifest.json"], ut_json (cb_manifest b)).
  Definition is_lesson_file (w : list string * string) : Prop :=
    ∃ l, l ∈ cb_lessons b ∧ w = (dir ++ [lb_dir l; "lesson_manifest.json"], ut_json (lb_manifest l)).
  Definition is_exercise_file (w : list string * string) : Prop :=
    ∃ l e, l ∈ cb_lessons b ∧ e ∈ lb_exercises l ∧ w = (dir ++ [lb_dir l; eb_dir e; "exercise_manifest.json"], et_json (eb_manifest e)).
  Lemma asset_last d (a : asset_builder) : ab_name a ≠ [] → last (d ++ ab_name a) = last (ab_name a).
  Proof using. intros H. destruct (exists_last H) as (k & x & ->). by rewrite app_assoc, !last_snoc. Qed.
  Lemma asset_plain l d w n : assets_named l → assets_plain l → w ∈ asset_file d <$> l → last w.1 = Some n → ¬ reserved n.
  Proof using.
    intros H1 H2 Hw Hn. apply elem_of_list_fmap in Hw as (a & -> & Ha). cbn [asset_file fst] in Hn. rewrite asset_last in Hn by by apply H1. by eapply H2.
  Qed.
  Lemma manifest_files w : w ∈ course_files parent b → ∀ n, last w.1 = Some n → reserved n → is_course_file w ∨ is_lesson_file w ∨ is_exercise_file w.
  Proof using Hnames Hplain.
    intros Hw n Hn Hr. destruct Hnames as [N1 N2], Hplain as [P1 P2]. unfold course_files in Hw. cbv zeta in Hw. fold dir in Hw.
    apply elem_of_cons in Hw as [->|[Hw|Hw]%elem_of_app]; [by left|destruct (asset_plain _ _ _ _ N1 P1 Hw Hn Hr)|].
    apply elem_of_list_join in Hw as (ws & Hw & (l & -> & Hl)%elem_of_list_fmap). destruct (N2 l Hl) as [N3 N4], (P2 l Hl) as [P3 P4].
    apply elem_of_cons in Hw as [->|[Hw|Hw]%elem_of_app]; [right; left; exists l; split; [done|by rewrite two_names]|destruct (asset_plain _ _ _ _ N3 P3 Hw Hn Hr)|].
    apply elem_of_list_join in Hw as (ws & Hw & (e & -> & He)%elem_of_list_fmap).
    apply elem_of_cons in Hw as [->|Hw]; [right; right; exists l, e; split; [done|]; split; [done|by rewrite three_names]|destruct (asset_plain _ _ _ _ (N4 e He) (P4 e He) Hw Hn Hr)].
  Qed.
  Lemma course_file_in : (dir ++ ["course_manifest.json"], ut_json (cb_manifest b)) ∈ course_files parent b.
  Proof using. by left. Qed.
  Lemma lesson_file_in l : l ∈ cb_lessons b → (dir ++ [lb_dir l; "lesson_manifest.json"], ut_json (lb_manifest l)) ∈ course_files parent b.
  Proof using.
    intros Hl. right. apply elem_of_app. right. apply elem_of_list_join. eexists. split; [|apply elem_of_list_fmap; exists l; done].
    rewrite two_names. by left.
  Qed.
  Lemma exercise_file_in l e : l ∈ cb_lessons b → e ∈ lb_exercises l →
    (dir ++ [lb_dir l; eb_dir e; "exercise_manifest.json"], et_json (eb_manifest e)) ∈ course_files parent b.
  Proof using.
    intros Hl He. right. apply elem_of_app. right. apply elem_of_list_join. eexists. split; [|apply elem_of_list_fmap; exists l; done].
    right. apply elem_of_app. right. apply elem_of_list_join. eexists. split; [|apply elem_of_list_fmap; exists e; done]. rewrite three_names. by left.
  Qed.

  Context (rd : readers) (f f' : files) (k k' : option nat) (x : ()) (Htree : tree f) (Hnew : f !! dir = None) (Hbuilt : build_course parent b k f = Over x k' f')
    (Hapart : apart (course_files parent b)).
  Lemma old_none p : dir `prefix_of` p → f !! p = None.
  Proof using Htree Hnew. intros H. by eapply tree_none. Qed.
  Lemma new_file p s : dir `prefix_of` p → f' !! p = Some (File s) ↔ (p, s) ∈ course_files parent b.
  Proof using Htree Hnew Hbuilt Hapart.
    intros H. split; [|by eapply course_contains]. rewrite (course_exact _ _ _ _ _ _ _ Hbuilt). unfold after_writing. rewrite (old_none p H).
    destruct (last_at p _) as [s'|] eqn:E; [intros [= ->]; by apply last_at_some|]. by case_decide.
  Qed.
  Lemma below_dir w : w ∈ course_files parent b → dir `prefix_of` w.1.
  Proof using. intros Hw. by destruct (course_inside _ _ _ Hw) as [[? _]| ->]. Qed.
  Lemma old_file p s : ¬ dir `prefix_of` p → f' !! p = Some (File s) ↔ f !! p = Some (File s).
  Proof using Hbuilt.
    intros H. rewrite (course_exact _ _ _ _ _ _ _ Hbuilt). unfold after_writing. destruct (last_at p _) as [s'|] eqn:E.
    - apply last_at_some, below_dir in E. done.
    - destruct (f !! p); [done|]. by case_decide.
  Qed.
  Lemma still_there p : f !! p ≠ None → f' !! p ≠ None.
  Proof using Hbuilt. intros H. apply (course_exists _ _ _ _ _ _ _ Hbuilt). by left. Qed.
  (** Nothing changes in directories that are apart from the new one. *)
  Lemma apart_same d p : ¬ dir `prefix_of` d → ¬ d `prefix_of` parent → d `prefix_of` p → f' !! p = f !! p.
  Proof using Hbuilt.
    intros H1 H2 Hp. assert (Hn : ¬ dir `prefix_of` p).
    { intros H. destruct (prefix_weak_total _ _ _ H Hp) as [?|[r E]]; [done|]. unfold dir in E.
      destruct r as [|y r _] using rev_ind; [apply H1; rewrite app_nil_r in E; unfold dir; by rewrite E|]. rewrite app_assoc in E.
      apply app_inj_tail in E as [E _]. apply H2. rewrite E. by apply prefix_app_r. }
    pose proof (course_outside parent b k f p Hn) as H. rewrite Hbuilt in H. cbn [final] in H. destruct H as [?|(_ & _ & H)]; [done|].
    exfalso. apply H2. by transitivity p.
  Qed.

  Lemma lesson_dirs d : d ∈ lb_dir <$> cb_lessons b ↔ ∃ s, f' !! (dir ++ [d; "lesson_manifest.json"]) = Some (File s).
  Proof using Hnames Hplain Htree Hnew Hbuilt Hapart.
    rewrite elem_of_list_fmap. split.
    - intros (l & -> & Hl). exists (ut_json (lb_manifest l)). apply new_file; [by apply prefix_app_r|]. by apply lesson_file_in.
    - intros [s Hs]. apply new_file in Hs; [|by apply prefix_app_r].
      destruct (manifest_files _ Hs "lesson_manifest.json") as [H|[(l & Hl & H)|(l & e & _ & _ & H)]].
      + cbn [fst]. rewrite two_names. by rewrite last_snoc.
      + by apply r_lesson.
      + injection H as H _. by apply app_inv_head in H.
      + injection H as H _. apply app_inv_head in H. injection H as ->. by exists l.
      + injection H as H _. by apply app_inv_head in H.
  Qed.
  Lemma exercise_dirs l d : l ∈ cb_lessons b → d ∈ eb_dir <$> lb_exercises l ↔ ∃ s, f' !! ((dir ++ [lb_dir l]) ++ [d; "exercise_manifest.json"]) = Some (File s).
  Proof using Hnames Hplain Htree Hnew Hbuilt Hapart.
    intros Hl. rewrite elem_of_list_fmap, <- app_assoc. cbn [app]. split.
    - intros (e & -> & He). exists (et_json (eb_manifest e)). apply new_file; [by apply prefix_app_r|]. by apply exercise_file_in.
    - intros [s Hs]. apply new_file in Hs; [|by apply prefix_app_r].
      destruct (manifest_files _ Hs "exercise_manifest.json") as [H|[(l' & _ & H)|(l' & e & Hl' & He & H)]].
      + cbn [fst]. by rewrite three_names, last_snoc.
      + by apply r_exercise.
      + injection H as H _. by apply app_inv_head in H.
      + injection H as H _. by apply app_inv_head in H.
      + injection H as H _. apply app_inv_head in H. injection H as E1 ->. exists e. split; [done|].
        assert (l' = l) as ->; [|done]. pose proof (lessons_apart parent b Hapart) as Hn.
        apply elem_of_list_lookup in Hl as [i Hi], Hl' as [j Hj]. rewrite NoDup_alt in Hn.
        assert (i = j) as ->; [|congruence]. apply (Hn i j (lb_dir l)); rewrite list_lookup_fmap; [by rewrite Hi|rewrite Hj; cbn; by rewrite E1].
  Qed.
  Lemma built_reads c : course_there f' parent b → course_given rd b c → course_reads rd f' dir c.
  Proof using Hnames Hplain Htree Hnew Hbuilt Hapart.
    intros ([T1 T2] & T3) (Er & Ei & Hl). exists (ut_json (cb_manifest b)), (CourseFile (oc_manifest c) (ut_instructions (cb_manifest b)) (ut_material (cb_manifest b)) None),
      (oc_manifest c), [], (oc_lessons c), (lb_dir <$> cb_lessons b). cbn [cf_instructions cf_material cf_manifest cf_generator].
    split; [apply new_file; [by apply prefix_app_r|by left]|]. split; [done|]. split; [done|]. split; [done|]. split; [done|]. split; [done|].
    split; [by eapply lessons_apart|]. split; [apply lesson_dirs|]. split; [|by destruct c].
    apply Forall2_fmap_l. eapply Forall2_impl_in; [exact Hl|]. intros l [lm es] Hin (Er' & Ei' & Ec & He). cbn [fst snd] in *.
    destruct (T3 l Hin) as [[T4 T5] T6].
    exists (ut_json (lb_manifest l)), (ut_instructions (lb_manifest l)), (ut_material (lb_manifest l)), (eb_dir <$> lb_exercises l). cbn [fst snd].
    split; [rewrite <- two_names; apply new_file; [by apply prefix_app_r|by apply lesson_file_in]|]. split; [done|].
    split; [done|]. split; [done|]. split; [done|]. split; [done|].
    split; [by eapply exercises_apart|]. split; [intros d; by apply exercise_dirs|].
    apply Forall2_fmap_l. eapply Forall2_impl_in; [exact He|]. intros e em Hin' (Er'' & E1 & E2 & E3).
    exists (et_json (eb_manifest e)), (et_asset (eb_manifest e)).
    split; [rewrite <- three_names; apply new_file; [by apply prefix_app_r|by apply exercise_file_in]|]. split; [done|]. split; [|done]. by apply T6.
  Qed.
  (** What is read afterwards was there. *)
  Lemma read_there c c' : course_given rd b c → course_reads rd f' dir c' → course_there f' parent b.
  Proof using Htree Hnew Hbuilt Hapart.
    intros (Er & Ei & Hl) (s & cf & cm & gen & ls & ds & E & Es & Hi & Hm & _ & _ & _ & Hds & Hls & _).
    rewrite (proj2 (new_file _ _ (prefix_app_r _ _ _ (reflexivity dir))) course_file_in) in E. injection E as <-. rewrite Er in Es. injection Es as <-.
    cbn [cf_instructions cf_material] in Hi, Hm. split; [done|]. fold dir. intros l Hin.
    assert (Hd : lb_dir l ∈ ds). { apply Hds. eexists. apply new_file; [by apply prefix_app_r|]. by apply lesson_file_in. }
    destruct (Forall2_in_l _ _ _ _ Hls Hd) as (x0 & _ & (s & i & m & es & E & Es & Hi' & Hm' & _ & _ & _ & Hes & Hex)).
    destruct (Forall2_in_l _ _ _ _ Hl Hin) as (y & _ & (Ey & _ & _ & Hye)).
    rewrite <- two_names in E. rewrite (proj2 (new_file _ _ (prefix_app_r _ _ _ (reflexivity dir))) (lesson_file_in l Hin)) in E. injection E as <-.
    rewrite Ey in Es. injection Es as E1 <- <-. split; [done|]. intros e He.
    assert (Hd' : eb_dir e ∈ es). { apply Hes. eexists. rewrite <- app_assoc. apply new_file; [by apply prefix_app_r|]. cbn [app]. by apply exercise_file_in. }
    destruct (Forall2_in_l _ _ _ _ Hex Hd') as (x1 & _ & (s & a & E & Es & Ha & _)).
    destruct (Forall2_in_l _ _ _ _ Hye He) as (z & _ & (Ez & _)).
    rewrite <- three_names in E. rewrite (proj2 (new_file _ _ (prefix_app_r _ _ _ (reflexivity dir))) (exercise_file_in l e Hin He)) in E. injection E as <-.
    rewrite Ez in Es. injection Es as _ <-. done.
  Qed.
  Lemma built_library root c cs : generates_locally rd → course_there f' parent b → root `prefix_of` parent → outside_courses f parent → course_given rd b c →
    library_reads rd f root nothing cs → library_reads rd f' root nothing (c :: cs).
  Proof using Hnames Hplain Htree Hnew Hbuilt Hapart.
    intros Hg Ht Hroot Hout Hc (dirs & Hn & Hd & H). exists (dir :: dirs).
    assert (Hold : ∀ d, d ∈ dirs → ¬ dir `prefix_of` d ∧ ¬ d `prefix_of` parent).
    { intros d Hin. apply Hd in Hin as (_ & [s Hs] & _). split.
      - intros Hp. rewrite (old_none (d ++ ["course_manifest.json"])) in Hs; [done|by apply prefix_app_r].
      - intros Hp. by apply (Hout d s Hp). }
    split; [|split].
    - constructor; [|done]. intros Hin. apply Hold in Hin as [Hin _]. by apply Hin.
    - intros d. rewrite elem_of_cons, Hd. unfold course_dir. split.
      + intros [->|(Ha & [s Hs] & _)].
        * split; [|split; [|by intros []]].
          { split; [by apply prefix_app_r|]. intros E. destruct Hroot as [r E']. unfold dir in E. subst parent. apply (f_equal length) in E. rewrite !app_length in E. cbn in E. lia. }
          eexists. apply new_file; [by apply prefix_app_r|]. apply course_file_in.
        * split; [done|]. split; [|by intros []]. exists s. apply old_file; [|done]. intros Hp. by rewrite (old_none _ Hp) in Hs.
      + intros (Ha & [s Hs] & _). destruct (decide (dir `prefix_of` d ++ ["course_manifest.json"])) as [Hp|Hp].
        * left. apply new_file in Hs; [|done]. destruct (manifest_files _ Hs "course_manifest.json") as [E|[(l & _ & E)|(l & e & _ & _ & E)]].
          -- cbn [fst]. by rewrite last_snoc.
          -- apply r_course.
          -- injection E as E _. by apply app_inj_tail in E as [-> _].
          -- injection E as E _. rewrite two_names in E. by apply app_inj_tail in E as [_ ?].
          -- injection E as E _. rewrite three_names in E. by apply app_inj_tail in E as [_ ?].
        * right. split; [done|]. split; [|by intros []]. exists s. by rewrite <- (old_file _ _ Hp).
    - constructor; [by apply built_reads|]. eapply Forall2_impl_in; [exact H|]. intros d c' Hin Hr. destruct (Hold d Hin) as [H1 H2].
      apply course_frame with f; [|intros; apply Hg; intros p Hp; symmetry; by apply apart_same with d|done].
      split; [intros p s n Hp _ _; by rewrite (apart_same d p H1 H2 Hp)|]. intros p _. apply still_there.
  Qed.
End build.

Lemma build_then_open rd walk : walks walk → generates_locally rd → ∀ parent b c f n n' f' cwd root cs,
  names_given b → course_plain b → apart (course_files parent b) → course_given rd b c →
  tree f → f !! (parent ++ [cb_dir b]) = None → outside_courses f parent → locate cwd root `prefix_of` parent →
  scan_courses rd walk cwd f root [] = Some cs → build_course parent b n f = Over () n' f' → course_there f' parent b →
  ∃ cs', scan_courses rd walk cwd f' root [] = Some cs' ∧ same_courses (c :: cs) cs'.
Proof.
  intros Hw Hg parent b c f n n' f' cwd root cs HN HP HA Hc Ht Hnew Hout Hroot Hs Hb Hr. apply library_complete; [done|].
  eapply built_library; try done. by eapply library_exact.
Qed.
Lemma build_breaks rd walk : walks walk → ∀ parent b c f n n' f' cwd root,
  apart (course_files parent b) → course_given rd b c →
  tree f → f !! (parent ++ [cb_dir b]) = None → locate cwd root `prefix_of` parent →
  build_course parent b n f = Over () n' f' → ¬ course_there f' parent b → scan_courses rd walk cwd f' root [] = None.
Proof.
  intros Hw parent b c f n n' f' cwd root HA Hc Ht Hnew [r Hroot] Hb Hr. destruct (scan_courses rd walk cwd f' root []) as [cs|] eqn:E; [|done].
  exfalso. apply Hr. apply library_exact in E as (dirs & _ & Hd & Hc'); [|done].
  assert (Hin : parent ++ [cb_dir b] ∈ dirs).
  { apply Hd. split; [split|split; [|by intros []]].
    - rewrite Hroot, <- app_assoc. by apply prefix_app_r.
    - rewrite Hroot. intros E. apply (f_equal length) in E. rewrite !app_length in E. cbn in E. lia.
    - eexists. eapply new_file; [done..|by apply prefix_app_r|]. apply course_file_in. }
  destruct (Forall2_in_l _ _ _ _ Hc' Hin) as (c' & _ & H). by eapply read_there.
Qed.
Lemma build_then_library rd walk : walks walk → generates_locally rd → generates_consistently rd → ∀ o o' parent b c f n n' f' cwd root cs lib,
  order_ok o → order_ok o' → names_given b → course_plain b → apart (course_files parent b) → course_given rd b c →
  tree f → f !! (parent ++ [cb_dir b]) = None → outside_courses f parent → locate cwd root `prefix_of` parent →
  scan_courses rd walk cwd f root [] = Some cs → build_course parent b n f = Over () n' f' → course_there f' parent b →
  open_library o (c :: cs) = Some lib → ∃ lib', open_from_disk rd walk o' cwd f' root [] = Some lib' ∧ agree lib lib'.
Proof.
  intros Hw Hg Hg' o o' parent b c f n n' f' cwd root cs lib Ho Ho' HN HP HA Hc Ht Hnew Hout Hroot Hs Hb Hr Hlib.
  pose proof (library_exact rd walk Hw _ _ _ _ Hs) as Hold.
  assert (Hnow : library_reads rd f' (locate cwd root) nothing (c :: cs)) by (eapply built_library; done).
  destruct (library_complete rd walk Hw _ _ _ _ Hnow) as (cs' & E & Hsame). unfold open_from_disk. rewrite E. cbn [mbind option_bind].
  destruct (same_opened (c :: cs) cs' o o' Hsame (reads_consistent _ _ _ _ _ Hg' Hnow) Ho Ho') as [H1 H2].
  destruct (open_library o' cs') as [lib'|] eqn:E'; [|destruct H1 as [[? ?] _]; [by rewrite Hlib|done]]. exists lib'. split; [done|]. by apply H2.
Qed.
