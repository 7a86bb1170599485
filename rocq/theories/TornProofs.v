(** Proofs about a course whose writing is interrupted. *)
From stdpp Require Import gmap strings list.
From Coq Require Import Ascii.
From Verif Require Import F32 Graph GraphSpec Library LibrarySpec LibraryQueries Options FileSystem FileSpec FileProofs BuildProofs Walk WalkSpec WalkProofs WalkMore WalkBuild Json Serde SerdeSpec SerdeProofs SerdeMore SerdeFiles Manifests ManifestSpec ManifestProofs ManifestMore TornSpec.
Local Open Scope string_scope.
Local Open Scope list_scope.

(** ** Lists *)
Lemma picks {A B K : Type} (key : A → K) (g : A → B) (R : B → B → Prop) l (ds : list K) ys : NoDup ds →
  Forall2 (λ d y, ∃ a, a ∈ l ∧ key a = d ∧ R y (g a)) ds ys → ∃ zs, zs ⊆+ g <$> l ∧ Forall2 R ys zs.
Proof.
  intros Hn H. assert (∃ xs, Forall (λ x, x ∈ l) xs ∧ key <$> xs = ds ∧ Forall2 R ys (g <$> xs)) as (xs & H1 & H2 & H3).
  { clear Hn. induction H as [|d y ds ys (a & Ha & Hk & Hr) _ (xs & H1 & H2 & H3)]; [exists []; by repeat constructor|].
    exists (a :: xs). split; [by constructor|]. split; [cbn; by rewrite Hk, H2|by constructor]. }
  exists (g <$> xs). split; [|done]. apply fmap_submseteq. apply NoDup_submseteq.
  - apply (NoDup_fmap_1 key). by rewrite H2.
  - intros x Hx. by apply (proj1 (Forall_forall _ _) H1).
Qed.
Lemma same_key {A K : Type} (key : A → K) l x y : NoDup (key <$> l) → x ∈ l → y ∈ l → key x = key y → x = y.
Proof.
  intros Hn Hx Hy E. apply elem_of_list_lookup in Hx as [i Hi], Hy as [j Hj]. assert (i = j) as ->; [|congruence].
  apply (NoDup_lookup _ i j (key x) Hn); rewrite list_lookup_fmap; [by rewrite Hi|by rewrite Hj, E].
Qed.
Lemma Forall2_eq_r {A : Type} (l k : list A) : Forall2 eq l k → l = k.
Proof. induction 1; congruence. Qed.

Section torn.
  Context (show : f32 → list ascii) (read : list ascii → option f32).
  Context (gen : files → path → course_manifest → string → option (list (lesson_manifest * list exercise_manifest) * metadata)).
  Hypothesis (Hnum : exact_numbers show read).
  Notation rd := (json_readers show read gen).
  Notation B := (course_builder_of show read).

  (** ** Texts that were cut off *)
  Lemma exercise_torn e s x : starts s (et_json (eb_manifest (exercise_builder_of e))) → read_exercise_text rd s = Some x → ef_manifest x = planned_exercise e.
  Proof using.
    intros Hs. cbn [et_json eb_manifest exercise_builder_of] in Hs. cbn [read_exercise_text json_readers].
    destruct (exercise_cut true (xp_data e) s line_end line_blank Hs) as [-> | ->]; [done|]. by intros [= <-].
  Qed.
  Lemma lesson_torn l s x : finite_weights (ld_encompassed (lp_data l)) → starts s (ut_json (lb_manifest (lesson_builder_of show read l))) → read_lesson_text rd s = Some x →
    lf_manifest x = (planned_lesson l).1.
  Proof using Hnum.
    intros Hf Hs. cbn [ut_json lb_manifest lesson_builder_of] in Hs. cbn [read_lesson_text json_readers].
    destruct (lesson_cut show read true (lp_data l) Hnum Hf s line_end line_blank Hs) as [-> | ->]; [done|]. by intros [= <-].
  Qed.
  Lemma course_torn c s x : course_sound c → starts s (ut_json (cb_manifest (B c))) → read_course_text rd s = Some x →
    cf_manifest x = oc_manifest (planned c) ∧ cf_generator x = None.
  Proof using Hnum.
    intros (_ & Hg & Hf & _) Hs. cbn [ut_json cb_manifest course_builder_of] in Hs. cbn [read_course_text json_readers].
    assert (course_ok (cp_data c)) as Hok by (unfold course_ok; by rewrite Hg).
    destruct (course_cut show read true (cp_data c) Hnum Hok Hf s line_end line_blank Hs) as [-> | ->]; [done|]. cbn [mbind option_bind]. rewrite Hg. by intros [= <-].
  Qed.

  Context (parent : path) (c : course_plan) (n : option nat) (f : files).
  Hypothesis (Hsound : course_sound c) (Hfiles : files_fine parent (B c)) (Ht : tree f) (Hp : f !! parent = Some Dir) (Hnew : f !! (parent ++ [cp_dir c]) = None).
  Let dir := parent ++ [cp_dir c].
  Let f' := final (build_course parent (B c) n f).

  (** ** The files *)
  Lemma torn_file p s : dir `prefix_of` p → f' !! p = Some (File s) → ∃ t, (p, t) ∈ course_files parent (B c) ∧ starts s t.
  Proof using Ht Hnew.
    intros Hd E. destruct (course_while parent (B c) n f p) as [H|[(_ & H & _)|(s' & t & H & Hs & H')]]; fold f' in H || fold f' in H'.
    - rewrite (tree_none f _ _ Ht Hd Hnew) in H. congruence.
    - congruence.
    - exists t. split; [done|]. rewrite E in H'. apply same_file in H' as ->. done.
  Qed.
  Lemma torn_outside p : ¬ dir `prefix_of` p → f' !! p = f !! p.
  Proof using Ht Hp.
    intros Hd. destruct (course_outside parent (B c) n f p Hd) as [H|(H & _ & Hpre)]; [done|]. by rewrite (tree_prefix f parent p Ht Hpre Hp) in H.
  Qed.
  Lemma torn_course s : f' !! (dir ++ ["course_manifest.json"]) = Some (File s) → starts s (ut_json (cb_manifest (B c))).
  Proof using Hfiles Ht Hnew.
    intros E. apply torn_file in E as (t & Hin & Hs); [|by apply prefix_app_r]. destruct Hfiles as (HN & HP & _).
    destruct (manifest_files parent (B c) HN HP _ Hin "course_manifest.json") as [E|[(l & _ & E)|(l & e & _ & _ & E)]]; [cbn [fst]; by rewrite last_snoc|apply r_course| | |].
    - apply (f_equal snd) in E. cbn [snd] in E. by rewrite <- E.
    - apply (f_equal fst) in E. cbn [fst] in E. by apply app_inv_head in E.
    - apply (f_equal fst) in E. cbn [fst] in E. by apply app_inv_head in E.
  Qed.
  Lemma torn_lesson d s : f' !! (dir ++ [d; "lesson_manifest.json"]) = Some (File s) →
    ∃ l, l ∈ cp_lessons c ∧ lp_dir l = d ∧ starts s (ut_json (lb_manifest (lesson_builder_of show read l))).
  Proof using Hfiles Ht Hnew.
    intros E. apply torn_file in E as (t & Hin & Hs); [|by apply prefix_app_r]. destruct Hfiles as (HN & HP & _).
    destruct (manifest_files parent (B c) HN HP _ Hin "lesson_manifest.json") as [E|[(l & Hl & E)|(l & e & _ & _ & E)]]; [cbn [fst]; by rewrite two_names, last_snoc|apply r_lesson| | |].
    - apply (f_equal fst) in E. cbn [fst] in E. by apply app_inv_head in E.
    - apply elem_of_list_fmap in Hl as (l' & -> & Hl). exists l'. split; [done|]. pose proof (f_equal fst E) as E1. apply (f_equal snd) in E. cbn [fst snd] in E, E1.
      apply app_inv_head in E1. injection E1 as ->. split; [done|]. by rewrite <- E.
    - apply (f_equal fst) in E. cbn [fst] in E. by apply app_inv_head in E.
  Qed.
  Lemma torn_exercise l d s : l ∈ cp_lessons c → f' !! (dir ++ [lp_dir l; d; "exercise_manifest.json"]) = Some (File s) →
    ∃ e, e ∈ lp_exercises l ∧ xp_dir e = d ∧ starts s (et_json (eb_manifest (exercise_builder_of e))).
  Proof using Hfiles Ht Hnew.
    intros Hl E. apply torn_file in E as (t & Hin & Hs); [|by apply prefix_app_r]. destruct Hfiles as (HN & HP & HA).
    destruct (manifest_files parent (B c) HN HP _ Hin "exercise_manifest.json") as [E|[(l' & _ & E)|(l' & e & Hl' & He & E)]]; [cbn [fst]; by rewrite three_names, last_snoc|apply r_exercise| | |].
    - apply (f_equal fst) in E. cbn [fst] in E. by apply app_inv_head in E.
    - apply (f_equal fst) in E. cbn [fst] in E. by apply app_inv_head in E.
    - apply elem_of_list_fmap in Hl' as (m & -> & Hm). apply elem_of_list_fmap in He as (e' & -> & He).
      pose proof (f_equal fst E) as E1. apply (f_equal snd) in E. cbn [fst snd] in E, E1. apply app_inv_head in E1. injection E1 as E1 ->.
      assert (m = l) as ->.
      { apply (same_key lp_dir (cp_lessons c)); [|done|done|by symmetry]. pose proof (lessons_apart parent (B c) HA) as Hd. cbn [cb_lessons course_builder_of] in Hd.
        rewrite <- list_fmap_compose in Hd. exact Hd. }
      exists e'. split; [done|]. split; [done|]. by rewrite <- E.
  Qed.

  (** ** What is read *)
  Lemma torn_lesson_reads cm d x : lesson_reads rd f' cm (dir ++ [d]) x → ∃ l, l ∈ cp_lessons c ∧ lp_dir l = d ∧ part_lesson x (planned_lesson l).
  Proof using Hnum Hsound Hfiles Ht Hnew.
    intros (s & i & m & ds & E & Er & _ & _ & _ & _ & Hn & _ & He). rewrite <- app_assoc in E. apply torn_lesson in E as (l & Hl & Hd & Hs).
    exists l. split; [done|]. split; [done|]. destruct Hsound as (_ & _ & _ & Hls). apply (proj1 (Forall_forall _ _) Hls) in Hl as Hl'. destruct Hl' as (_ & _ & Hf & _).
    split; [exact (lesson_torn l s _ Hf Hs Er)|]. destruct (picks xp_dir planned_exercise eq (lp_exercises l) ds x.2 Hn) as (zs & Hz & Hy).
    - eapply Forall2_impl; [exact He|]. intros d' em (s' & a & E' & Er' & _). rewrite <- !app_assoc, <- Hd in E'. apply torn_exercise in E' as (e & He' & Hx & Hs'); [|done].
      exists e. split; [done|]. split; [done|]. exact (exercise_torn e s' _ Hs' Er').
    - apply Forall2_eq_r in Hy as ->. exact Hz.
  Qed.
  Lemma torn_course_reads x : course_reads rd f' dir x → part_course x (planned c).
  Proof using Hnum Hsound Hfiles Ht Hnew.
    intros (s & cf & cm & gn & ls & ds & E & Er & _ & _ & _ & Hgen & Hn & _ & Hl & ->). apply torn_course in E.
    destruct (course_torn c s cf Hsound E Er) as [Hm Hg]. rewrite Hg in Hgen. destruct Hgen as [-> ->]. split; [done|]. cbn [oc_lessons app].
    apply (picks lp_dir planned_lesson part_lesson (cp_lessons c) ds ls Hn). eapply Forall2_impl; [exact Hl|]. intros d y Hy. exact (torn_lesson_reads _ d y Hy).
  Qed.

  Context (walk : files → path → list path).
  Hypothesis (Hwalk : walks walk) (Hloc : generates_locally rd) (Hout : outside_courses f parent).
  Lemma old_dir root d : course_dir f' root nothing d → d ≠ dir → ¬ dir `prefix_of` d ++ ["course_manifest.json"] ∧ ¬ d `prefix_of` parent ∧ course_dir f root nothing d.
  Proof using Hfiles Ht Hp Hnew Hout.
    intros (Ha & [s Hs] & _) Hne. assert (¬ dir `prefix_of` d ++ ["course_manifest.json"]) as Hd.
    { intros Hpre. pose proof Hs as Hs'. apply torn_file in Hs' as (t & Hin & _); [|done]. destruct Hfiles as (HN & HP & _).
      destruct (manifest_files parent (B c) HN HP _ Hin "course_manifest.json") as [E|[(l & _ & E)|(l & e & _ & _ & E)]]; [cbn [fst]; by rewrite last_snoc|apply r_course| | |];
        apply (f_equal fst) in E; cbn [fst] in E.
      - by apply app_inj_tail in E as [-> _].
      - rewrite two_names in E. by apply app_inj_tail in E as [_ ?].
      - rewrite three_names in E. by apply app_inj_tail in E as [_ ?]. }
    rewrite (torn_outside _ Hd) in Hs. split; [done|]. split; [intros Hpre; by apply (Hout d s Hpre)|]. split; [done|]. split; [by exists s|by intros []].
  Qed.
  Lemma below_old d p : ¬ dir `prefix_of` d ++ ["course_manifest.json"] → ¬ d `prefix_of` parent → d ≠ dir → d `prefix_of` p → f' !! p = f !! p.
  Proof using Ht Hp.
    intros H1 H2 H3 Hd. apply torn_outside. intros Hpre. destruct (prefix_weak_total _ _ _ Hd Hpre) as [[r E]|H].
    - destruct r as [|y r _] using rev_ind; [rewrite app_nil_r in E; by apply H3|]. unfold dir in E. rewrite app_assoc in E. apply app_inj_tail in E as [E _]. apply H2. by exists r.
    - apply H1. by apply prefix_app_r.
  Qed.
  Lemma new_dir root d : course_dir f root nothing d → course_dir f' root nothing d ∧ d ≠ dir.
  Proof using Ht Hp Hnew.
    intros (Ha & [s Hs] & _). assert (¬ dir `prefix_of` d ++ ["course_manifest.json"]) as Hd by (intros H; by rewrite (tree_none f _ _ Ht H Hnew) in Hs).
    split; [split; [done|split; [|by intros []]]; exists s; by rewrite (torn_outside _ Hd)|]. intros ->. apply Hd. by apply prefix_app_r.
  Qed.
  Lemma old_reads root dirs cs : NoDup dirs → (∀ d, d ∈ dirs ↔ course_dir f' root nothing d ∧ d ≠ dir) → Forall2 (course_reads rd f') dirs cs → library_reads rd f root nothing cs.
  Proof using Hfiles Ht Hp Hnew Hout Hloc.
    intros Hn Hd Hr. exists dirs. split; [done|]. split.
    - intros d. rewrite Hd. split; [intros [H1 H2]; by apply old_dir|apply new_dir].
    - eapply Forall2_impl_in; [exact Hr|]. intros d x Hin Hx. apply Hd in Hin as [H1 H2]. destruct (old_dir _ _ H1 H2) as (H3 & H4 & _).
      assert (∀ p, d `prefix_of` p → f' !! p = f !! p) as Hs by (intros p; by apply below_old).
      apply course_frame with f'; [|intros; apply Hloc; exact Hs|done]. split; [intros p s k Hpre _ _; by rewrite Hs|intros p Hpre; by rewrite Hs].
  Qed.
  Lemma torn_scan cwd g cs' : scan_courses rd walk cwd f' g [] = Some cs' →
    ∃ cs old new, scan_courses rd walk cwd f g [] = Some cs ∧ same_courses old cs ∧ cs' ≡ₚ new ++ old ∧ (new = [] ∨ ∃ x, new = [x] ∧ part_course x (planned c)).
  Proof using Hnum Hsound Hfiles Ht Hp Hnew Hwalk Hloc Hout.
    intros E. apply library_exact in E as (dirs & Hn & Hd & Hr); [|done]. destruct (decide (dir ∈ dirs)) as [Hin|Hin].
    - apply elem_of_list_split in Hin as (l1 & l2 & ->). apply Forall2_app_inv_l in Hr as (k1 & k2' & Hr1 & Hr2 & ->).
      apply Forall2_cons_inv_l in Hr2 as (x & k2 & Hx & Hr2 & ->).
      assert (NoDup (dir :: l1 ++ l2)) as Hn' by (by rewrite Permutation_middle). apply NoDup_cons in Hn' as [Hni Hn'].
      destruct (library_complete rd walk Hwalk cwd f g (k1 ++ k2)) as (cs & Hcs & Hsame).
      { apply (old_reads _ (l1 ++ l2)); [done| |by apply Forall2_app]. intros d. rewrite <- Hd, !elem_of_app, elem_of_cons. split.
        - intros H. split; [tauto|]. intros ->. apply Hni. by apply elem_of_app.
        - intros [[H|[H|H]] Hne]; [by left|done|by right]. }
      exists cs, (k1 ++ k2), [x]. split; [done|]. split; [done|]. split; [symmetry; apply (Permutation_middle k1 k2 x)|]. right. exists x. split; [done|]. by apply torn_course_reads.
    - destruct (library_complete rd walk Hwalk cwd f g cs') as (cs & Hcs & Hsame).
      { apply (old_reads _ dirs); [done| |done]. intros d. rewrite <- Hd. split; [|tauto]. intros H. split; [done|]. by intros ->. }
      exists cs, cs', []. split; [done|]. split; [done|]. split; [done|]. by left.
  Qed.
End torn.
