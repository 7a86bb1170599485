(** Proofs about a library that is written course by course. *)
From stdpp Require Import gmap strings list.
From Coq Require Import Ascii.
From Verif Require Import F32 Graph GraphSpec Library LibrarySpec LibraryQueries Options FileSystem FileSpec FileProofs BuildProofs Walk WalkSpec WalkProofs WalkMore WalkBuild Json Serde SerdeSpec SerdeProofs SerdeMore SerdeFiles Manifests ManifestSpec ManifestProofs.
Local Open Scope string_scope.
Local Open Scope list_scope.

Lemma inside_dir parent b w : w ∈ course_files parent b → parent ++ [cb_dir b] `prefix_of` w.1.
Proof. intros H. destruct (course_inside _ _ _ H) as [[? _]| ->]; done. Qed.
(** ** What a course leaves as it is *)
Lemma tree_built parent b n f n' f' : tree f → f !! parent = Some Dir → f !! (parent ++ [cb_dir b]) = None → apart (course_files parent b) →
  build_course parent b n f = Over () n' f' → tree f'.
Proof.
  intros Ht Hp Hnew HA Hb. assert (Hold : ∀ p m, f !! p = Some m → last_at p (course_files parent b) = None).
  { intros p m E. apply last_at_none. intros w Hw <-. rewrite (tree_none f _ _ Ht (inside_dir _ _ _ Hw) Hnew) in E. done. }
  split.
  - rewrite (course_exact _ _ _ _ _ _ _ Hb). unfold after_writing. destruct Ht as [H0 _]. by rewrite (Hold _ _ H0), H0.
  - intros p x m E. assert (Hex : f' !! (p ++ [x]) ≠ None) by congruence. apply (course_exists _ _ _ _ _ _ _ Hb) in Hex.
    rewrite (course_exact _ _ _ _ _ _ _ Hb). unfold after_writing. destruct Hex as [Hex|(w & Hw & Hpre)].
    + destruct (f !! (p ++ [x])) as [m'|] eqn:E'; [|done]. apply (proj2 Ht) in E'. by rewrite (Hold _ _ E'), E'.
    + assert (above p w.1) as Hab.
      { split; [etrans; [|exact Hpre]; by apply prefix_app_r|]. intros E'. apply prefix_length in Hpre. rewrite <- E', app_length in Hpre. cbn in Hpre. lia. }
      destruct (last_at p (course_files parent b)) as [s|] eqn:El.
      { exfalso. apply last_at_some in El. apply elem_of_list_lookup in El as [i Hi], Hw as [j Hj]. destruct Hab as [Hab Hne].
        refine (HA i j _ _ Hi Hj _ Hab). intros ->. rewrite Hi in Hj. injection Hj as <-. done. }
      destruct (f !! p) as [m'|] eqn:E'.
      * f_equal. assert (f !! p = Some Dir) as HD; [|congruence]. destruct Hab as [Hab _].
        destruct (prefix_weak_total _ _ _ Hab (inside_dir _ _ _ Hw)) as [H1|H1]; [|by rewrite (tree_none f _ _ Ht H1 Hnew) in E'].
        destruct H1 as [r Er]. destruct r as [|y r _] using rev_ind; [rewrite app_nil_r in Er; congruence|]. rewrite app_assoc in Er. apply app_inj_tail in Er as [Er _].
        apply (tree_prefix f parent p Ht); [by exists r|done].
      * destruct (decide _) as [|Hno]; [done|]. exfalso. apply Hno. apply Exists_exists. by exists w.
Qed.
Lemma kept_built parent b n f n' f' p m : tree f → f !! (parent ++ [cb_dir b]) = None → build_course parent b n f = Over () n' f' →
  f !! p = Some m → f' !! p = Some m.
Proof.
  intros Ht Hnew Hb E. rewrite (course_exact _ _ _ _ _ _ _ Hb). unfold after_writing.
  destruct (last_at p _) as [s|] eqn:El; [|by rewrite E]. apply last_at_some in El. apply inside_dir in El. cbn [fst] in El. by rewrite (tree_none f _ _ Ht El Hnew) in E.
Qed.
Lemma other_dir parent b n f n' f' d : build_course parent b n f = Over () n' f' → d ≠ cb_dir b → f !! (parent ++ [d]) = None → f' !! (parent ++ [d]) = None.
Proof.
  intros Hb Hd E. destruct (f' !! (parent ++ [d])) as [m|] eqn:E'; [|done]. exfalso.
  assert (f' !! (parent ++ [d]) ≠ None) as Hex by congruence. apply (course_exists _ _ _ _ _ _ _ Hb) in Hex as [?|(w & Hw & Hpre)]; [done|].
  apply inside_dir in Hw. destruct Hpre as [r1 E1], Hw as [r2 E2]. rewrite E1, <- !app_assoc in E2. apply app_inv_head in E2. by injection E2.
Qed.
Lemma outside_built parent b n f n' f' : tree f → f !! (parent ++ [cb_dir b]) = None → apart (course_files parent b) → build_course parent b n f = Over () n' f' →
  outside_courses f parent → outside_courses f' parent.
Proof.
  intros Ht Hnew HA Hb Ho d s Hd E. destruct (decide (parent ++ [cb_dir b] `prefix_of` d ++ ["course_manifest.json"])) as [Hp|Hp].
  - pose proof (prefix_length _ _ Hp) as L1. pose proof (prefix_length _ _ Hd) as L2. rewrite !app_length in L1. cbn in L1.
    destruct Hp as [r Er]. assert (r = []) as ->. { apply (f_equal length) in Er. rewrite !app_length in Er. cbn in Er. destruct r; [done|]. cbn in Er. lia. }
    rewrite app_nil_r in Er. apply app_inj_tail in Er as [<- Er]. assert (Hin : (d ++ [cb_dir b; "course_manifest.json"], ut_json (cb_manifest b)) ∈ course_files d b).
    { unfold course_files. cbv zeta. rewrite <- app_assoc. by left. }
    apply (course_contains _ _ _ _ _ _ _ Hb HA) in Hin as Hc.
    assert (Ht' := course_exact _ _ _ _ _ _ _ Hb (d ++ ["course_manifest.json"])). rewrite E in Ht'. unfold after_writing in Ht'.
    rewrite <- Er in Hnew. destruct (last_at _ _) as [t|] eqn:El.
    + apply last_at_some in El. apply elem_of_list_lookup in El as [i Hi], Hin as [j Hj]. assert (i ≠ j) as Hij.
      { intros ->. rewrite Hi in Hj. injection Hj as Hj _. apply (f_equal length) in Hj. rewrite !app_length in Hj. cbn in Hj. lia. }
      apply (HA _ _ _ _ Hi Hj Hij). cbn [fst]. rewrite <- Er. exists ["course_manifest.json"]. by rewrite <- app_assoc.
    + rewrite Hnew in Ht'. destruct (decide _); done.
  - destruct (course_outside parent b n f (d ++ ["course_manifest.json"]) Hp) as [H|(_ & H & _)]; rewrite Hb in H; cbn [final] in H; [|congruence].
    rewrite E in H. symmetry in H. by apply (Ho d s Hd).
Qed.

(** ** A library that is built course by course *)
Section all.
  Context (show : f32 → list ascii) (read : list ascii → option f32).
  Context (gen : files → path → course_manifest → string → option (list (lesson_manifest * list exercise_manifest) * metadata)).
  Hypothesis (Hnum : exact_numbers show read).
  Notation rd := (json_readers show read gen).
  Notation B := (course_builder_of show read).
  Hypothesis (Hloc : generates_locally rd).

  Lemma all_built root plans : ∀ f cs, tree f → f !! root = Some Dir → outside_courses f root →
    Forall (λ c, course_fine c ∧ files_fine root (B c)) plans → NoDup (cp_dir <$> plans) → (∀ c, c ∈ plans → f !! (root ++ [cp_dir c]) = None) →
    library_reads rd f root nothing cs →
    ∃ f', each (build_course root) (B <$> plans) None f = Over () None f' ∧ library_reads rd f' root nothing (reverse (planned <$> plans) ++ cs).
  Proof using Hnum Hloc.
    induction plans as [|c plans IH]; intros f cs Ht Hroot Ho Hall Hnd Hnew Hr; [by exists f|].
    apply Forall_cons in Hall as [[[Hc Hw] (HN & HP & HA)] Hall]. cbn in Hnd. apply NoDup_cons in Hnd as [Hc' Hnd].
    assert (Hn : f !! (root ++ [cb_dir (B c)]) = None) by (apply (Hnew c); by left).
    destruct (course_builds root (B c) f Ht Hroot Hn HN HA) as [f1 Hb].
    assert (library_reads rd f1 root nothing (planned c :: cs)) as Hr1.
    { eapply built_library; try done; [by eapply plan_there|by apply plan_course]. }
    destruct (IH f1 (planned c :: cs)) as (f2 & Hb2 & Hr2); [by eapply tree_built|by eapply kept_built|by eapply outside_built|done|done| |done|].
    { intros c2 Hc2. eapply other_dir; [exact Hb| |apply Hnew; by right]. intros E. apply Hc'. apply elem_of_list_fmap. exists c2. split; [by symmetry|done]. }
    exists f2. split.
    - rewrite fmap_cons. cbn [each]. unfold bind. rewrite Hb. exact Hb2.
    - rewrite fmap_cons, reverse_cons, <- app_assoc. exact Hr2.
  Qed.

  Context (walk : files → path → list path).
  Hypothesis (Hwalk : walks walk).
  Lemma nothing_read f root : (∀ p, above root p → f !! p = None) → library_reads rd f root nothing [].
  Proof using.
    intros H. exists []. split; [constructor|]. split; [|constructor]. intros d. split; [by intros ?%elem_of_nil|].
    intros ([Hp Hne] & [s Hs] & _). rewrite H in Hs; [done|]. split; [by apply prefix_app_r|]. intros ->. apply prefix_length in Hp. rewrite app_length in Hp. cbn in Hp. lia.
  Qed.
  Lemma all_opened root plans cwd g f : tree f → f !! root = Some Dir → (∀ p, above root p → f !! p = None) → outside_courses f root →
    Forall (λ c, course_fine c ∧ files_fine root (B c)) plans → NoDup (cp_dir <$> plans) → locate cwd g = root →
    ∃ f', each (build_course root) (B <$> plans) None f = Over () None f' ∧
      (∃ cs, scan_courses rd walk cwd f' g [] = Some cs ∧ same_courses (planned <$> plans) cs) ∧
      (generates_consistently rd → ∀ o o' lib, order_ok o → order_ok o' → open_library o (planned <$> plans) = Some lib →
        ∃ lib', open_from_disk rd walk o' cwd f' g [] = Some lib' ∧ agree lib lib').
  Proof using Hnum Hloc Hwalk.
    intros Ht Hroot Hempty Ho Hall Hnd <-.
    destruct (all_built (locate cwd g) plans f [] Ht Hroot Ho Hall Hnd) as (f' & Hb & Hr); [|by apply nothing_read|].
    { intros c _. apply Hempty. split; [by apply prefix_app_r|]. intros E. apply (f_equal length) in E. rewrite app_length in E. cbn in E. lia. }
    rewrite app_nil_r in Hr. exists f'. split; [done|]. destruct (library_complete rd walk Hwalk _ _ _ _ Hr) as (cs & E & k & Hk1 & Hk2).
    assert (same_courses (planned <$> plans) cs) as Hs. { exists k. split; [|done]. rewrite <- Hk1. symmetry. apply reverse_Permutation. }
    split; [by exists cs|]. intros Hg o o' lib Ho1 Ho2 Hlib. unfold open_from_disk. rewrite E. cbn [mbind option_bind].
    assert (Forall consistent (planned <$> plans)) as Hcons.
    { eapply Permutation_Forall; [apply reverse_Permutation|]. eapply reads_consistent; [exact Hg|exact Hr]. }
    destruct (same_opened _ cs o o' Hs Hcons Ho1 Ho2) as [H1 H2].
    destruct (open_library o' cs) as [lib'|] eqn:E'; [|destruct H1 as [[? ?] _]; [by rewrite Hlib|done]]. exists lib'. split; [done|]. by apply H2.
  Qed.

  (** ** A path that leads nowhere *)
  Lemma missing_file parent c f n n' f' cwd g dir t : course_sound c → files_fine parent (B c) → tree f → f !! (parent ++ [cp_dir c]) = None →
    locate cwd g `prefix_of` parent → build_course parent (B c) n f = Over () n' f' →
    mentions parent c dir t → is_rooted t = false → f' !! (dir ++ path_of t) = None → scan_courses rd walk cwd f' g [] = None.
  Proof using Hnum Hwalk.
    intros Hc (_ & _ & HA) Ht Hnew Hroot Hb Hm Hrel Hnone.
    eapply (build_breaks rd walk Hwalk parent (B c)); [done|by apply plan_course|done|done|done|done|].
    intros Hthere. by apply (there_mentioned show read parent c f' dir t Hthere Hm Hrel).
  Qed.

  (** ** Manifests that cannot be read *)
  Lemma same_file (a b : string) : Some (File a) = Some (File b) → a = b. Proof using. by intros [=]. Qed.
  Lemma lesson_text_bad l : ¬ finite_weights (ld_encompassed (lp_data l)) → read_lesson_text rd (ut_json (lb_manifest (lesson_builder_of show read l))) = None.
  Proof using Hnum.
    intros H. cbn [read_lesson_text json_readers lb_manifest lesson_builder_of ut_json]. by rewrite (lesson_bad _ _ _ _ _ Hnum H line_blank).
  Qed.
  Lemma course_text_bad c : course_ok (cp_data c) → ¬ finite_weights (cd_encompassed (cp_data c)) → read_course_text rd (ut_json (cb_manifest (B c))) = None.
  Proof using Hnum.
    intros Hok H. cbn [read_course_text json_readers cb_manifest course_builder_of ut_json]. by rewrite (course_bad _ _ _ _ _ Hnum Hok H line_blank).
  Qed.
  Lemma course_text_deep c : course_ok (cp_data c) → 62 < course_levels (cp_data c) → read_course_text rd (ut_json (cb_manifest (B c))) = None.
  Proof using Hnum.
    intros Hok H. destruct (decide (finite_weights (cd_encompassed (cp_data c)))) as [Hf|Hf]; [|by apply course_text_bad].
    cbn [read_course_text json_readers cb_manifest course_builder_of ut_json]. rewrite (course_again _ _ _ _ _ Hnum Hok Hf line_blank).
    destruct (Nat.leb_spec (course_levels (cp_data c)) 62) as [H'|H']; [|reflexivity]. exfalso. exact (Nat.lt_irrefl _ (Nat.lt_le_trans _ _ _ H H')).
  Qed.
  Lemma unreadable parent c l f n n' f' cwd g : files_fine parent (B c) → tree f → f !! (parent ++ [cp_dir c]) = None → locate cwd g `prefix_of` parent →
    build_course parent (B c) n f = Over () n' f' → course_ok (cp_data c) →
    (¬ finite_weights (cd_encompassed (cp_data c)) ∨ 62 < course_levels (cp_data c) ∨ (l ∈ cp_lessons c ∧ ¬ finite_weights (ld_encompassed (lp_data l)))) →
    scan_courses rd walk cwd f' g [] = None.
  Proof using Hnum Hwalk.
    intros (HN & HP & HA) Ht Hnew [r Hroot] Hb Hok Hbad. destruct (scan_courses rd walk cwd f' g []) as [cs|] eqn:E; [|done].
    exfalso. apply library_exact in E as (dirs & _ & Hd & Hc'); [|done].
    assert (Hcf : f' !! ((parent ++ [cp_dir c]) ++ ["course_manifest.json"]) = Some (File (ut_json (cb_manifest (B c))))).
    { apply (new_file parent (B c) f f' n n' () Ht Hnew Hb HA); [by apply prefix_app_r|]. apply (course_file_in parent (B c)). }
    assert (Hin : parent ++ [cp_dir c] ∈ dirs).
    { apply Hd. split; [split|split; [|by intros []]].
      - rewrite Hroot, <- app_assoc. by apply prefix_app_r.
      - rewrite Hroot. intros E. apply (f_equal length) in E. rewrite !app_length in E. cbn in E. lia.
      - by eexists. }
    destruct (Forall2_in_l _ _ _ _ Hc' Hin) as (c' & _ & (s & cf & cm & gn & ls & ds & Es & Ec & _ & _ & _ & _ & _ & Hds & Hls & _)).
    rewrite Hcf in Es. apply same_file in Es as <-.
    destruct Hbad as [Hbad|[Hbad|[Hl Hbad]]].
    - by rewrite (course_text_bad c Hok Hbad) in Ec.
    - by rewrite (course_text_deep c Hok Hbad) in Ec.
    - assert (Hlf : f' !! ((parent ++ [cp_dir c]) ++ [lp_dir l; "lesson_manifest.json"]) = Some (File (ut_json (lb_manifest (lesson_builder_of show read l))))).
      { apply (new_file parent (B c) f f' n n' () Ht Hnew Hb HA); [by apply prefix_app_r|]. apply (lesson_file_in parent (B c) (lesson_builder_of show read l)). by apply elem_of_list_fmap_1. }
      assert (Hlin : lp_dir l ∈ ds) by (apply Hds; by eexists).
      destruct (Forall2_in_l _ _ _ _ Hls Hlin) as (x & _ & (s & i & m & es & Es & El & _)). rewrite <- app_assoc in Es. cbn [app] in Es. rewrite Hlf in Es. apply same_file in Es as <-.
      by rewrite (lesson_text_bad l Hbad) in El.
  Qed.
End all.
