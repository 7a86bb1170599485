(** Proofs about courses that are written and read again. *)
From stdpp Require Import gmap strings list.
From Coq Require Import Ascii.
From Verif Require Import F32 Graph GraphSpec Library LibrarySpec LibraryQueries Options FileSystem FileSpec FileProofs BuildProofs Walk WalkSpec WalkProofs WalkMore WalkBuild Json Serde SerdeSpec SerdeProofs SerdeMore SerdeFiles Manifests ManifestSpec.
Local Open Scope string_scope.
Local Open Scope list_scope.

(** ** The texts *)
Section texts.
  Context (show : f32 → list ascii) (read : list ascii → option f32).
  Context (gen : files → path → course_manifest → string → option (list (lesson_manifest * list exercise_manifest) * metadata)).
  Hypothesis (Hnum : exact_numbers show read).
  Notation rd := (json_readers show read gen).
  Lemma line_blank : blank line_end. Proof using. reflexivity. Qed.

  Lemma plan_exercise l e : exercise_sound l e → exercise_given rd (lesson_of l) (exercise_builder_of e) (planned_exercise e).
  Proof using.
    intros (H1 & H2 & H3). split; [|done]. cbn [read_exercise_text json_readers eb_manifest exercise_builder_of et_json et_asset].
    by rewrite (exercise_again _ _ _ line_blank).
  Qed.
  Lemma plan_exercises l es : Forall (exercise_sound l) es → Forall2 (exercise_given rd (lesson_of l)) (exercise_builder_of <$> es) (planned_exercise <$> es).
  Proof using. induction 1 as [|e es H _ IH]; constructor; [by apply plan_exercise|done]. Qed.
  Lemma plan_lesson c l : lesson_sound c l → lesson_given rd (manifest_of c) (lesson_builder_of show read l) (planned_lesson l).
  Proof using Hnum.
    intros (H1 & H2 & H3 & H4). split; [|split; [done|split; [done|by apply plan_exercises]]].
    cbn [read_lesson_text json_readers lb_manifest lesson_builder_of ut_json ut_instructions ut_material].
    by rewrite (lesson_again _ _ _ _ _ Hnum H3 line_blank).
  Qed.
  Lemma plan_lessons c ls : Forall (lesson_sound c) ls → Forall2 (lesson_given rd (manifest_of c)) (lesson_builder_of show read <$> ls) (planned_lesson <$> ls).
  Proof using Hnum. induction 1 as [|l ls H _ IH]; constructor; [by apply plan_lesson|done]. Qed.
  Lemma plan_course c : course_sound c → course_given rd (course_builder_of show read c) (planned c).
  Proof using Hnum.
    intros (H1 & H2 & H3 & H4). split; [|split; [done|by apply plan_lessons]].
    cbn [read_course_text json_readers cb_manifest course_builder_of ut_json ut_instructions ut_material planned oc_manifest].
    rewrite (course_again show read _ (cp_data c) _ Hnum); [|unfold course_ok; by rewrite H2|done|apply line_blank].
    unfold course_levels. rewrite H2. cbn [Nat.leb mbind option_bind]. by rewrite H2.
  Qed.

  (** ** The files *)
  Section built.
    Context (parent : path) (c : course_plan) (n n' : option nat) (f f' : files).
    Notation b := (course_builder_of show read c).
    Hypothesis (Hf : course_whole c) (Hb : build_course parent b n f = Over () n' f').
    Lemma asset_there dir assets t : (∀ a, a ∈ assets → asset_file dir a ∈ course_files parent b) → among assets t → there f' dir (reference_of t).
    Proof using Hb.
      intros Hin Ha p E. unfold reference_of in E. destruct Ha as [Ha|Ha]; [by rewrite Ha in E|]. destruct (is_rooted t); [done|]. injection E as <-.
      apply elem_of_list_fmap in Ha as (a & -> & Ha). apply (course_exists _ _ _ _ _ _ _ Hb). right. exists (asset_file dir a). split; [by apply Hin|done].
    Qed.
    Lemma basics_there dir assets o : (∀ a, a ∈ assets → asset_file dir a ∈ course_files parent b) → some_among assets o → basic_there f' dir (basic_of <$> o).
    Proof using Hb.
      intros Hin Ha r E. destruct o as [a|]; [|done]. cbn in E. destruct a as [t| |]; [|done..]. injection E as <-. eapply asset_there; [done|]. exact (Ha _ eq_refl).
    Qed.
    Lemma exercises_there dir assets a : (∀ x, x ∈ assets → asset_file dir x ∈ course_files parent b) → asset_among assets a → exercise_there f' dir (asset_of a).
    Proof using Hb.
      intros Hin Ha. destruct a as [a|front back| | |l d backup|]; cbn [asset_of exercise_there] in *; [| |done|done| |done].
      - apply (basics_there dir assets (Some a) Hin). intros x [= <-]. exact Ha.
      - destruct Ha as [H1 H2]. split; [by eapply asset_there|]. intros r E. destruct back as [t|]; [|done]. injection E as <-. eapply asset_there; [done|by apply H2].
      - intros r E. destruct backup as [t|]; [|done]. injection E as <-. eapply asset_there; [done|by apply Ha].
    Qed.
    Lemma plan_there : course_there f' parent b.
    Proof using Hf Hb.
      destruct Hf as (H1 & H2 & H3). split.
      - assert (∀ a, a ∈ cp_assets c → asset_file (parent ++ [cp_dir c]) a ∈ course_files parent b) as Hin.
        { intros a Ha. unfold course_files. cbv zeta. right. apply elem_of_app. left. by apply elem_of_list_fmap_1. }
        split; by eapply basics_there.
      - intros x (l & -> & Hl)%elem_of_list_fmap. apply (proj1 (Forall_forall _ _) H3) in Hl as Hl'. destruct Hl' as (H4 & H5 & H6).
        assert (∀ w, w ∈ lesson_files ((parent ++ [cp_dir c]) ++ [lp_dir l]) (lesson_builder_of show read l) → w ∈ course_files parent b) as Hin.
        { intros w Hw. unfold course_files. cbv zeta. right. apply elem_of_app. right. apply elem_of_list_join. eexists. split; [exact Hw|].
          apply elem_of_list_fmap. exists (lesson_builder_of show read l). split; [done|]. by apply elem_of_list_fmap_1. }
        split.
        + assert (∀ a, a ∈ lp_assets l → asset_file ((parent ++ [cp_dir c]) ++ [lp_dir l]) a ∈ course_files parent b) as Hin'.
          { intros a Ha. apply Hin. right. apply elem_of_app. left. by apply elem_of_list_fmap_1. }
          split; by eapply basics_there.
        + intros x (e & -> & He)%elem_of_list_fmap. apply (proj1 (Forall_forall _ _) H6) in He as H7.
          eapply exercises_there; [|exact H7]. intros a Ha. apply Hin. right. apply elem_of_app. right. apply elem_of_list_join. eexists. split.
          2: { apply elem_of_list_fmap. exists (exercise_builder_of e). split; [done|]. by apply elem_of_list_fmap_1. }
          right. by apply elem_of_list_fmap_1.
    Qed.
    (** Every relative path leads somewhere, if all do. *)
    Lemma there_mentioned dir t : course_there f' parent b → mentions parent c dir t → is_rooted t = false → f' !! (dir ++ path_of t) ≠ None.
    Proof using.
      intros [[H1 H2] H3] Hm Ht. assert (∀ d, there f' d (reference_of t) → f' !! (d ++ path_of t) ≠ None) as Hr.
      { intros d H. apply H. unfold reference_of. by rewrite Ht. }
      assert (∀ d o, basic_there f' d (basic_of <$> o) → o = Some (MarkdownAsset t) → f' !! (d ++ path_of t) ≠ None) as Hu.
      { intros d o H ->. apply Hr. by apply H. }
      destruct Hm as [(-> & [E|E])|(l & Hl & [(-> & E)|(e & He & -> & E)])].
      - exact (Hu _ _ H1 E).
      - exact (Hu _ _ H2 E).
      - destruct (H3 (lesson_builder_of show read l)) as [[H4 H5] _]; [by apply elem_of_list_fmap_1|].
        change (parent ++ [cp_dir c; lp_dir l]) with (parent ++ ([cp_dir c] ++ [lp_dir l])). rewrite (app_assoc parent). destruct E as [E|E]; [exact (Hu _ _ H4 E)|exact (Hu _ _ H5 E)].
      - destruct (H3 (lesson_builder_of show read l)) as [_ H4]; [by apply elem_of_list_fmap_1|]. specialize (H4 (exercise_builder_of e)).
        assert (exercise_there f' (((parent ++ [cp_dir c]) ++ [lp_dir l]) ++ [xp_dir e]) (asset_of (ed_asset (xp_data e)))) as H5 by (apply H4; by apply elem_of_list_fmap_1).
        change (parent ++ [cp_dir c; lp_dir l; xp_dir e]) with (parent ++ ([cp_dir c] ++ [lp_dir l] ++ [xp_dir e])). rewrite !(app_assoc parent), (app_assoc (parent ++ _)). revert H5.
        generalize (((parent ++ [cp_dir c]) ++ [lp_dir l]) ++ [xp_dir e]). intros d H5. apply Hr. destruct E as [E|[[back E]|[[front E]|(link & text & E)]]]; rewrite E in H5.
        + by apply H5.
        + by destruct H5.
        + destruct H5 as [_ H5]. by apply H5.
        + by apply H5.
    Qed.
  End built.
End texts.
