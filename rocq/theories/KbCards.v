(** The flashcards that a simple course writes. *)
From stdpp Require Import gmap strings list sorting.
From Verif Require Import F32 F32Real Graph Library Generators GenSpec StrFacts GenBase GenLiteracy GenKb FileSystem FileSpec FileProofs BuildProofs KbBuilder KbSpec KbOpens KbDisk KbRead KbMain.
Local Open Scope string_scope.
Local Open Scope list_scope.

Section cards.
  Context (w : writers) (dir : list string) (l : kb_lesson_builder) (Ht : tidy_lesson l).
  (** The name of a side of the card of an exercise. *)
  Definition side (back : bool) (i : string) : string := i +:+ (if back then ".back.md" else ".front.md").
  Definition side_kind (back : bool) (i : string) : kb_file := if back then KExerciseBack i else KExerciseFront i.
  Lemma side_known back i : kb_kind (side back i) = Some (side_kind back i).
  Proof. destruct back; [apply (kb_name_kind (KExerciseBack i))|apply (kb_name_kind (KExerciseFront i))]; by intros []. Qed.
  Lemma side_same back back' i j : side back i = side back' j → back = back' ∧ i = j.
  Proof. intros E. pose proof (side_known back i) as H. rewrite E, side_known in H. destruct back, back'; cbn in H; split; congruence. Qed.
  Lemma side_plain back i : ¬ plain_name (side back i).
  Proof. unfold plain_name. rewrite side_known. destruct back; by intros [H|[H|H]]. Qed.
  (** Only the exercise itself writes a side of its card. *)
  Lemma side_written back i s : (dir ++ [side back i], s) ∈ kb_lesson_files w dir l →
    ∃ b a, b ∈ yb_exercises l ∧ xb_id b = i ∧ a ∈ xb_assets b ∧ ab_name a = [side back i] ∧ asset_file dir a = (dir ++ [side back i], s).
  Proof using Ht.
    destruct Ht as (_ & Hex & Has & _).
    assert (∀ m k t, (dir ++ [side back i], s) = (dir ++ [m], t) → kb_kind m = Some k → (∀ c j, k ≠ side_kind c j) → False) as Hno.
    { intros m k t [= E _] Hk Hn. apply app_inv_head in E. injection E as <-. rewrite side_known in Hk. injection Hk as <-. by eapply Hn. }
    assert (∀ a, plain_asset a → (dir ++ [side back i], s) = asset_file dir a → False) as Hplain.
    { intros a (n & rest & E & Hp) [= E' _]. rewrite E in E'. apply app_inv_head in E'. injection E' as <- _. by eapply side_plain. }
    unfold kb_lesson_files. rewrite !elem_of_app, in_join, !some_in, elem_of_list_fmap.
    intros [(a & E & Ha)|[(e & He & Hin)|H]]; [by destruct (Hplain a (Has a Ha))| |].
    - destruct (Hex e He) as (He0 & Hl & _ & Hassets). unfold kb_exercise_files in Hin. rewrite !elem_of_app, !some_in, elem_of_list_fmap in Hin.
      destruct Hin as [(a & E & Ha)|[(t & E & E')|[(t & E & E')|(t & E & E')]]].
      + assert (∀ c, ab_name a = [side c (xb_id e)] → ∃ b a, b ∈ yb_exercises l ∧ xb_id b = i ∧ a ∈ xb_assets b ∧ ab_name a = [side back i] ∧ asset_file dir a = (dir ++ [side back i], s)) as Hc.
        { intros c En. pose proof E as E2. unfold asset_file in E2. rewrite En in E2. injection E2 as E2 _. apply app_inv_head in E2. injection E2 as E2.
          apply side_same in E2 as [E2 E3]. exists e, a. split; [done|]. split; [congruence|]. split; [done|]. split; [congruence|done]. }
        destruct (Hassets a Ha) as [En|[En|Hp]]; [by apply (Hc false)|by apply (Hc true)|by destruct (Hplain a Hp)].
      + exfalso. apply fmap_Some in E as (x & Ex & ->). eapply Hno; [exact E'|apply (kb_name_kind (KExerciseName (xb_id e)))|by intros []].
        intros [[= Hx]|[=]]. destruct (Hl Hx) as [? _]. congruence.
      + exfalso. apply fmap_Some in E as (x & Ex & ->). eapply Hno; [exact E'|apply (kb_name_kind (KExerciseDescription (xb_id e)))|by intros []].
        intros [[=]|[= Hx]]. destruct (Hl Hx) as [_ ?]. congruence.
      + exfalso. eapply Hno; [exact E'|apply (kb_name_kind (KExerciseType (xb_id e))); by intros []|by intros []].
    - exfalso. destruct H as [(t & _ & E)|[(t & _ & E)|[(t & _ & E)|[(t & _ & E)|[(t & _ & E)|[(t & _ & E)|(t & _ & E)]]]]]];
        (eapply Hno; [exact E|reflexivity|by intros []]).
  Qed.
  Lemma side_on_disk f back i : lesson_built w f dir l → f !! (dir ++ [side back i]) = File <$> last_at (dir ++ [side back i]) (kb_lesson_files w dir l).
  Proof using Ht.
    intros [_ Hb]. rewrite Hb by discriminate. unfold after_writing. rewrite lookup_empty. destruct (last_at _ _); [done|]. rewrite decide_False; [done|].
    rewrite Exists_exists. intros ([p s] & Hp & [[r Hr] Hne]). cbn [fst] in Hr, Hne. destruct (files_known w dir l Ht p s Hp) as (m & rest & -> & H).
    rewrite <- app_assoc in Hr. apply app_inv_head in Hr. cbn in Hr. injection Hr as -> ->. destruct H as [H|[-> _]]; [by eapply side_plain|done].
  Qed.
End cards.

Lemma simple_cards w root c n f a n' f' : tree f → tidy_simple c → build_simple w root c n f = Over a n' f' →
  ∀ l e, l ∈ sc_lessons c → e ∈ sl_exercises l →
  f' !! (root ++ [sl_id l +:+ ".lesson"; se_id e +:+ ".front.md"]) = Some (File (String.concat newline (se_front e))) ∧
  f' !! (root ++ [sl_id l +:+ ".lesson"; se_id e +:+ ".back.md"]) =
    match se_back e with [] => None | back => Some (File (String.concat newline back)) end.
Proof.
  intros Htree Hs H sl e Hsl He. apply simple_over in H as (ls & Els & Hn & Hb & _); [|by apply tree_settled].
  assert (∃ b, b ∈ ls ∧ simple_lesson_builder sl = Some b) as (b & Hbl & Eb).
  { apply try_map_spec in Els. apply elem_of_list_lookup in Hsl as [k Hk]. destruct (Forall2_lookup_l _ _ _ _ _ Els Hk) as (b & Hb' & E). exists b. split; [by eapply elem_of_list_lookup_2|done]. }
  pose proof (simple_tidy c ls Hs Els b Hbl) as Htb. pose proof (Hb b Hbl) as Hlb.
  apply simple_lesson_some in Eb as (es & Ees & _ & Hnd & Eb).
  assert (∃ x, x ∈ es ∧ simple_exercise_builder e = Some x) as (x & Hx & Ex).
  { pose proof Ees as Hf. apply try_map_spec in Hf. apply elem_of_list_lookup in He as [k Hk]. destruct (Forall2_lookup_l _ _ _ _ _ Hf Hk) as (x & Hx & E). exists x. split; [by eapply elem_of_list_lookup_2|done]. }
  assert (∀ n, root ++ [sl_id sl +:+ ".lesson"; n] = kb_lesson_path root (yb_id b) ++ [n]) as Hp.
  { intros m. rewrite Eb. unfold kb_lesson_path. rewrite <- app_assoc. done. }
  assert (∀ y, y ∈ yb_exercises b → xb_id y = se_id e → y = x) as Huniq.
  { intros y Hy Ey. rewrite Eb in Hy. cbn [yb_exercises] in Hy. destruct Htb as [Hnb _]. rewrite Eb in Hnb. cbn [yb_exercises] in Hnb.
    destruct (simple_exercise_some e x Ex) as (_ & Exi & _).
    apply elem_of_list_lookup in Hy as [i Hi]. apply elem_of_list_lookup in Hx as [j Hj].
    assert (i = j) as -> by (eapply (NoDup_lookup _ _ _ (xb_id y) Hnb); rewrite list_lookup_fmap; [by rewrite Hi|rewrite Hj; cbn; congruence]). congruence. }
  assert (∀ back, f' !! (root ++ [sl_id sl +:+ ".lesson"; side back (se_id e)]) =
    match (if back then se_back e else se_front e), back with [], true => None | t, _ => Some (File (String.concat newline t)) end) as Hall.
  { intros back. rewrite Hp, (side_on_disk w _ b Htb f' back _ Hlb). set (dir := kb_lesson_path root (yb_id b)).
    assert (∀ s, (dir ++ [side back (se_id e)], s) ∈ kb_lesson_files w dir b ↔ ∃ a0, a0 ∈ xb_assets x ∧ ab_name a0 = [side back (se_id e)] ∧ asset_file dir a0 = (dir ++ [side back (se_id e)], s)) as Hin.
    { intros s. split.
      - intros (y & a0 & Hy & Ey & H0 & H1 & H2)%side_written; [|done]. rewrite (Huniq y Hy Ey) in H0. eauto.
      - intros (a0 & H0 & _ & <-). unfold kb_lesson_files. rewrite !elem_of_app. right. left. apply in_join. exists x. split; [rewrite Eb; exact Hx|].
        unfold kb_exercise_files. rewrite !elem_of_app. left. by apply elem_of_list_fmap_1. }
    unfold simple_exercise_builder in Ex. case_bool_decide; [discriminate|]. injection Ex as <-. cbn [xb_assets] in Hin.
    destruct (last_at (dir ++ [side back (se_id e)]) (kb_lesson_files w dir b)) as [s|] eqn:El.
    - apply last_at_some in El. apply Hin in El as (a0 & H0 & H1 & H2). apply elem_of_cons in H0 as [->|H0].
      + cbn [ab_name] in H1. injection H1 as H1. apply (side_same false) in H1 as [<- _]. unfold asset_file in H2. cbn in H2. injection H2 as <-. cbn. by destruct (se_front e).
      + destruct (se_back e) as [|t ts] eqn:Et; [by apply elem_of_nil in H0|]. apply elem_of_list_singleton in H0 as ->.
        cbn [ab_name] in H1. injection H1 as H1. apply (side_same true) in H1 as [<- _]. unfold asset_file in H2. cbn [ab_name ab_contents] in H2. injection H2 as <-. done.
    - assert (∀ a0, a0 ∈ AssetBuilder [se_id e +:+ ".front.md"] (join_lines (se_front e)) ::
           match se_back e with [] => [] | back => [AssetBuilder [se_id e +:+ ".back.md"] (join_lines back)] end → ab_name a0 = [side back (se_id e)] → False) as Hno.
      { intros a0 H0 H1. apply (proj1 (last_at_none _ _) El (asset_file dir a0)); [|unfold asset_file; by rewrite H1].
        destruct (asset_file dir a0) as [p s] eqn:Ea. assert (p = dir ++ [side back (se_id e)]) as -> by (unfold asset_file in Ea; rewrite H1 in Ea; congruence).
        apply Hin. eauto. }
      destruct back; [|by destruct (Hno _ (elem_of_list_here _ _))].
      destruct (se_back e) as [|t ts] eqn:Et; [done|]. exfalso. eapply Hno; [right; left|done]. }
  split.
  - specialize (Hall false). cbn in Hall. unfold side in Hall. rewrite Hall. by destruct (se_front e).
  - specialize (Hall true). unfold side in Hall. rewrite Hall. by destruct (se_back e).
Qed.
