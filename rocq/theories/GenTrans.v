(** Transcription courses. *)
From stdpp Require Import gmap strings list pretty relations.
From Verif Require Import F32 Graph GraphSpec Library LibrarySpec LoadProofs Generators GenSpec StrFacts GenBase.
Local Open Scope string_scope.
Local Open Scope list_scope.

Lemma under2_id c x y : under (under c x) y = id_of c [x; y].
Proof. rewrite (under_id c x), id_of_under. done. Qed.
Lemma track_exercise_ids course lesson t : em_id <$> track_exercises course lesson t = track_ids lesson t.
Proof.
  unfold track_exercises, track_ids. destruct (tk_intervals t) as [|i is].
  - cbn. by rewrite under_id.
  - rewrite <-list_fmap_compose. apply list_fmap_ext. intros ? j _. cbn. by rewrite under2_id.
Qed.
Lemma all_track_ids course lesson ts : em_id <$> all_track_exercises course lesson ts = mjoin (track_ids lesson <$> ts).
Proof.
  unfold all_track_exercises. induction ts as [|t ts IH]; [done|]. cbn. rewrite fmap_app, track_exercise_ids. by f_equal.
Qed.
Lemma all_track_in course lesson ts em : em ∈ all_track_exercises course lesson ts → em_lesson_id em = lesson ∧ em_course_id em = course.
Proof.
  unfold all_track_exercises. rewrite elem_of_mjoin_fmap. intros (t & _ & H). unfold track_exercises in H.
  destruct (tk_intervals t) as [|i is].
  - by apply elem_of_list_singleton in H as ->.
  - by apply elem_of_list_fmap in H as (j & -> & _).
Qed.

(** The lesson of a kind. *)
Definition gen_lesson (c : transcription) (course : uid) (ts : list track) (k : lesson_kind) : lesson_manifest * list exercise_manifest :=
  match k with
  | Singing => singing_lesson c course ts
  | AdvancedSinging => advanced_singing_lesson c course ts
  | Transcribing i => transcription_lesson c course ts i
  | AdvancedTranscribing i => advanced_transcription_lesson course ts i
  end.
Lemma gen_lessons c course is ts : transcription_lessons c course is ts = gen_lesson c course ts <$> kinds_of c is.
Proof.
  unfold transcription_lessons, kinds_of, all_kinds. destruct (tr_skip_advanced c).
  - cbn [List.filter app advanced negb fmap list_fmap]. f_equal.
    assert (List.filter (λ k, negb (advanced k)) ((Transcribing <$> is) ++ (AdvancedTranscribing <$> is)) = Transcribing <$> is) as ->.
    { assert (∀ l, List.filter (λ k, negb (advanced k)) (AdvancedTranscribing <$> l) = []) as E by (intros l; induction l; done).
      rewrite List.filter_app, E, app_nil_r. induction is as [|i is IH]; [done|]. cbn. by rewrite IH. }
    by rewrite <-list_fmap_compose.
  - cbn [fmap list_fmap app]. do 2 f_equal. rewrite fmap_app, <-!list_fmap_compose. done.
Qed.
Lemma gen_lesson_id c course ts k : lm_id (gen_lesson c course ts k).1 = kind_id course k.
Proof. destruct k; cbn; unfold singing_id, advanced_singing_id, transcription_id, advanced_transcription_id; by rewrite ?under2_id, ?under_id. Qed.
Lemma gen_lesson_course c course ts k : lm_course_id (gen_lesson c course ts k).1 = course.
Proof. by destruct k. Qed.
Lemma gen_lesson_deps c course ts k : lm_dependencies (gen_lesson c course ts k).1 = needs c course k.
Proof.
  destruct k; cbn; unfold singing_id, advanced_singing_id, transcription_id, advanced_transcription_id; rewrite ?under2_id, ?under_id; try done.
  f_equal. apply list_fmap_ext. intros ? d _. by rewrite under2_id.
Qed.
Lemma gen_lesson_sup c course ts k : lm_superseded (gen_lesson c course ts k).1 = replaces course k.
Proof. destruct k; cbn; unfold singing_id, advanced_singing_id, transcription_id, advanced_transcription_id; by rewrite ?under2_id, ?under_id. Qed.
Lemma gen_lesson_enc c course ts k : lm_encompassed (gen_lesson c course ts k).1 = [].
Proof. by destruct k. Qed.
Lemma gen_lesson_exercises c course ts k : em_id <$> (gen_lesson c course ts k).2 = exercise_ids_of c course ts k.
Proof.
  unfold exercise_ids_of. rewrite <-(gen_lesson_id c course ts k).
  destruct k; cbn [gen_lesson singing_lesson advanced_singing_lesson transcription_lesson advanced_transcription_lesson sung snd fst lm_id];
    rewrite ?andb_false_r, ?andb_true_r; try destruct (tr_skip_singing c); cbn [andb]; try done; apply all_track_ids.
Qed.
Lemma gen_lesson_parent c course ts k em : em ∈ (gen_lesson c course ts k).2 → em_lesson_id em = lm_id (gen_lesson c course ts k).1.
Proof.
  destruct k; cbn; try destruct (tr_skip_singing c); try (by intros ?%elem_of_nil); intros H; by apply all_track_in in H as [-> _].
Qed.
Lemma kind_id_inj c k k' : kind_id c k = kind_id c k' → k = k'.
Proof.
  unfold kind_id, id_of. intros E. apply sapp_inv_l in E.
  destruct k, k'; cbn [comps] in E; rewrite ?sapp_nil in E; try done; try discriminate E.
  - apply (sapp_inv_l "::transcription::") in E. by subst.
  - apply (sapp_inv_l "::advanced_transcription::") in E. by subst.
Qed.
Lemma kinds_of_in c is k : k ∈ kinds_of c is ↔
  (tr_skip_advanced c = true → advanced k = false) ∧ match k with Transcribing i | AdvancedTranscribing i => i ∈ is | _ => True end.
Proof.
  assert (k ∈ all_kinds is ↔ match k with Transcribing i | AdvancedTranscribing i => i ∈ is | _ => True end) as H.
  { unfold all_kinds. rewrite !elem_of_app, !elem_of_cons, !elem_of_list_fmap, elem_of_nil. destruct k; naive_solver. }
  unfold kinds_of. destruct (tr_skip_advanced c).
  - rewrite elem_of_list_In, filter_In, <-elem_of_list_In, H, negb_true_iff. naive_solver.
  - rewrite H. naive_solver.
Qed.
Lemma kinds_NoDup c is : NoDup is → NoDup (kinds_of c is).
Proof.
  intros H. assert (NoDup (all_kinds is)) as Ha.
  { unfold all_kinds. cbn [app]. apply NoDup_cons. split; [|apply NoDup_cons; split].
    - rewrite elem_of_cons, elem_of_app, !elem_of_list_fmap. intros [?|[(i & ? & _)|(i & ? & _)]]; done.
    - rewrite elem_of_app, !elem_of_list_fmap. intros [(i & ? & _)|(i & ? & _)]; done.
    - apply NoDup_app. split_and!.
      + apply NoDup_fmap_2; [|done]. by intros ?? [= ->].
      + intros k (i & -> & _)%elem_of_list_fmap (j & ? & _)%elem_of_list_fmap. done.
      + apply NoDup_fmap_2; [|done]. by intros ?? [= ->]. }
  unfold kinds_of. destruct (tr_skip_advanced c); [|done]. by apply NoDup_ListNoDup, List.NoDup_filter, NoDup_ListNoDup.
Qed.

(** ** Generated courses *)
Section one.
  Context (c : transcription) (is : list string) (files : list (option track)) (cm : course_manifest) (oc : open_course).
  Context (Hg : generate_transcription c is files cm = Some oc).
  Lemma generated_eq : ∃ ts, open_tracks [] files = Some ts ∧ oc_lessons oc = gen_lesson c (cm_id cm) (ts ++ tr_inlined c) <$> kinds_of c is ∧
    cm_id (oc_manifest oc) = cm_id cm ∧ cm_dependencies (oc_manifest oc) = cm_dependencies cm ∧
    cm_encompassed (oc_manifest oc) = cm_encompassed cm ∧ cm_superseded (oc_manifest oc) = cm_superseded cm ∧
    cm_metadata (oc_manifest oc) = Some (transcription_metadata (cm_metadata cm) (ts ++ tr_inlined c)).
  Proof using Hg.
    unfold generate_transcription in Hg. destruct (open_tracks [] files) as [ts|]; [|done]. cbn in Hg. injection Hg as <-.
    exists ts. cbn. rewrite gen_lessons. done.
  Qed.
  Lemma generated_consistent : consistent oc.
  Proof using Hg.
    destruct generated_eq as (ts & _ & E & Ec & _). intros lm exs H. rewrite E in H. apply elem_of_list_fmap in H as (k & Hk & _).
    rewrite Ec. split.
    - change lm with (lm, exs).1. rewrite Hk. apply gen_lesson_course.
    - intros em Hem. change exs with (lm, exs).2 in Hem. change lm with (lm, exs).1. rewrite Hk in Hem |- *. by apply (gen_lesson_parent c _ _ k).
  Qed.
End one.

(** What a transcription course consists of. *)
Lemma transcription_kinds c is files cm oc : generate_transcription c is files cm = Some oc →
  ((λ le, lm_id le.1) <$> oc_lessons oc) = kind_id (cm_id cm) <$> kinds_of c is ∧
  ∃ ts, open_tracks [] files = Some ts ∧ ∀ lm es, (lm, es) ∈ oc_lessons oc → ∃ k, k ∈ kinds_of c is ∧
    lm_id lm = kind_id (cm_id cm) k ∧ lm_course_id lm = cm_id cm ∧
    lm_dependencies lm = needs c (cm_id cm) k ∧ lm_superseded lm = replaces (cm_id cm) k ∧ lm_encompassed lm = [] ∧
    em_id <$> es = exercise_ids_of c (cm_id cm) (ts ++ tr_inlined c) k ∧
    ∀ em, em ∈ es → em_lesson_id em = lm_id lm.
Proof.
  intros Hg. destruct (generated_eq c is files cm oc Hg) as (ts & Hts & E & _). rewrite E. split.
  - rewrite <-list_fmap_compose. apply list_fmap_ext. intros ? k _. cbn. apply gen_lesson_id.
  - exists ts. split; [done|]. intros lm es H. apply elem_of_list_fmap in H as (k & Hk & Hin). exists k. split; [done|].
    set (g := gen_lesson c (cm_id cm) (ts ++ tr_inlined c) k) in *.
    assert (lm = g.1) as -> by by rewrite <-Hk. assert (es = g.2) as -> by by rewrite <-Hk. split_and!.
    + apply gen_lesson_id.
    + apply gen_lesson_course.
    + apply gen_lesson_deps.
    + apply gen_lesson_sup.
    + apply gen_lesson_enc.
    + apply gen_lesson_exercises.
    + intros em. apply gen_lesson_parent.
Qed.
(** The tracks of the directory are those of its files, in some order, with distinct identifiers. *)
Lemma open_tracks_iff seen files ts : open_tracks seen files = Some ts ↔
  files = Some <$> ts ∧ NoDup (tk_id <$> ts) ∧ ∀ t, t ∈ ts → tk_id t ∉ seen.
Proof.
  revert seen ts. induction files as [|[t|] files IH]; intros seen ts; cbn [open_tracks].
  - split.
    + intros [= <-]. split; [done|]. split; [constructor|]. intros t Ht. by apply elem_of_nil in Ht.
    + intros (H & _). by destruct ts.
  - case_bool_decide as Hs.
    + split; [done|]. intros (H & _ & Hn). destruct ts as [|t' ts]; [done|]. injection H as -> ->. exfalso. by apply (Hn t'); [left|].
    + rewrite fmap_Some. setoid_rewrite IH. split.
      * intros (ts' & (-> & Hn & Ht) & ->). split; [done|]. cbn. rewrite NoDup_cons. split_and!; [|done|].
        -- intros (t' & E & Ht')%elem_of_list_fmap. apply (Ht t' Ht'). rewrite E. by left.
        -- intros t' [->|Ht']%elem_of_cons; [done|]. intros Hx. apply (Ht t' Ht'). by right.
      * intros (H & Hn & Ht). destruct ts as [|t' ts]; [done|]. cbn in H. injection H as <- ->. cbn in Hn. apply NoDup_cons in Hn as [Hn1 Hn].
        exists ts. split; [|done]. split; [done|]. split; [done|]. intros t' Ht' [E|Hx]%elem_of_cons.
        -- apply Hn1. rewrite <-E. by apply elem_of_list_fmap_1.
        -- apply (Ht t'); [by right|done].
  - split; [done|]. intros (H & _). by destruct ts.
Qed.

(** ** Distinct identifiers *)
Lemma id_of_longer c x l : String.length c < String.length (id_of c (x :: l)).
Proof. unfold id_of. cbn [comps]. rewrite !slen_app. cbn. lia. Qed.
Definition kind_parts (k : lesson_kind) : list string :=
  match k with Singing => ["singing"] | AdvancedSinging => ["advanced_singing"] | Transcribing i => ["transcription"; i]
  | AdvancedTranscribing i => ["advanced_transcription"; i] end.
Lemma kind_id_parts c k : kind_id c k = id_of c (kind_parts k).
Proof. by destruct k. Qed.
Lemma kind_parts_free is k : Forall colon_free is → match k with Transcribing i | AdvancedTranscribing i => i ∈ is | _ => True end →
  Forall colon_free (kind_parts k).
Proof.
  intros H Hk. rewrite Forall_forall in H. destruct k; repeat constructor; try (by apply has_no_colon_spec); by apply H.
Qed.
Lemma track_ids_in c k t z : z ∈ track_ids (kind_id c k) t → ∃ l, z = id_of c (kind_parts k ++ tk_id t :: l) ∧
  (l = [] ∧ tk_intervals t = [] ∨ ∃ i, l = [pretty i] ∧ i ∈ tk_intervals t).
Proof.
  unfold track_ids. assert (∀ l, id_of (kind_id c k) l = id_of c (kind_parts k ++ l)) as E by (intros l; rewrite id_of_app; by destruct k).
  destruct (tk_intervals t) as [|i is] eqn:Ei.
  - intros ->%elem_of_list_singleton. exists []. split; [apply E|by left].
  - intros (j & -> & Hj)%elem_of_list_fmap. exists [pretty j]. split; [apply E|]. right. by exists j.
Qed.
Lemma same_kind k k' l l' : l ≠ [] → l' ≠ [] →
  kind_parts k ++ l = kind_parts k' ++ l' → k = k' ∧ l = l'.
Proof. destruct k, k'; cbn; intros Hl Hl' [=]; by subst. Qed.
Lemma transcription_distinct c is files cm oc ts : generate_transcription c is files cm = Some oc →
  open_tracks [] files = Some ts → good_names is (ts ++ tr_inlined c) → NoDup (course_ids oc).
Proof.
  intros Hg Hts (Hi & Hif & Ht & Htf & Hint). destruct (generated_eq c is files cm oc Hg) as (ts' & Hts' & E & Ec & _).
  rewrite Hts in Hts'. injection Hts' as <-. set (tr := ts ++ tr_inlined c) in *. set (C := cm_id cm) in *.
  unfold course_ids. rewrite E, Ec. fold C.
  assert (mjoin ((λ le, lm_id le.1 :: (em_id <$> le.2)) <$> (gen_lesson c C tr <$> kinds_of c is)) =
    mjoin ((λ k, kind_id C k :: exercise_ids_of c C tr k) <$> kinds_of c is)) as ->.
  { f_equal. rewrite <-list_fmap_compose. apply list_fmap_ext. intros ? k _. cbn. by rewrite gen_lesson_id, gen_lesson_exercises. }
  rewrite Forall_forall in Htf. rewrite Forall_forall in Hint.
  (** Everything is made of the parts of a kind and at most two more. *)
  assert (∀ k z, k ∈ kinds_of c is → z ∈ kind_id C k :: exercise_ids_of c C tr k →
    ∃ l, z = id_of C (kind_parts k ++ l) ∧ Forall colon_free (kind_parts k ++ l) ∧
      (l = [] ∨ ∃ t, t ∈ tr ∧ z ∈ track_ids (kind_id C k) t ∧ ∃ l', l = tk_id t :: l')) as Hz.
  { intros k z Hk [->|Hz]%elem_of_cons.
    - exists []. rewrite app_nil_r. split; [by destruct k|]. split; [|by left]. apply (kind_parts_free is); [done|]. by apply kinds_of_in in Hk as [_ ?].
    - unfold exercise_ids_of in Hz. destruct (tr_skip_singing c && sung k); [by apply elem_of_nil in Hz|].
      apply elem_of_mjoin_fmap in Hz as (t & Htt & Hz). pose proof Hz as Hz'. apply track_ids_in in Hz as (l & -> & Hl).
      exists (tk_id t :: l). split; [done|]. split.
      + apply Forall_app. split; [apply (kind_parts_free is); [done|]; by apply kinds_of_in in Hk as [_ ?]|].
        constructor; [by apply Htf|]. destruct Hl as [[-> _]|(i & -> & _)]; repeat constructor. apply pretty_colon.
      + right. exists t. split; [done|]. split; [done|]. by exists l. }
  apply NoDup_cons. split.
  - intros (k & Hk & H)%elem_of_mjoin_fmap. destruct (Hz k C Hk H) as (l & El & _). rewrite <-(id_of_nil C) in El at 1.
    unfold id_of in El. apply sapp_inv_l in El. destruct k; by cbn in El.
  - apply NoDup_mjoin_fmap; [by apply kinds_NoDup| |].
    + intros k Hk. apply NoDup_cons. split.
      * intros Hin. unfold exercise_ids_of in Hin. destruct (tr_skip_singing c && sung k); [by apply elem_of_nil in Hin|].
        apply elem_of_mjoin_fmap in Hin as (t & Htt & Hin). apply track_ids_in in Hin as (l & El & _).
        rewrite id_of_app, <-kind_id_parts in El. pose proof (id_of_longer (kind_id C k) (tk_id t) l) as Hlen. rewrite <-El in Hlen. lia.
      * unfold exercise_ids_of. destruct (tr_skip_singing c && sung k); [constructor|]. apply NoDup_mjoin_fmap; [by eapply NoDup_fmap_1| |].
        -- intros t Htt. unfold track_ids. specialize (Hint t Htt). destruct (tk_intervals t) as [|i0 is0]; [apply NoDup_singleton|].
           apply NoDup_fmap_2_strong; [|done]. intros x y _ _ Exy. unfold id_of in Exy. apply sapp_inv_l in Exy. cbn [comps] in Exy. rewrite !sapp_nil in Exy.
           apply (sapp_inv_l "::"), (sapp_inv_l (tk_id t)), (sapp_inv_l "::") in Exy. by apply (inj pretty) in Exy.
        -- intros t t' z Htt Htt' Hzt Hzt'.
           apply track_ids_in in Hzt as (l & -> & Hl). apply track_ids_in in Hzt' as (l' & El & Hl').
           apply id_of_inj in El.
           ++ apply app_inv_head in El. injection El as El _. by apply (NoDup_fmap_elem tk_id tr).
           ++ apply Forall_app. split; [apply (kind_parts_free is); [done|]; by apply kinds_of_in in Hk as [_ ?]|].
              constructor; [by apply Htf|]. destruct Hl as [[-> _]|(i & -> & _)]; repeat constructor. apply pretty_colon.
           ++ apply Forall_app. split; [apply (kind_parts_free is); [done|]; by apply kinds_of_in in Hk as [_ ?]|].
              constructor; [by apply Htf|]. destruct Hl' as [[-> _]|(i & -> & _)]; repeat constructor. apply pretty_colon.
    + intros k k' z Hk Hk' Hzk Hzk'. destruct (Hz k z Hk Hzk) as (l & -> & Hf & _). destruct (Hz k' _ Hk' Hzk') as (l' & El & Hf' & _).
      apply id_of_inj in El; [|done|done]. destruct k, k'; cbn in El; try done; injection El as El; try done; by subst.
Qed.

(** ** Transcription courses in any library *)
Definition level (k : lesson_kind) : nat :=
  match k with Singing => 0 | AdvancedSinging | Transcribing _ => 1 | AdvancedTranscribing _ => 2 end.
Definition named (is : list string) (k : lesson_kind) : Prop :=
  match k with Transcribing i | AdvancedTranscribing i => i ∈ is | _ => True end.
Lemma needs_cases c is a k x : k ∈ kinds_of c is → x ∈ needs c a k →
  (∃ k', k' ∈ kinds_of c is ∧ x = kind_id a k' ∧ level k' < level k) ∨
  (∃ d k', d ∈ tr_dependencies c ∧ advanced k' = false ∧ named is k' ∧ x = kind_id d k').
Proof.
  intros [Hs Hn]%kinds_of_in Hx. destruct k; cbn in Hx, Hs.
  - apply elem_of_list_fmap in Hx as (d & -> & Hd). right. exists d, Singing. done.
  - apply elem_of_list_singleton in Hx as ->. left. exists Singing. rewrite kinds_of_in. cbn. split_and!; [done|done|done|lia].
  - apply elem_of_app in Hx as [(d & -> & Hd)%elem_of_list_fmap| ->%elem_of_list_singleton].
    + right. by exists d, (Transcribing i).
    + left. exists Singing. rewrite kinds_of_in. cbn. split_and!; [done|done|done|lia].
  - apply elem_of_cons in Hx as [->| ->%elem_of_list_singleton].
    + left. exists (Transcribing i). rewrite kinds_of_in. cbn. split_and!; [done|done|done|lia].
    + left. exists AdvancedSinging. rewrite kinds_of_in. cbn. split_and!; [done|done|done|lia].
Qed.
Lemma plain_kept c is k : advanced k = false → named is k → k ∈ kinds_of c is.
Proof. intros H1 H2. apply kinds_of_in. split; [done|]. by destruct k. Qed.


Section library.
  Context (others gens : list open_course) (inputs : list transcription_input) (is : list string).
  Context (Hgen : mapM (generate_input is) inputs = Some gens).
  Local Notation full := (others ++ gens).
  Local Notation small := (others ++ (input_bare <$> inputs)).
  Context (Hd : distinct_ids full).
  Context (Hdeps : ∀ i d, i ∈ inputs → d ∈ tr_dependencies (ti_config i) →
    (∃ j, j ∈ inputs ∧ cm_id (ti_manifest j) = d) ∨ (∀ k, kind_id d k ∉ d_id <$> declared full)).
  Context (Hac : acyclic (course_needs inputs)).

  Lemma gen_of i : i ∈ inputs → ∃ oc, oc ∈ gens ∧ generate_input is i = Some oc.
  Proof using Hgen.
    pose proof (mapM_Some_1 _ _ _ Hgen) as HF. intros (n & Hn)%elem_of_list_lookup. destruct (Forall2_lookup_l _ _ _ _ _ HF Hn) as (oc & Ho & H).
    exists oc. split; [by eapply elem_of_list_lookup_2|done].
  Qed.
  Lemma of_gen oc : oc ∈ gens → ∃ i, i ∈ inputs ∧ generate_input is i = Some oc.
  Proof using Hgen.
    pose proof (mapM_Some_1 _ _ _ Hgen) as HF. intros (n & Hn)%elem_of_list_lookup. destruct (Forall2_lookup_r _ _ _ _ _ HF Hn) as (i & Ho & H).
    exists i. split; [by eapply elem_of_list_lookup_2|done].
  Qed.
  Definition made (i : transcription_input) (k : lesson_kind) : Prop := i ∈ inputs ∧ k ∈ kinds_of (ti_config i) is.
  Definition place (i : transcription_input) (k : lesson_kind) : uid := kind_id (cm_id (ti_manifest i)) k.

  (** The declarations of a generated course. *)
  Lemma gen_decls i oc d : i ∈ inputs → generate_input is i = Some oc → d ∈ course_decls oc →
    d = course_decl (ti_manifest i) ∨
    (∃ k, made i k ∧ d_id d = place i k ∧ d_parent d = cm_id (ti_manifest i) ∧ d_type d = Lesson ∧
       d_deps d = needs (ti_config i) (cm_id (ti_manifest i)) k ∧ d_sup d = replaces (cm_id (ti_manifest i)) k ∧ d_enc d = []) ∨
    (d_type d = Exercise ∧ d_deps d = [] ∧ d_enc d = [] ∧ d_sup d = []).
  Proof using.
    intros Hi Hg Hin. destruct (generated_eq _ _ _ _ _ Hg) as (ts & _ & El & E1 & E2 & E3 & E4 & _).
    apply elem_of_course_decls in Hin as [->|(lm & exs & Hl & Hin)].
    - left. unfold course_decl. by rewrite E1, E2, E3, E4.
    - right. rewrite El in Hl. apply elem_of_list_fmap in Hl as (k & Hk & Hkin).
      assert (lm = (gen_lesson (ti_config i) (cm_id (ti_manifest i)) (ts ++ tr_inlined (ti_config i)) k).1) as -> by by rewrite <-Hk.
      destruct Hin as [->|(em & _ & ->)]; [left|by right]. exists k. cbn [lesson_decl d_id d_parent d_type d_deps d_sup d_enc].
      rewrite gen_lesson_id, gen_lesson_course, gen_lesson_deps, gen_lesson_sup, gen_lesson_enc. done.
  Qed.
  Lemma made_decl i k : made i k → ∃ d, d ∈ declared full ∧ d_id d = place i k ∧ d_parent d = cm_id (ti_manifest i) ∧ d_type d = Lesson ∧
       d_deps d = needs (ti_config i) (cm_id (ti_manifest i)) k ∧ d_sup d = replaces (cm_id (ti_manifest i)) k ∧ d_enc d = [].
  Proof using Hgen.
    intros [Hi Hk]. destruct (gen_of i Hi) as (oc & Hoc & Hg). destruct (generated_eq _ _ _ _ _ Hg) as (ts & _ & El & E1 & E2 & E3 & E4 & _).
    set (g := gen_lesson (ti_config i) (cm_id (ti_manifest i)) (ts ++ tr_inlined (ti_config i)) k).
    exists (lesson_decl g.1). split.
    - rewrite declared_app. apply elem_of_app. right. unfold declared. apply elem_of_mjoin_fmap. exists oc. split; [done|].
      apply elem_of_course_decls. right. exists g.1, g.2. split; [|by left]. rewrite El. apply elem_of_list_fmap. exists k. split; [|done]. symmetry. apply surjective_pairing.
    - cbn [lesson_decl d_id d_parent d_type d_deps d_sup d_enc]. unfold g.
      by rewrite gen_lesson_id, gen_lesson_course, gen_lesson_deps, gen_lesson_sup, gen_lesson_enc.
  Qed.
  Lemma place_unique i k j k' : made i k → made j k' → place i k = place j k' → cm_id (ti_manifest i) = cm_id (ti_manifest j) ∧ k = k'.
  Proof using Hgen Hd.
    intros Hi Hj E. destruct (made_decl i k Hi) as (d & Hdd & E1 & P1 & _). destruct (made_decl j k' Hj) as (d' & Hdd' & E2 & P2 & _).
    assert (d = d') as <- by (apply (NoDup_fmap_elem d_id (declared full)); [done|done|done|congruence]).
    rewrite P1 in P2. split; [done|]. apply (kind_id_inj (cm_id (ti_manifest i))). unfold place in E. by rewrite <-P2 in E.
  Qed.
  Definition inside (u : uid) : Prop := u ∉ d_id <$> declared full ∨ ∃ i k, made i k ∧ u = place i k.
  Definition some_rel (d : decl) (x : uid) : Prop := x ∈ d_deps d ∨ x ∈ d_sup d ∨ x ∈ (d_enc d).*1.
  Lemma made_step i k x : made i k → rel_of full some_rel (place i k) x →
    (∃ k', made i k' ∧ x = place i k' ∧ level k' < level k) ∨
    (∃ d, course_needs inputs (cm_id (ti_manifest i)) d ∧
       (x ∉ d_id <$> declared full ∨ ∃ j k', made j k' ∧ cm_id (ti_manifest j) = d ∧ x = place j k')).
  Proof using Hgen Hd Hdeps.
    intros Hm (d & Hdd & Ed & HR). destruct (made_decl i k Hm) as (d' & Hdd' & E1 & _ & _ & Edep & Esup & Eenc).
    assert (d = d') as -> by (apply (NoDup_fmap_elem d_id (declared full)); [done|done|done|congruence]).
    assert (x ∈ needs (ti_config i) (cm_id (ti_manifest i)) k) as Hx.
    { unfold some_rel in HR. rewrite Edep, Esup, Eenc in HR. destruct HR as [?|[Hr|?%elem_of_nil]]; [done| |done].
      destruct k; cbn in Hr |- *; try (by apply elem_of_nil in Hr); apply elem_of_list_singleton in Hr as ->; by left. }
    destruct Hm as [Hi Hk]. destruct (needs_cases _ _ _ _ _ Hk Hx) as [(k' & Hk' & -> & Hl)|(e & k' & He & Ha & Hn & ->)].
    - left. by exists k'.
    - right. exists e. split; [by exists i|]. destruct (Hdeps i e Hi He) as [(j & Hj & Ej)|Hu]; [|by left].
      right. exists j, k'. split; [|by rewrite <-Ej]. split; [done|]. by apply plain_kept.
  Qed.
  Lemma made_path u v : tc (rel_of full some_rel) u v → ∀ i k, made i k → u = place i k →
    v ∉ d_id <$> declared full ∨ ∃ j k', made j k' ∧ v = place j k' ∧
      (cm_id (ti_manifest i) = cm_id (ti_manifest j) ∧ level k' < level k ∨ tc (course_needs inputs) (cm_id (ti_manifest i)) (cm_id (ti_manifest j))).
  Proof using Hgen Hd Hdeps.
    induction 1 as [u v Hs|u y v Hs Ht IH]; intros i k Hm ->; destruct (made_step i k _ Hm Hs) as [(k' & Hm' & -> & Hl)|(e & He & [Hu|(j & k' & Hm' & Ej & ->)])].
    - right. exists i, k'. split_and!; [done|done|by left].
    - by left.
    - right. exists j, k'. split_and!; [done|done|]. right. rewrite Ej. by apply tc_once.
    - destruct (IH i k' Hm' eq_refl) as [?|(j & k'' & Hm'' & -> & H)]; [by left|]. right. exists j, k''. split_and!; [done|done|].
      destruct H as [[E H]|H]; [left; split; [done|lia]|by right].
    - exfalso. assert (∃ z, rel_of full some_rel y z) as (z & d & Hdd & E & _) by (inversion Ht; eauto). apply Hu. rewrite <-E. by apply elem_of_list_fmap_1.
    - destruct (IH j k' Hm' eq_refl) as [?|(j' & k'' & Hm'' & -> & H)]; [by left|]. right. exists j', k''. split_and!; [done|done|]. right.
      rewrite <-Ej in He. destruct H as [[E H]|H]; [rewrite <-E; by apply tc_once|]. eapply tc_l; [exact He|done].
  Qed.
  Lemma some_inner (R : decl → uid → Prop) : (∀ d x, R d x → some_rel d x) → inner full inside R.
  Proof using Hgen Hd Hdeps Hac.
    intros HR. assert (∀ u x, rel_of full R u x → rel_of full some_rel u x) as Hsub.
    { intros u x (d & H1 & H2 & H3). exists d. split_and!; [done|done|by apply HR]. }
    split.
    - intros u x Hs [Hu|(i & k & Hm & ->)].
      + exfalso. destruct Hs as (d & Hdd & E & _). apply Hu. rewrite <-E. by apply elem_of_list_fmap_1.
      + destruct (made_step i k x Hm (Hsub _ _ Hs)) as [(k' & Hm' & -> & _)|(e & _ & [Hu|(j & k' & Hm' & _ & ->)])];
          [right; by exists i, k'|by left|right; by exists j, k'].
    - intros u Hu Ht. assert (tc (rel_of full some_rel) u u) as Ht'.
      { clear Hu. revert Ht. generalize u at 2 4. intros w Ht. induction Ht; [by apply tc_once, Hsub|]. eapply tc_l; [by apply Hsub|done]. }
      destruct Hu as [Hu|(i & k & Hm & ->)].
      + assert (∃ z, rel_of full some_rel u z) as (z & d & Hdd & E & _) by (inversion Ht'; eauto). apply Hu. rewrite <-E. by apply elem_of_list_fmap_1.
      + destruct (made_path _ _ Ht' i k Hm eq_refl) as [Hu|(j & k' & Hm' & E & H)].
        * destruct (made_decl i k Hm) as (d & Hdd & E & _). apply Hu. rewrite <-E. by apply elem_of_list_fmap_1.
        * destruct (place_unique i k j k' Hm Hm' E) as [Ec ->]. destruct H as [[_ H]|H]; [lia|]. rewrite <-Ec in H. by apply (Hac _ H).
  Qed.
  Lemma inside_dec u : inside u ∨ ¬ inside u.
  Proof using Hgen Hd.
    unfold inside. destruct (decide (u ∈ d_id <$> declared full)) as [H|H]; [|left; by left].
    destruct (decide (u ∈ mjoin ((λ i, place i <$> kinds_of (ti_config i) is) <$> inputs))) as [Hm|Hm].
    - left. right. apply elem_of_mjoin_fmap in Hm as (i & Hi & (k & -> & Hk)%elem_of_list_fmap). by exists i, k.
    - right. intros [?|(i & k & [Hi Hk] & ->)]; [done|]. apply Hm. apply elem_of_mjoin_fmap. exists i. split; [done|]. by apply elem_of_list_fmap_1.
  Qed.
  Lemma transcription_sublist : sublist (declared small) (declared full).
  Proof using Hgen.
    rewrite !declared_app. apply sublist_app; [done|]. pose proof (mapM_Some_1 _ _ _ Hgen) as HF. clear Hd Hdeps Hac Hgen.
    induction HF as [|i oc js ocs Hg HF IH]; [done|]. cbn [fmap list_fmap]. rewrite !declared_cons. apply sublist_app; [|done].
    destruct (generated_eq _ _ _ _ _ Hg) as (ts & _ & El & E1 & E2 & E3 & E4 & _).
    unfold course_decls, input_bare, bare. cbn. unfold course_decl. cbn. rewrite E1, E2, E3, E4. apply sublist_skip, sublist_nil_l.
  Qed.
  Lemma transcription_opens o : order_ok o → Forall consistent others →
    is_Some (open_library o full) ↔ is_Some (open_library o small).
  Proof using Hgen Hd Hdeps Hac.
    intros Ho Hc. apply (part_opens full small inside).
    - apply transcription_sublist.
    - intros d Hdd. rewrite declared_app, elem_of_app in Hdd |- *. destruct Hdd as [?|Hdd]; [left; by left|].
      unfold declared in Hdd. apply elem_of_mjoin_fmap in Hdd as (oc & Hoc & Hdd). destruct (of_gen oc Hoc) as (i & Hi & Hg).
      destruct (gen_decls i oc d Hi Hg Hdd) as [->|[(k & Hm & E & _)|(_ & H)]].
      + left. right. unfold declared. apply elem_of_mjoin_fmap. exists (input_bare i). split; [by apply elem_of_list_fmap_1|]. by left.
      + right. left. right. by exists i, k.
      + by right; right.
    - apply inside_dec.
    - intros d x w Hdd [Hu|(i & k & Hm & E)] Hx.
      + exfalso. apply Hu. by apply elem_of_list_fmap_1.
      + destruct (made_decl i k Hm) as (d' & Hdd' & E1 & _ & _ & _ & _ & Een).
        assert (d = d') as -> by (apply (NoDup_fmap_elem d_id (declared full)); [done|done|done|congruence]).
        rewrite Een in Hx. by apply elem_of_nil in Hx.
    - apply some_inner. intros d x H. by left.
    - apply some_inner. intros d x H. right. by left.
    - apply some_inner. intros d x [H|H]; [by left|right; by right].
    - done.
    - apply Forall_app. split; [done|]. apply Forall_forall. intros oc Hoc. destruct (of_gen oc Hoc) as (i & Hi & Hg). by eapply generated_consistent.
    - apply Forall_app. split; [done|]. apply Forall_fmap, Forall_forall. intros i _ lm exs H. by apply elem_of_nil in H.
    - done.
  Qed.
End library.

(** ** Metadata *)
Lemma push_all (f : track → option string) key ts m k :
  fold_left (λ m t, match f t with Some a => push_metadata key a m | None => m end) ts m !! k =
  if decide (k = key) then added (m !! key) (omap f ts) else m !! k.
Proof.
  revert m. induction ts as [|t ts IH]; intros m; cbn [fold_left]; [cbn; by destruct (decide (k = key)) as [->|]|].
  rewrite IH. cbn. destruct (f t) as [a|]; [|done]. unfold push_metadata. destruct (decide (k = key)) as [->|Hk].
  - rewrite lookup_insert. unfold added. destruct (omap f ts); cbn; [done|]. by rewrite <-app_assoc.
  - by rewrite lookup_insert_ne.
Qed.
Lemma transcription_metadata_lookup m ts k : transcription_metadata m ts !! k =
  if decide (k = "transcription_course") then Some ["true"]
  else if decide (k = "transcription_artist") then added (default ∅ m !! k) (omap tk_artist ts)
  else if decide (k = "transcription_album") then added (default ∅ m !! k) (omap tk_album ts)
  else default ∅ m !! k.
Proof.
  unfold transcription_metadata. rewrite push_all. destruct (decide (k = "transcription_album")) as [->|H1].
  - rewrite push_all, !decide_False by done. by rewrite lookup_insert_ne by done.
  - rewrite push_all. destruct (decide (k = "transcription_artist")) as [->|H2].
    + rewrite decide_False by done. by rewrite lookup_insert_ne by done.
    + destruct (decide (k = "transcription_course")) as [->|H3]; [by rewrite lookup_insert|by rewrite lookup_insert_ne].
Qed.

(** ** What the lessons refer to *)
Lemma transcription_refers c is files cm oc : generate_transcription c is files cm = Some oc → ∀ lm es x, (lm, es) ∈ oc_lessons oc →
  x ∈ lm_dependencies lm ∨ x ∈ lm_superseded lm →
  x ∈ ((λ le, lm_id le.1) <$> oc_lessons oc) ∨ ∃ d k, d ∈ tr_dependencies c ∧ k ∈ all_kinds is ∧ advanced k = false ∧ x = kind_id d k.
Proof.
  intros Hg lm es x Hin Hx. destruct (transcription_kinds _ _ _ _ _ Hg) as (Hl & ts & _ & H).
  destruct (H lm es Hin) as (k & Hk & _ & _ & Ed & Es & _). assert (x ∈ needs c (cm_id cm) k) as Hn.
  { rewrite Ed, Es in Hx. destruct Hx as [?|Hr]; [done|].
    destruct k; cbn in Hr |- *; try (by apply elem_of_nil in Hr); apply elem_of_list_singleton in Hr as ->; by left. }
  destruct (needs_cases _ _ _ _ _ Hk Hn) as [(k' & Hk' & -> & _)|(d & k' & Hd & Ha & Hm & ->)].
  - left. rewrite Hl. by apply elem_of_list_fmap_1.
  - right. exists d, k'. split_and!; [done| |done|done]. pose proof (plain_kept (Transcription [] [] false false) is k' Ha Hm) as Hp. exact Hp.
Qed.
Lemma transcription_offers c is files cm oc k : generate_transcription c is files cm = Some oc → k ∈ all_kinds is → advanced k = false →
  kind_id (cm_id cm) k ∈ ((λ le, lm_id le.1) <$> oc_lessons oc).
Proof.
  intros Hg Hk Ha. destruct (transcription_kinds _ _ _ _ _ Hg) as (-> & _). apply elem_of_list_fmap_1, kinds_of_in. split; [done|].
  change (all_kinds is) with (kinds_of (Transcription [] [] false false) is) in Hk. by apply kinds_of_in in Hk as [_ ?].
Qed.
