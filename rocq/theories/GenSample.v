(** Concrete courses for the statements of P_Generators.v. *)
From stdpp Require Import gmap strings list relations sorting pretty.
From Verif Require Import F32 Graph GraphSpec GraphMore Library LibrarySpec Compute LibraryProofs LibraryQueries LibrarySample Generators GenSpec StrFacts GenBase GenMusic GenTrans GenLiteracy GenKb.
Local Open Scope string_scope.
Local Open Scope list_scope.

Definition plain_course (c : uid) : course_manifest := CourseManifest c [] [] [] None.
Definition ids (oc : open_course) : list uid := (λ le, lm_id le.1) <$> oc_lessons oc.

(** ** Music *)
Definition sample_passage : passage := Passage [(1%N, Passage [(3%N, Passage [])]); (2%N, Passage [])].
Lemma sample_passage_unique : unique_indices sample_passage.
Proof.
  intros path q H. unfold sample_passage in H. repeat match goal with
    | H : sub_at (Passage _) _ _ |- _ => inversion H; clear H; subst
    | H : _ ∈ _ :: _ |- _ => apply elem_of_cons in H as [H|H]; simplify_eq
    | H : _ ∈ [] |- _ => by apply elem_of_nil in H
    end; cbn [sub_indices fmap list_fmap fst]; by_compute.
Qed.
Definition has_duplicates (cs : list open_course) : bool := negb (bool_decide (NoDup (d_id <$> declared cs))).
Lemma distinct_sample cs : bool_decide (NoDup (d_id <$> declared cs)) = true → distinct_ids cs.
Proof. intros H. by apply bool_decide_eq_true in H. Qed.
Lemma music_sample : let cs := [sample_course_B; generate_music sample_passage (plain_course "M"); sample_course_A []] in
  unique_indices sample_passage ∧ distinct_ids cs ∧ is_Some (open_library sample_order cs) ∧
  ids (generate_music sample_passage (plain_course "M")) = ["M::0::1::3"; "M::0::1"; "M::0::2"; "M::0"].
Proof.
  cbv zeta. split; [apply sample_passage_unique|]. split; [apply distinct_sample; vm_compute; reflexivity|].
  split; [apply is_Some_true; vm_compute; reflexivity|]. vm_compute. reflexivity.
Qed.

(** ** Transcription *)
Definition sample_track (a : string) (l : list N) : track := Track a (Some "someone") None l.
Definition sample_transcription (deps : list uid) (inlined : list track) (skip : bool) : transcription := Transcription deps inlined skip skip.
Definition sample_inputs : list transcription_input :=
  [TranscriptionInput (sample_transcription ["T2"; "T3"] [] false) [Some (sample_track "a" [1%N; 2%N]); Some (sample_track "b" [])] (plain_course "T1");
   TranscriptionInput (sample_transcription ["T4"] [sample_track "c" []] true) [] (plain_course "T2");
   TranscriptionInput (sample_transcription [] [] false) [] (plain_course "T4")].
Lemma sample_needs_acyclic : acyclic (course_needs sample_inputs).
Proof.
  apply (acyclic_measure _ (λ u, if bool_decide (u = "T1") then 0 else if bool_decide (u = "T2") then 1 else 2)).
  intros u v (i & Hi & Ei & Hv). unfold sample_inputs in Hi.
  repeat match goal with
    | H : _ ∈ _ :: _ |- _ => apply elem_of_cons in H as [H|H]; [subst; cbn in Hv|]
    | H : _ ∈ [] |- _ => by apply elem_of_nil in H
    end;
  repeat match goal with
    | H : v ∈ _ :: _ |- _ => apply elem_of_cons in H as [->|H]
    | H : v ∈ [] |- _ => by apply elem_of_nil in H
    end; vm_compute; lia.
Qed.
Lemma no_prefix (p x : string) (l : list string) : String.prefix p x = true → forallb (λ s, negb (String.prefix p s)) l = true → x ∉ l.
Proof. intros Hp Hl Hx. rewrite forallb_forall in Hl. apply elem_of_list_In in Hx. apply Hl in Hx. by rewrite Hp in Hx. Qed.
Lemma transcription_sample : ∃ gens, mapM (generate_input ["guitar"; "piano"]) sample_inputs = Some gens ∧
  distinct_ids (sample_courses_plain ++ gens) ∧
  (∀ i d, i ∈ sample_inputs → d ∈ tr_dependencies (ti_config i) →
    (∃ j, j ∈ sample_inputs ∧ cm_id (ti_manifest j) = d) ∨ (∀ k, kind_id d k ∉ d_id <$> declared (sample_courses_plain ++ gens))) ∧
  acyclic (course_needs sample_inputs) ∧ is_Some (open_library sample_order (sample_courses_plain ++ gens)) ∧
  (ids <$> gens) = [["T1::singing"; "T1::advanced_singing"; "T1::transcription::guitar"; "T1::transcription::piano";
                     "T1::advanced_transcription::guitar"; "T1::advanced_transcription::piano"];
                    ["T2::singing"; "T2::transcription::guitar"; "T2::transcription::piano"];
                    ["T4::singing"; "T4::advanced_singing"; "T4::transcription::guitar"; "T4::transcription::piano";
                     "T4::advanced_transcription::guitar"; "T4::advanced_transcription::piano"]].
Proof.
  eexists. split; [reflexivity|]. split; [apply distinct_sample; vm_compute; reflexivity|]. split.
  - intros i d Hi Hd. unfold sample_inputs in Hi.
    repeat match goal with
      | H : i ∈ _ :: _ |- _ => apply elem_of_cons in H as [H|H]; [subst i; cbn in Hd|]
      | H : i ∈ [] |- _ => by apply elem_of_nil in H
      end;
    repeat match goal with
      | H : d ∈ _ :: _ |- _ => apply elem_of_cons in H as [->|H]
      | H : d ∈ [] |- _ => by apply elem_of_nil in H
      end.
    + left. eexists. split; [right; left|done].
    + right. intros k. apply (no_prefix "T3::"); [by destruct k|]. vm_compute. reflexivity.
    + left. eexists. split; [right; right; left|done].
  - split; [apply sample_needs_acyclic|]. split; [apply is_Some_true; vm_compute; reflexivity|]. vm_compute. reflexivity.
Qed.
Lemma names_sample : ∃ oc ts, generate_transcription (sample_transcription [] [sample_track "c" [7%N]] false) ["guitar"; "piano"]
    [Some (sample_track "a" [1%N; 2%N]); Some (sample_track "b" [])] (plain_course "T") = Some oc ∧
  open_tracks [] [Some (sample_track "a" [1%N; 2%N]); Some (sample_track "b" [])] = Some ts ∧
  good_names ["guitar"; "piano"] (ts ++ [sample_track "c" [7%N]]) ∧ length (course_ids oc) = 31.
Proof.
  eexists _, _. split; [reflexivity|]. split; [reflexivity|]. split; [|vm_compute; reflexivity].
  unfold good_names. split; [by_compute|]. split; [repeat constructor; by apply has_no_colon_spec|]. split; [by_compute|].
  split; [repeat constructor; by apply has_no_colon_spec|]. repeat (apply Forall_cons; split; [by_compute|]). constructor.
Qed.

(** The ways in which a transcription course can spoil a library. *)
Definition spoils (c : transcription) (is : list string) (files : list (option track)) (cm : course_manifest) : bool :=
  match generate_transcription c is files cm with
  | Some oc => match open_library sample_order [bare cm], open_library sample_order [oc] with Some _, None => true | _, _ => false end
  | None => false
  end.
Lemma spoils_spec c is files cm : spoils c is files cm = true →
  ∃ oc, generate_transcription c is files cm = Some oc ∧ is_Some (open_library sample_order [bare cm]) ∧ open_library sample_order [oc] = None.
Proof.
  unfold spoils. destruct (generate_transcription c is files cm) as [oc|]; [|done]. intros H. exists oc. split; [done|].
  destruct (open_library sample_order [bare cm]); [|done]. destruct (open_library sample_order [oc]); [done|]. split; [eauto|done].
Qed.
Lemma repeated_instrument : ∃ c is ts cm oc, generate_transcription c is (Some <$> ts) cm = Some oc ∧ tr_dependencies c = [] ∧ tr_inlined c = [] ∧
  NoDup (tk_id <$> ts) ∧ is_Some (open_library sample_order [bare cm]) ∧ open_library sample_order [oc] = None.
Proof.
  destruct (spoils_spec (sample_transcription [] [] false) ["guitar"; "guitar"] [] (plain_course "T")) as (oc & H1 & H2 & H3); [vm_compute; reflexivity|].
  exists (sample_transcription [] [] false), ["guitar"; "guitar"], [], (plain_course "T"), oc. split_and!; [done|done|done|constructor|done|done].
Qed.
Lemma colon_track : ∃ c is ts cm oc, generate_transcription c is (Some <$> ts) cm = Some oc ∧ tr_dependencies c = [] ∧ tr_inlined c = [] ∧ NoDup is ∧
  NoDup (tk_id <$> ts) ∧ is_Some (open_library sample_order [bare cm]) ∧ open_library sample_order [oc] = None.
Proof.
  destruct (spoils_spec (sample_transcription [] [] false) ["guitar"] (Some <$> [sample_track "a" [1%N]; sample_track "a::1" []]) (plain_course "T")) as (oc & H1 & H2 & H3);
    [vm_compute; reflexivity|].
  exists (sample_transcription [] [] false), ["guitar"], [sample_track "a" [1%N]; sample_track "a::1" []], (plain_course "T"), oc.
  split_and!; [done|done|done|by_compute|by_compute|done|done].
Qed.
Lemma inlined_track : ∃ c is ts cm oc, generate_transcription c is (Some <$> ts) cm = Some oc ∧ tr_dependencies c = [] ∧ NoDup is ∧ Forall colon_free is ∧
  NoDup (tk_id <$> ts) ∧ NoDup (tk_id <$> tr_inlined c) ∧ Forall (λ t, colon_free (tk_id t)) (ts ++ tr_inlined c) ∧
  is_Some (open_library sample_order [bare cm]) ∧ open_library sample_order [oc] = None.
Proof.
  destruct (spoils_spec (sample_transcription [] [sample_track "a" []] false) ["guitar"] (Some <$> [sample_track "a" []]) (plain_course "T")) as (oc & H1 & H2 & H3);
    [vm_compute; reflexivity|].
  exists (sample_transcription [] [sample_track "a" []] false), ["guitar"], [sample_track "a" []], (plain_course "T"), oc.
  split_and!; [done|done|by_compute|repeat constructor; by apply has_no_colon_spec|by_compute|by_compute|repeat constructor; by apply has_no_colon_spec|done|done].
Qed.
Lemma own_dependency : ∃ c is ts cm oc, generate_transcription c is (Some <$> ts) cm = Some oc ∧ good_names is (ts ++ tr_inlined c) ∧
  is_Some (open_library sample_order [bare cm]) ∧ open_library sample_order [oc] = None.
Proof.
  destruct (spoils_spec (sample_transcription ["T"] [] false) ["guitar"] [] (plain_course "T")) as (oc & H1 & H2 & H3); [vm_compute; reflexivity|].
  exists (sample_transcription ["T"] [] false), ["guitar"], [], (plain_course "T"), oc. split; [done|]. split; [|done].
  unfold good_names. split_and!; [by_compute|repeat constructor; by apply has_no_colon_spec|constructor|constructor|constructor].
Qed.

(** ** Literacy *)
Definition no_content : content := Content None None None None None None None None.
Definition text_file (s : string) : content := Content None None None None None (Some s) None None.
Definition ids_file (l : list uid) : content := Content (Some l) None None None None None None None.
Definition sample_lesson_dir : list (string * content) :=
  [("one.answer.md", text_file "the answer"); ("lesson.dependencies.json", ids_file ["vowels"; "elsewhere"]); ("two.example.md", text_file "b");
   ("notes.txt", no_content); ("one.example.md", text_file "z"); ("simple_examples.md", Content None None None None None None (Some ["m"; "c"]) None)].
Definition sample_literacy : list (string * list (string * content)) :=
  [("words.lesson", sample_lesson_dir); ("vowels.lesson", []); ("other", []); (".lesson", [])].
Definition same_order (A : Type) (l : list (uid * A)) : list (uid * A) := l.
Lemma literacy_sample : NoDup sample_lesson_dir.*1 ∧ all_files_readable sample_lesson_dir ∧
  (∃ l, open_literacy_lesson sample_lesson_dir = Some l ∧ ll_dependencies l = ["vowels"; "elsewhere"] ∧
     ll_examples l = [("b", None); ("c", None); ("m", None); ("z", Some "the answer")]) ∧
  NoDup sample_literacy.*1 ∧
  ∃ oc, generate_literacy same_order true None sample_literacy (plain_course "L") = Some oc ∧
    ids oc = ["L::words::reading"; "L::words::dictation"; "L::vowels::reading"; "L::vowels::dictation"] ∧
    ((λ le, lm_dependencies le.1) <$> oc_lessons oc) =
      [["L::vowels::reading"; "elsewhere"]; ["L::vowels::dictation"; "L::words::reading"]; []; ["L::vowels::reading"]].
Proof.
  assert (NoDup sample_lesson_dir.*1) as Hd by by_compute. split; [done|].
  assert (∃ l, open_literacy_lesson sample_lesson_dir = Some l ∧ ll_dependencies l = ["vowels"; "elsewhere"] ∧
     ll_examples l = [("b", None); ("c", None); ("m", None); ("z", Some "the answer")]) as Hl.
  { eexists. split; [vm_compute; reflexivity|]. split; reflexivity. }
  split.
  { apply literacy_opens_iff; [done|]. destruct Hl as (l & H & _). by exists l. }
  split; [done|]. split; [by_compute|]. eexists. split; [vm_compute; reflexivity|]. split; vm_compute; reflexivity.
Qed.

(** ** Knowledge bases *)
Definition type_file (b : bool) : content := Content None None None (Some b) None None None None.
Definition sample_kb_dir : list (string * content) :=
  [("lesson.superseded.json", ids_file ["first"; "elsewhere"]); ("x.front.md", no_content); ("lesson.default_exercise_type.json", type_file false);
   ("y.type.json", type_file true); ("y.front.md", no_content); ("z.back.md", no_content); (".front.md", no_content)].
Definition sample_kb : list (string * list (string * content)) :=
  [("second.lesson", sample_kb_dir); ("first.lesson", []); ("other", [])].
Lemma kb_sample : NoDup sample_kb.*1 ∧ (∀ n dir, (n, dir) ∈ sample_kb → NoDup dir.*1) ∧
  (∀ s, kb_inside sample_kb s → colon_free s) ∧
  ∃ oc, generate_kb same_order (λ l, l) false sample_kb (plain_course "K") = Some oc ∧ ids oc = ["K::second"; "K::first"] ∧
    ((λ le, lm_superseded le.1) <$> oc_lessons oc) = [["K::first"; "elsewhere"]; []] ∧
    ((λ le : lesson_manifest * list exercise_manifest, (λ em, (em_id em, em_procedural em)) <$> le.2) <$> oc_lessons oc) = [[("K::second::x", false); ("K::second::y", true)]; []].
Proof.
  split; [by_compute|]. split.
  { intros n dir H. unfold sample_kb in H. repeat match goal with
      | H : (n, dir) ∈ _ :: _ |- _ => apply elem_of_cons in H as [[= -> ->]|H]; [by_compute|]
      | H : (n, dir) ∈ [] |- _ => by apply elem_of_nil in H end. }
  split.
  { intros s (d & H). unfold kb_lesson_dir, sample_kb in H. apply has_no_colon_spec.
    apply elem_of_cons in H as [[= Hs _]|H]; [change "second.lesson" with ("second" +:+ ".lesson") in Hs; apply sapp_inv_r in Hs; by subst|].
    apply elem_of_cons in H as [[= Hs _]|H]; [change "first.lesson" with ("first" +:+ ".lesson") in Hs; apply sapp_inv_r in Hs; by subst|].
    apply elem_of_list_singleton in H as [= Hs _]. exfalso. revert Hs. apply (ends_differ s "" ".lesson" "other"). reflexivity. }
  eexists. split; [vm_compute; reflexivity|]. split; [vm_compute; reflexivity|]. split; vm_compute; reflexivity.
Qed.
Definition clashing_kb : list (string * list (string * content)) := [("a.lesson", [("b.front.md", no_content)]); ("a::b.lesson", [])].
Lemma kb_clash : ∃ dirs cm oc, NoDup dirs.*1 ∧ (∀ n dir, (n, dir) ∈ dirs → NoDup dir.*1) ∧
  generate_kb same_order (λ l, l) false dirs cm = Some oc ∧ is_Some (open_library sample_order [bare cm]) ∧ open_library sample_order [oc] = None.
Proof.
  exists clashing_kb, (plain_course "K"). eexists. split; [by_compute|]. split.
  { intros n dir H. unfold clashing_kb in H. repeat match goal with
      | H : (n, dir) ∈ _ :: _ |- _ => apply elem_of_cons in H as [[= -> ->]|H]; [by_compute|]
      | H : (n, dir) ∈ [] |- _ => by apply elem_of_nil in H end. }
  split; [vm_compute; reflexivity|]. split; [apply is_Some_true; vm_compute; reflexivity|]. apply None_true. vm_compute. reflexivity.
Qed.
Lemma shadowed_file : ∃ f, kb_kind (kb_name f) ≠ Some f.
Proof. exists (KExerciseName "lesson"). by apply kb_shadowed_wrong; left. Qed.
