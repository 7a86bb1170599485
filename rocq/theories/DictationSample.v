(** Concrete libraries for the statements of P_Dictation.v. *)
From stdpp Require Import gmap strings list.
From Verif Require Import F32 Graph GraphSpec GraphMore Library LibrarySpec Compute LibraryProofs LibraryQueries LibrarySample Generators GenSpec StrFacts GenBase GenSample DictationSpec.
Local Open Scope string_scope.
Local Open Scope list_scope.

Definition literacy_of (b : bool) : option open_course := generate_literacy same_order b None sample_literacy (plain_course "L").
(** The lesson on which the lesson about words depends. *)
Definition elsewhere (deps : list uid) : open_course :=
  OpenCourse (plain_course "E") [(LessonManifest "elsewhere" "E" deps [] [] None, [ExerciseManifest "elsewhere::x" "elsewhere" "E" true])].
Definition mentioned (cs : list open_course) : list uid := mjoin ((λ d, d_deps d ++ d_sup d ++ (d_enc d).*1) <$> declared cs).
Lemma mentioned_spec cs x : mentions cs x ↔ x ∈ mentioned cs.
Proof.
  unfold mentions, mentioned. rewrite elem_of_mjoin_fmap. do 2 f_equiv. rewrite !elem_of_app. naive_solver.
Qed.
Definition opens_both (deps : list uid) : option (bool * bool * bool * bool) :=
  match literacy_of false, literacy_of true with
  | Some short, Some long =>
      Some (bool_decide (NoDup (d_id <$> declared [sample_course_B; long; elsewhere deps])),
            bool_decide ("L::words::dictation" ∈ mentioned [sample_course_B; short; elsewhere deps] ∨
                         "L::vowels::dictation" ∈ mentioned [sample_course_B; short; elsewhere deps]),
            match open_library sample_order [sample_course_B; short; elsewhere deps] with Some _ => true | None => false end,
            match open_library sample_order [sample_course_B; long; elsewhere deps] with Some _ => true | None => false end)
  | _, _ => None
  end.
Lemma opens_both_good : opens_both [] = Some (true, false, true, true).
Proof. vm_compute. reflexivity. Qed.
Lemma opens_both_bad : opens_both ["L::words::dictation"] = Some (true, true, true, false).
Proof. vm_compute. reflexivity. Qed.
Lemma inside_sample s : literacy_inside sample_literacy s → s = "words" ∨ s = "vowels".
Proof.
  intros (dir & Hs & Hin). unfold sample_literacy in Hin. rewrite !elem_of_cons, elem_of_nil in Hin.
  destruct Hin as [H|[H|[H|[H|[]]]]]; injection H as H _.
  - left. by apply (sapp_inv_r s "words" ".lesson").
  - right. by apply (sapp_inv_r s "vowels" ".lesson").
  - exfalso. apply (f_equal String.length) in H. rewrite slen_app in H. cbn in H. lia.
  - exfalso. apply Hs. by apply (sapp_inv_r s "" ".lesson").
Qed.
Lemma elsewhere_consistent deps : consistent (elsewhere deps).
Proof. intros lm exs H. apply elem_of_list_singleton in H as [= -> ->]. split; [done|]. by intros em ->%elem_of_list_singleton. Qed.

Lemma dictation_sample : ∃ short long, generate_literacy same_order false None sample_literacy (plain_course "L") = Some short ∧
  generate_literacy same_order true None sample_literacy (plain_course "L") = Some long ∧
  distinct_ids [sample_course_B; long; elsewhere []] ∧
  (∀ s, literacy_inside sample_literacy s → ¬ mentions [sample_course_B; short; elsewhere []] (id_of "L" [s; "dictation"])) ∧
  consistent (elsewhere []) ∧ is_Some (open_library sample_order [sample_course_B; long; elsewhere []]).
Proof.
  pose proof opens_both_good as H. unfold opens_both, literacy_of in H.
  destruct (generate_literacy same_order false None sample_literacy (plain_course "L")) as [short|]; [|done].
  destruct (generate_literacy same_order true None sample_literacy (plain_course "L")) as [long|]; [|done].
  exists short, long. injection H as H1 H2 H3 H4. apply bool_decide_eq_true in H1. apply bool_decide_eq_false in H2.
  split_and!; [done|done|done| |apply elsewhere_consistent|].
  - intros s [->| ->]%inside_sample Hm%mentioned_spec; apply H2; [by left|by right].
  - destruct (open_library sample_order [sample_course_B; long; elsewhere []]); [by eexists|done].
Qed.
Lemma dictation_circle : ∃ ord instructions dirs cm short long before after, (∀ A l, ord A l ≡ₚ l) ∧
  generate_literacy ord false instructions dirs cm = Some short ∧ generate_literacy ord true instructions dirs cm = Some long ∧
  distinct_ids (before ++ long :: after) ∧ Forall consistent after ∧
  is_Some (open_library sample_order (before ++ short :: after)) ∧ open_library sample_order (before ++ long :: after) = None.
Proof.
  pose proof opens_both_bad as H. unfold opens_both, literacy_of in H.
  destruct (generate_literacy same_order false None sample_literacy (plain_course "L")) as [short|] eqn:Es; [|done].
  destruct (generate_literacy same_order true None sample_literacy (plain_course "L")) as [long|] eqn:El; [|done].
  exists same_order, None, sample_literacy, (plain_course "L"), short, long, [sample_course_B], [elsewhere ["L::words::dictation"]].
  injection H as H1 _ H3 H4. apply bool_decide_eq_true in H1. cbn [app].
  split_and!; [done|done|done|done|apply Forall_singleton, elsewhere_consistent| |].
  - destruct (open_library sample_order [sample_course_B; short; _]); [by eexists|done].
  - destruct (open_library sample_order [sample_course_B; long; _]); [done|done].
Qed.

Lemma literacy_reads_sample : (∀ n dir, (n, dir) ∈ sample_literacy → NoDup dir.*1) ∧
  is_Some (generate_literacy same_order true None sample_literacy (plain_course "L")) ∧
  generate_literacy same_order true (Some no_content) sample_literacy (plain_course "L") = None.
Proof.
  split; [|split; [apply is_Some_true; vm_compute; reflexivity|vm_compute; reflexivity]].
  intros n dir. unfold sample_literacy. rewrite !elem_of_cons, elem_of_nil.
  intros [[= -> ->]|[[= -> ->]|[[= -> ->]|[[= -> ->]|[]]]]]; [apply literacy_sample|by apply NoDup_nil_2..].
Qed.
