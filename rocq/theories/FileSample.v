(** Concrete files, preferences and builders. *)
From stdpp Require Import gmap strings list sorting.
From Coq Require Import Ascii.
From Verif Require Import Library StrFacts FileSystem FileSpec FileProofs ConfigProofs SavedProofs BuildProofs.
Local Open Scope string_scope.
Local Open Scope list_scope.

(** ** Deciding [apart] *)
Definition clear_of (v w : list string * string) : bool := negb (bool_decide (v.1 `prefix_of` w.1)) && negb (bool_decide (w.1 `prefix_of` v.1)).
Fixpoint apart_check (ws : list (list string * string)) : bool :=
  match ws with [] => true | w :: ws => forallb (clear_of w) ws && apart_check ws end.
Lemma clear_of_spec v w : clear_of v w = true → ¬ v.1 `prefix_of` w.1 ∧ ¬ w.1 `prefix_of` v.1.
Proof. intros [H1%negb_true_iff H2%negb_true_iff]%andb_true_iff. apply bool_decide_eq_false in H1, H2. done. Qed.
Lemma apart_checked ws : apart_check ws = true → apart ws.
Proof.
  induction ws as [|w ws IH]; intros H i j u v Hi Hj Hne; [done|]. cbn in H. apply andb_true_iff in H as [H1 H2]. rewrite forallb_forall in H1.
  assert (∀ x, x ∈ ws → ¬ w.1 `prefix_of` x.1 ∧ ¬ x.1 `prefix_of` w.1) as H3 by (intros x Hx; apply clear_of_spec, H1, elem_of_list_In, Hx).
  destruct i as [|i], j as [|j]; cbn in Hi, Hj.
  - done.
  - injection Hi as <-. apply H3. eapply elem_of_list_lookup_2. exact Hj.
  - injection Hj as <-. apply H3. eapply elem_of_list_lookup_2. exact Hi.
  - eapply IH; [done|exact Hi|exact Hj|congruence].
Qed.

(** ** A library directory *)
Definition empty_disk : gmap (list string) node := {[ [] := Dir ]}.
Definition some_disk : gmap (list string) node := <[ ["lib"] := Dir ]> empty_disk.
Lemma empty_tree : tree empty_disk.
Proof.
  split; [apply lookup_singleton|]. intros p x n H. unfold empty_disk in H. apply lookup_singleton_Some in H as [H _]. symmetry in H. apply snoc_nonempty in H as [].
Qed.
Lemma disk_only p : p ≠ [] → p ≠ ["lib"] → some_disk !! p = None.
Proof. intros H1 H2. unfold some_disk, empty_disk. rewrite lookup_insert_ne, lookup_singleton_ne by done. done. Qed.
Lemma some_free : config_free ["lib"] some_disk ∧ some_disk !! preferences_path ["lib"] = None.
Proof.
  split; [split; [apply lookup_insert|split]|].
  - intros p [->|[->| ->]]; left; apply disk_only; done.
  - rewrite disk_only by done. done.
  - apply disk_only; done.
Qed.

(** ** Preferences of one bit *)
Definition encode_bit (b : bool) : string := if b then "{1}" else "{0}".
Definition decode_bit (s : string) : option bool :=
  if String.eqb s "{1}" then Some true else if String.eqb s "{0}" then Some false else None.
Lemma bit_codec b : decode_bit (encode_bit b) = Some b.
Proof. destruct b; reflexivity. Qed.
Lemma bit_cut b s : starts s (encode_bit b) → s ≠ encode_bit b → decode_bit s = None.
Proof.
  intros [u Hu] Hne. unfold decode_bit. destruct (String.eqb_spec s "{1}") as [->|H1]; [destruct b; [done|discriminate Hu]|].
  destruct (String.eqb_spec s "{0}") as [->|H2]; [destruct b; [discriminate Hu|done]|done].
Qed.
Lemma some_config : config_free ["lib"] some_disk ∧ some_disk !! preferences_path ["lib"] = None ∧
  decode_bit (encode_bit false) = Some false ∧ decode_bit "" = None ∧ encode_bit false ≠ "" ∧
  (∀ s, starts s (encode_bit false) → decode_bit s = Some false ∨ decode_bit s = None) ∧
  ∃ f', open_config decode_bit ["lib"] (encode_bit false) None some_disk = Over false None f' ∧ f' !! preferences_path ["lib"] = Some (File "{0}").
Proof.
  destruct some_free as [H1 H2]. split; [done|]. split; [done|]. split; [done|]. split; [done|]. split; [done|]. split.
  { intros s Hs. destruct (decide (s = encode_bit false)) as [->|H]; [by left|]. right. by apply (bit_cut false). }
  assert (config_added ["lib"] "{0}" some_disk !! preferences_path ["lib"] = Some (File "{0}")) as H.
  { rewrite config_added_lookup, H2. reflexivity. }
  eexists. split; [|exact H]. erewrite open_run by done. done.
Qed.

(** ** Saved filters *)
Definition some_saved : list (string * string) := [("b", "second"); ("a", "first")].
Lemma some_opened : ∃ m, open_saved fst (Some <$> some_saved) = Some m ∧ get_saved m "b" = Some ("b", "second") ∧
  list_saved snd (map_to_list m) = [("a", "first"); ("b", "second")].
Proof.
  exists (list_to_map (pairs fst some_saved)). split; [apply saved_run; change (NoDup ["b"; "a"]); apply (bool_decide_unpack _); vm_compute; exact I|].
  split; vm_compute; reflexivity.
Qed.

(** ** Builders *)
Definition plain_unit (json : string) : unit_text := UnitText json None None.
Definition an_exercise (back : option reference) : exercise_builder :=
  ExerciseBuilder "E" (ExerciseText "e" (Flashcard (Relative ["front.md"]) back)) [AssetBuilder ["front.md"] "question"].
Definition a_course (course lesson : option basic_asset) (back : option reference) : course_builder :=
  CourseBuilder "C" (UnitText "c" course None)
    [LessonBuilder "L" (UnitText "l" None lesson) [an_exercise back] [AssetBuilder ["notes"; "lesson.md"] "notes"]] [AssetBuilder ["course.md"] "text"].
Definition good_course : course_builder := a_course (Some (Markdown (Relative ["course.md"]))) (Some (Markdown (Relative ["notes"; "lesson.md"]))) None.
Lemma a_course_names c l b : names_given (a_course c l b).
Proof.
  split; [intros a ->%elem_of_list_singleton; done|]. intros x ->%elem_of_list_singleton. split; [intros a ->%elem_of_list_singleton; done|].
  intros e ->%elem_of_list_singleton a ->%elem_of_list_singleton. done.
Qed.
Lemma a_course_apart c l b : apart (course_files [] (a_course c l b)).
Proof. apply apart_checked. vm_compute. reflexivity. Qed.
Lemma a_course_built c l b : ∃ f', build_course [] (a_course c l b) None empty_disk = Over () None f'.
Proof.
  apply course_builds; [apply empty_tree|apply lookup_singleton| |apply a_course_names|apply a_course_apart].
  unfold empty_disk. apply lookup_singleton_ne. done.
Qed.
Lemma a_course_missing c l b p : course_refers [] (a_course c l b) p → p ≠ [] →
  forallb (λ w, negb (bool_decide (p `prefix_of` w.1))) (course_files [] (a_course c l b)) = true → missing (a_course c l b) p.
Proof.
  intros Hr Hp Hw. destruct (a_course_built c l b) as [f' H]. exists empty_disk, f'. split; [apply empty_tree|]. split; [exact H|]. split; [exact Hr|].
  destruct (f' !! p) eqn:E; [|reflexivity]. exfalso. assert (f' !! p ≠ None) as N by congruence. apply (course_exists _ _ _ _ _ _ _ H) in N as [N|(w & Hin & Hpre)].
  - apply N. unfold empty_disk. apply lookup_singleton_ne. intros E'. exact (Hp (eq_sym E')).
  - rewrite forallb_forall in Hw. apply elem_of_list_In in Hin. apply Hw in Hin. apply negb_true_iff, bool_decide_eq_false in Hin. exact (Hin Hpre).
Qed.
Lemma missing_course : ∃ b p, missing b p ∧ unit_refers ([] ++ [cb_dir b]) (cb_manifest b) p.
Proof.
  exists (a_course (Some (Markdown (Relative ["gone.md"]))) None None), ["C"; "gone.md"].
  assert (unit_refers ["C"] (UnitText "c" (Some (Markdown (Relative ["gone.md"]))) None) ["C"; "gone.md"]) as H by (eexists; split; [left; done|done]).
  split; [|exact H]. apply a_course_missing; [left; exact H|done|vm_compute; reflexivity].
Qed.
Lemma missing_lesson : ∃ b l p, missing b p ∧ l ∈ cb_lessons b ∧ unit_refers ([cb_dir b] ++ [lb_dir l]) (lb_manifest l) p.
Proof.
  set (b := a_course None (Some (Markdown (Relative ["gone.md"]))) None). exists b.
  exists (LessonBuilder "L" (UnitText "l" None (Some (Markdown (Relative ["gone.md"])))) [an_exercise None] [AssetBuilder ["notes"; "lesson.md"] "notes"]), ["C"; "L"; "gone.md"].
  assert (unit_refers ["C"; "L"] (UnitText "l" None (Some (Markdown (Relative ["gone.md"])))) ["C"; "L"; "gone.md"]) as H by (eexists; split; [right; done|done]).
  split; [|split; [left|exact H]]. apply a_course_missing; [|done|vm_compute; reflexivity]. right. eexists. split; [left|]. left. exact H.
Qed.
Lemma missing_exercise : ∃ b l e p, missing b p ∧ l ∈ cb_lessons b ∧ e ∈ lb_exercises l ∧ exercise_refers ([cb_dir b] ++ [lb_dir l] ++ [eb_dir e]) (et_asset (eb_manifest e)) p.
Proof.
  set (b := a_course None None (Some (Relative ["back.md"]))). exists b.
  exists (LessonBuilder "L" (UnitText "l" None None) [an_exercise (Some (Relative ["back.md"]))] [AssetBuilder ["notes"; "lesson.md"] "notes"]), (an_exercise (Some (Relative ["back.md"]))), ["C"; "L"; "E"; "back.md"].
  assert (exercise_refers ["C"; "L"; "E"] (et_asset (eb_manifest (an_exercise (Some (Relative ["back.md"]))))) ["C"; "L"; "E"; "back.md"]) as H by (right; eexists; split; done).
  split; [|split; [left|split; [left|exact H]]]. apply a_course_missing; [|done|vm_compute; reflexivity].
  right. eexists. split; [left|]. right. eexists. split; [left|]. exact H.
Qed.
Lemma good_built : ∃ f', build_course [] good_course None empty_disk = Over () None f' ∧ apart (course_files [] good_course) ∧ names_given good_course ∧
  tree empty_disk ∧ (["C"; "L"; "notes"; "lesson.md"], "notes") ∈ course_files [] good_course ∧
  f' !! ["C"; "L"; "notes"; "lesson.md"] = Some (File "notes") ∧ f' !! ["C"; "L"; "E"] = Some Dir ∧ f' !! ["C"; "X"] = None.
Proof.
  destruct (a_course_built (Some (Markdown (Relative ["course.md"]))) (Some (Markdown (Relative ["notes"; "lesson.md"]))) None) as [f' H].
  exists f'. split; [exact H|]. split; [apply a_course_apart|]. split; [apply a_course_names|]. split; [apply empty_tree|].
  split; [do 3 right; left|]. rewrite !(course_exact _ _ _ _ _ _ _ H). split; [vm_compute; reflexivity|]. split; vm_compute; reflexivity.
Qed.
(** Two lessons in one directory. *)
Definition twin_course : course_builder :=
  CourseBuilder "C" (plain_unit "c") [LessonBuilder "L" (plain_unit "one") [] []; LessonBuilder "L" (plain_unit "two") [] []] [].
Lemma twin_run : match build_course [] twin_course None empty_disk with Over _ _ f => 
  match f !! ["C"; "L"; "lesson_manifest.json"] with Some (File s) => String.eqb s "two" | _ => false end | _ => false end = true.
Proof. vm_compute. reflexivity. Qed.
Lemma twin_lost : ∃ b f f' l, tree f ∧ names_given b ∧ build_course [] b None f = Over () None f' ∧ l ∈ cb_lessons b ∧
  ∀ p, f' !! p ≠ Some (File (ut_json (lb_manifest l))).
Proof.
  pose proof twin_run as H. destruct (build_course [] twin_course None empty_disk) as [[] n f'| |] eqn:E; [|discriminate H..].
  assert (n = None) as ->.
  { assert (match build_course [] twin_course None empty_disk with Over _ n _ => match n with None => true | _ => false end | _ => false end = true) as Hn by (vm_compute; reflexivity).
    rewrite E in Hn. destruct n; [discriminate Hn|reflexivity]. }
  exists twin_course, empty_disk, f', (LessonBuilder "L" (plain_unit "one") [] []). split; [apply empty_tree|]. split; [|split; [exact E|split; [left|]]]; [clear E H|clear H].
  - split; [intros a Ha; inversion Ha|]. intros l [->|[->|Hl]%elem_of_cons]%elem_of_cons; [..|inversion Hl]; (split; [intros a Ha; inversion Ha|intros e He; inversion He]).
  - intros p Hp. rewrite (course_exact _ _ _ _ _ _ _ E) in Hp. unfold after_writing in Hp. destruct (last_at p (course_files [] twin_course)) as [s|] eqn:El.
    + injection Hp as ->. pose proof (last_at_some _ _ _ El) as Hin. cbn in Hin.
      apply elem_of_cons in Hin as [Hin|Hin]; [discriminate Hin|]. apply elem_of_cons in Hin as [Hin|Hin]; [injection Hin as ->; vm_compute in El; discriminate El|].
      apply elem_of_cons in Hin as [Hin|Hin]; [discriminate Hin|]. inversion Hin.
    + unfold empty_disk in Hp. destruct (decide (p = [])) as [->|Hne]; [rewrite lookup_singleton in Hp; done|]. rewrite lookup_singleton_ne in Hp by done.
      case_decide; done.
Qed.
