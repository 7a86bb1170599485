(** Concrete libraries on disk. *)
From stdpp Require Import gmap strings list countable.
From Coq Require Import Ascii.
From Verif Require Import Graph GraphSpec GraphMore Library LibrarySpec LibraryQueries Options FileSystem FileSpec FileProofs ConfigProofs BuildProofs FileSample Walk WalkSpec WalkProofs WalkMore WalkBuild WalkTrane.
Local Open Scope string_scope.
Local Open Scope list_scope.

(** ** A walk *)
Definition some_walk (f : gmap (list string) node) (root : list string) : list (list string) := filter (above root) (map_to_list f).*1.
Lemma some_walks : walks some_walk.
Proof.
  intros f root. split; [apply stdpp.list.NoDup_filter, NoDup_fst_map_to_list|]. intros p. unfold some_walk. rewrite elem_of_list_filter, elem_of_list_fmap. f_equiv. split.
  - intros ([q n] & -> & H%elem_of_map_to_list). cbn. congruence.
  - intros H. destruct (f !! p) as [n|] eqn:E; [|done]. exists (p, n). split; [done|]. by apply elem_of_map_to_list.
Qed.

(** ** Manifests *)
Definition c_manifest : course_manifest := CourseManifest "c" [] [] [] None.
Definition l_manifest : lesson_manifest := LessonManifest "l" "c" [] [] [] None.
Definition e_manifest : exercise_manifest := ExerciseManifest "e" "l" "c" true.
Definition c_course : open_course := OpenCourse c_manifest [(l_manifest, [e_manifest])].
Definition some_readers (course lesson : option basic_asset) (back : option reference) : readers :=
  Readers (λ s, if String.eqb s "c" then Some (CourseFile c_manifest course None None) else None)
    (λ s, if String.eqb s "l" then Some (LessonFile l_manifest None lesson) else None)
    (λ s, if String.eqb s "e" then Some (ExerciseFile e_manifest (Flashcard (Relative ["front.md"]) back)) else None)
    (λ _ _ _ _, None).
Lemma some_locally c l b : generates_locally (some_readers c l b).
Proof. by intros f f' dir cm config _. Qed.
Lemma some_consistently c l b : generates_consistently (some_readers c l b).
Proof. by intros f dir cm config ls m. Qed.
Lemma a_course_given c l b : course_given (some_readers c l b) (a_course c l b) c_course.
Proof.
  split; [done|]. split; [done|]. constructor; [|constructor]. split; [done|]. split; [done|]. split; [done|]. constructor; [|constructor].
  split; [done|]. split; [done|]. done.
Qed.
Lemma a_course_plain c l b : course_plain (a_course c l b).
Proof.
  assert (∀ n, n = "course.md" ∨ n = "lesson.md" ∨ n = "front.md" → ¬ reserved n) as R by (intros n [->|[->| ->]] [?|[?|?]]; done).
  split; [intros a n ->%elem_of_list_singleton [= <-]; auto|]. intros x ->%elem_of_list_singleton. split; [intros a n ->%elem_of_list_singleton [= <-]; auto|].
  intros e ->%elem_of_list_singleton a n ->%elem_of_list_singleton [= <-]. auto.
Qed.

(** ** A library with one course *)
Notation rd0 := (some_readers (Some (Markdown (Relative ["course.md"]))) (Some (Markdown (Relative ["notes"; "lesson.md"]))) None) (only parsing).
Lemma some_tree : tree some_disk.
Proof.
  split; [done|]. intros p x n H. unfold some_disk, empty_disk in H. apply lookup_insert_Some in H as [[E _]|[_ H]].
  - destruct p as [|y p]; [done|]. destruct p; done.
  - apply lookup_singleton_Some in H as [E _]. by destruct p.
Qed.
Lemma some_none p : ["lib"] `prefix_of` p → p ≠ ["lib"] → some_disk !! p = None.
Proof. intros [r ->] H. by apply disk_only. Qed.
Definition built_disk (b : course_builder) : gmap (list string) node :=
  match build_course ["lib"] b None some_disk with Over _ _ f => f | Fails f => f | Interrupted f => f end.
Lemma a_course_apart_in c l b : apart (course_files ["lib"] (a_course c l b)).
Proof. apply apart_checked. vm_compute. reflexivity. Qed.
Lemma built_run c l b : build_course ["lib"] (a_course c l b) None some_disk = Over () None (built_disk (a_course c l b)).
Proof.
  assert (∃ f', build_course ["lib"] (a_course c l b) None some_disk = Over () None f') as [f' H].
  { apply course_builds; [apply some_tree|apply lookup_insert| |apply a_course_names|apply a_course_apart_in]. by apply some_none; [exists ["C"]|]. }
  unfold built_disk. rewrite H. done.
Qed.
Lemma some_outside : outside_courses some_disk ["lib"].
Proof. intros d s _ H. rewrite disk_only in H; [done|by destruct d|]. by destruct d as [|? [|]]. Qed.
Lemma good_normal :
  normal_unit (built_disk good_course) ["lib"; "C"] (Some (Markdown (Relative ["course.md"]))) None = true ∧
  normal_unit (built_disk good_course) ["lib"; "C"; "L"] None (Some (Markdown (Relative ["notes"; "lesson.md"]))) = true ∧
  normal_exercise (built_disk good_course) ["lib"; "C"; "L"; "E"] (Flashcard (Relative ["front.md"]) None) = true.
Proof. split; [|split]; vm_compute; reflexivity. Qed.
Lemma good_there : course_there (built_disk good_course) ["lib"] good_course.
Proof.
  destruct good_normal as (H1 & H2 & H3). apply normal_unit_there in H1, H2. apply normal_exercise_there in H3. split; [exact H1|].
  intros x Hx. apply elem_of_list_singleton in Hx. subst x. split; [exact H2|]. intros e He. apply elem_of_list_singleton in He. subst e. exact H3.
Qed.
Lemma scan_empty c l b : scan_courses (some_readers c l b) some_walk [] some_disk (Given true ["lib"]) [] = Some [].
Proof.
  assert (course_paths some_walk [] some_disk (Given true ["lib"]) [] = []) as H by (vm_compute; reflexivity). unfold scan_courses. rewrite H. done.
Qed.
Lemma scan_good : scan_courses rd0 some_walk [] (built_disk good_course) (Given true ["lib"]) [] = Some [c_course].
Proof. vm_compute. reflexivity. Qed.

Lemma built_opens : scan_courses rd0 some_walk [] some_disk (Given true ["lib"]) [] = Some [] ∧
  build_course ["lib"] good_course None some_disk = Over () None (built_disk good_course) ∧
  names_given good_course ∧ course_plain good_course ∧ apart (course_files ["lib"] good_course) ∧ course_given rd0 good_course c_course ∧
  tree some_disk ∧ some_disk !! ["lib"; "C"] = None ∧ outside_courses some_disk ["lib"] ∧ course_there (built_disk good_course) ["lib"] good_course ∧
  scan_courses rd0 some_walk [] (built_disk good_course) (Given true ["lib"]) [] = Some [c_course].
Proof.
  split; [apply scan_empty|]. split; [apply built_run|]. split; [apply a_course_names|]. split; [apply a_course_plain|]. split; [apply a_course_apart_in|].
  split; [apply a_course_given|]. split; [apply some_tree|]. split; [apply some_none; [by exists ["C"]|by intros [=]]|]. split; [apply some_outside|].
  split; [apply good_there|apply scan_good].
Qed.
(** A course that is built but cannot be opened. *)
Definition bad_course : course_builder := a_course (Some (Markdown (Relative ["gone.md"]))) None None.
Lemma bad_missing : path_exists (built_disk bad_course) ["lib"; "C"; "gone.md"] = false.
Proof. vm_compute. reflexivity. Qed.
Lemma bad_there : ¬ course_there (built_disk bad_course) ["lib"] bad_course.
Proof.
  pose proof bad_missing as H. unfold path_exists in H. intros [[T _] _]. specialize (T _ eq_refl ["gone.md"] eq_refl). cbn [app] in T.
  destruct (built_disk bad_course !! ["lib"; "C"; "gone.md"]); [discriminate H|]. exact (T eq_refl).
Qed.
Lemma built_not_opened : ∃ rd walk parent b c f f' root, walks walk ∧ generates_locally rd ∧ generates_consistently rd ∧ names_given b ∧ course_plain b ∧ apart (course_files parent b) ∧
  course_given rd b c ∧ tree f ∧ f !! (parent ++ [cb_dir b]) = None ∧ outside_courses f parent ∧ root `prefix_of` parent ∧
  scan_courses rd walk [] f (Given true root) [] = Some [] ∧ build_course parent b None f = Over () None f' ∧
  scan_courses rd walk [] f' (Given true root) [] = None.
Proof.
  exists (some_readers (Some (Markdown (Relative ["gone.md"]))) None None), some_walk, ["lib"], bad_course, c_course, some_disk, (built_disk bad_course), ["lib"].
  assert (N : some_disk !! (["lib"] ++ [cb_dir bad_course]) = None) by (apply some_none; [by exists ["C"]|by intros [=]]).
  split; [apply some_walks|]. split; [apply some_locally|]. split; [apply some_consistently|]. split; [apply a_course_names|]. split; [apply a_course_plain|].
  split; [apply a_course_apart_in|]. split; [apply a_course_given|]. split; [apply some_tree|]. split; [exact N|]. split; [apply some_outside|]. split; [reflexivity|].
  split; [apply scan_empty|]. split; [apply built_run|].
  eapply build_breaks; [apply some_walks|apply a_course_apart_in|apply a_course_given|apply some_tree|exact N|reflexivity|apply built_run|apply bad_there].
Qed.

(** ** Ignored paths *)
Lemma scan_ignored : scan_courses rd0 some_walk [] (built_disk good_course) (Given true ["lib"]) [Given false ["C"]] = Some [] ∧
  scan_courses rd0 some_walk [] (built_disk good_course) (Given false ["lib"]) [Given false ["C"]] = Some [c_course].
Proof. split; vm_compute; reflexivity. Qed.
Lemma not_ignored : ∃ rd walk cwd f root ignored cs, walks walk ∧ generates_consistently rd ∧ scan_courses rd walk cwd f root ignored = Some cs ∧
  ¬ library_reads rd f (locate cwd root) (below_any (locate cwd root) ignored) cs.
Proof.
  destruct scan_ignored as [H1 H2].
  exists rd0, some_walk, [], (built_disk good_course), (Given false ["lib"]), [Given false ["C"]], [c_course]. split; [apply some_walks|]. split; [apply some_consistently|]. split; [exact H2|].
  intros H. destruct (ignored_complete rd0 some_walk some_walks [] _ (Given true ["lib"]) _ _ eq_refl H) as (cs & E & (k & Hk & Hf)).
  rewrite H1 in E. injection E as <-. inversion Hf. subst k. symmetry in Hk. apply Permutation_nil in Hk. discriminate Hk.
Qed.

(** ** Preferences *)
Fixpoint pos_text (p : positive) : string := match p with xH => "" | xO p => String "0" (pos_text p) | xI p => String "1" (pos_text p) end.
Fixpoint text_pos (s : string) : positive := match s with EmptyString => xH | String a s => if Ascii.eqb a "0" then xO (text_pos s) else xI (text_pos s) end.
Lemma text_pos_text p : text_pos (pos_text p) = p.
Proof. induction p as [p IH|p IH|]; cbn; [by rewrite IH|by rewrite IH|done]. Qed.
Definition preferences_parts (x : preferences) : option nat * list (bool * list string) := (pf_batch_size x, (λ g, (is_absolute g, names g)) <$> pf_ignored x).
Definition parts_preferences (x : option nat * list (bool * list string)) : preferences := Preferences x.1 ((λ g, Given g.1 g.2) <$> x.2).
Definition write_preferences (x : preferences) : string := pos_text (encode (preferences_parts x)).
Definition parse_preferences (s : string) : option preferences := parts_preferences <$> decode (text_pos s).
Lemma preferences_codec x : parse_preferences (write_preferences x) = Some x.
Proof.
  unfold parse_preferences, write_preferences. rewrite text_pos_text, decode_encode. cbn [fmap option_fmap option_map]. f_equal. destruct x as [b l]. unfold parts_preferences, preferences_parts. cbn [fst snd pf_batch_size pf_ignored].
  f_equal. rewrite <- list_fmap_compose. rewrite <- (list_fmap_id l) at 2. apply list_fmap_ext. intros i [? ?] _. done.
Qed.
Definition no_preferences : preferences := Preferences None [].
Definition open_here := open_trane rd0 some_walk sample_order parse_preferences (write_preferences no_preferences).

(** Opened, with the library and the files. *)
Definition opened_with {A : Type} (r : run (library * A)) (id : string) : bool :=
  match r with Over (lib, _) _ _ => match course_map lib !! id with Some _ => true | None => false end | _ => false end.
Lemma opened_run (r : run (library * scheduler_options)) id : opened_with r id = true → ∃ lib op n f, r = Over (lib, op) n f.
Proof. destruct r as [[lib op] n f| |]; [|done..]. intros _. by exists lib, op, n, f. Qed.
Lemma open_absolute : opened_with (open_here [] (Given true []) (Given true ["lib"]) None (built_disk good_course)) "c" = true.
Proof. vm_compute. reflexivity. Qed.
(** The library is in [lib]; the process is elsewhere. *)
Definition other_disk : gmap (list string) node := <[ ["home"; "lib"] := Dir ]> (<[ ["home"] := Dir ]> (built_disk good_course)).
Lemma open_relative : opened_with (open_here ["home"] (Given true []) (Given false ["lib"]) None other_disk) "c" = true ∧
  opened_with (open_here ["home"] (Given true []) (Given true ["lib"]) None other_disk) "c" = true.
Proof. split; vm_compute; reflexivity. Qed.
(** The library is not found where the working directory says. *)
Lemma root_not_found : ∃ rd walk o decode text cwd working r f, walks walk ∧ generates_consistently rd ∧ order_ok o ∧
  (∃ x f', open_trane rd walk o decode text cwd (Given true working) (Given true (working ++ r)) None f = Over x None f') ∧
  ∀ n, open_trane rd walk o decode text cwd (Given true working) (Given false r) n f = Fails f.
Proof.
  exists rd0, some_walk, sample_order, parse_preferences, (write_preferences no_preferences), ["away"], [], ["lib"], (built_disk good_course).
  split; [apply some_walks|]. split; [apply some_consistently|]. split; [apply sample_order_ok|]. split.
  - pose proof open_absolute as H. apply opened_run in H as (lib & op & n & f & H). exists (lib, op), f.
    assert (n = None) as ->.
    { assert (match open_here [] (Given true []) (Given true ["lib"]) None (built_disk good_course) with Over _ None _ => true | _ => false end = true) as Hn by (vm_compute; reflexivity).
      rewrite H in Hn. destruct n; [discriminate Hn|reflexivity]. }
    rewrite <- H. unfold open_here. apply absolute_root. reflexivity.
  - intros n. apply missing_root. assert (is_dir (built_disk good_course) ["away"; "lib"] = false) as Hd by (vm_compute; reflexivity).
    intros E. apply is_dir_true in E. cbn [app] in E. rewrite Hd in E. discriminate E.
Qed.
(** The user data are put elsewhere. *)
Lemma elsewhere : ∃ rd walk o decode text cwd working r f x n' f', walks walk ∧ generates_consistently rd ∧ order_ok o ∧
  open_trane rd walk o decode text cwd (Given true working) (Given false r) None f = Over x n' f' ∧
  course_map x.1 !! "c" ≠ None ∧ f' !! trane_dir (cwd ++ r) = Some Dir ∧ f' !! trane_dir (working ++ r) = None.
Proof.
  destruct open_relative as [H _]. pose proof H as H'. apply opened_run in H' as (lib & op & n & f & E).
  exists rd0, some_walk, sample_order, parse_preferences, (write_preferences no_preferences), ["home"], [], ["lib"], other_disk, (lib, op), n, f.
  split; [apply some_walks|]. split; [apply some_consistently|]. split; [apply sample_order_ok|]. split; [exact E|]. split.
  - rewrite E in H. cbn [opened_with] in H. cbn [fst]. destruct (course_map lib !! "c"); [discriminate|discriminate H].
  - destruct (config_place _ _ _ _ _ _ _ _ _ _ _ _ _ E) as [P1 P2]. split; [exact P1|]. apply P2.
    + assert (path_exists other_disk (trane_dir ([] ++ ["lib"])) = false) as Hn by (vm_compute; reflexivity). unfold path_exists in Hn.
      destruct (other_disk !! trane_dir ([] ++ ["lib"])); [discriminate Hn|reflexivity].
    + intros [k Hk]. discriminate Hk.
Qed.

(** Opened, then the preferences are changed. *)
Definition tree_check (f : gmap (list string) node) : bool :=
  is_dir f [] && forallb (λ x, bool_decide (x.1 = []) || is_dir f (FileSystem.parent x.1)) (map_to_list f).
Lemma tree_checked f : tree_check f = true → tree f.
Proof.
  intros [H1 H2]%andb_true_iff. apply is_dir_true in H1. split; [done|]. intros p x n H. rewrite forallb_forall in H2.
  specialize (H2 (p ++ [x], n)). cbn [fst] in H2. apply elem_of_map_to_list, elem_of_list_In in H. specialize (H2 H). apply orb_true_iff in H2 as [H2|H2].
  - apply bool_decide_eq_true in H2. apply snoc_nonempty in H2 as [].
  - rewrite parent_snoc in H2. by apply is_dir_true.
Qed.
Definition opened_disk : gmap (list string) node := final (open_here [] (Given true []) (Given true ["lib"]) None (built_disk good_course)).
Lemma changed : ∃ lib op, open_here [] (Given true []) (Given true ["lib"]) None (built_disk good_course) = Over (lib, op) None opened_disk ∧
  get_preferences parse_preferences (preferences_path ["lib"]) opened_disk = Some no_preferences ∧
  (∀ x, ∃ f, set_preferences write_preferences (preferences_path ["lib"]) x None opened_disk = Over () None f) ∧ tree opened_disk ∧
  ∀ s, opened_disk !! (trane_dir ["lib"] ++ ["course_manifest.json"]) ≠ Some (File s).
Proof.
  pose proof open_absolute as H. apply opened_run in H as (lib & op & n & f & H). exists lib, op.
  assert (n = None) as ->.
  { assert (match open_here [] (Given true []) (Given true ["lib"]) None (built_disk good_course) with Over _ None _ => true | _ => false end = true) as Hn by (vm_compute; reflexivity).
    rewrite H in Hn. destruct n; [discriminate Hn|reflexivity]. }
  assert (opened_disk = f) as E by (unfold opened_disk; rewrite H; reflexivity).
  split; [rewrite E; exact H|]. split; [vm_compute; reflexivity|]. split.
  - intros x. apply preferences_can. assert (is_dir opened_disk (trane_dir ["lib"]) = true ∧ is_dir opened_disk (preferences_path ["lib"]) = false) as [H1 H2] by (split; vm_compute; reflexivity).
    apply is_dir_true in H1. split; [exact H1|]. intros H3. apply is_dir_true in H3. rewrite H2 in H3. discriminate H3.
  - split; [apply tree_checked; vm_compute; reflexivity|]. intros s Hs. assert (path_exists opened_disk (trane_dir ["lib"] ++ ["course_manifest.json"]) = false) as Hn by (vm_compute; reflexivity). unfold path_exists in Hn. rewrite Hs in Hn. discriminate Hn.
Qed.
