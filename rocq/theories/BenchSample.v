(** Concrete copies, students and simulations. *)
From stdpp Require Import gmap strings list sorting.
From Coq Require Import ZArith Lia.
From Verif Require Import F32 Graph GraphSpec GraphMore Library LibrarySpec LibraryQueries Options FileSystem FileSpec FileProofs ConfigProofs BuildProofs FileSample
  Walk WalkSpec WalkProofs WalkMore WalkBuild WalkTrane WalkSample Benchmark BenchSpec BenchProofs BenchRun CopyProofs.
Local Open Scope string_scope.
Local Open Scope list_scope.

(** ** A walk that lists directories first *)
Definition no_longer (p q : list string) : Prop := (length p ≤ length q)%nat.
Global Instance no_longer_dec p q : Decision (no_longer p q).
Proof. unfold no_longer. apply _. Defined.
Global Instance no_longer_total : Total no_longer.
Proof. intros p q. unfold no_longer. lia. Qed.
Global Instance no_longer_trans : Transitive no_longer.
Proof. intros p q r. unfold no_longer. lia. Qed.
Definition down_walk (f : gmap (list string) node) (root : list string) : list (list string) := merge_sort no_longer (some_walk f root).
Lemma down_walks : walks down_walk.
Proof.
  intros f root. destruct (some_walks f root) as [H1 H2]. unfold down_walk. pose proof (merge_sort_Permutation no_longer (some_walk f root)) as P.
  split; [by rewrite P|]. intros p. by rewrite P.
Qed.
Lemma down_parents : parents_first down_walk.
Proof.
  intros f root l1 p l2 q E H1 [[k Hk] Hne] Hq. assert (Hin : q ∈ down_walk f root) by (by apply down_walks).
  pose proof (StronglySorted_merge_sort no_longer (some_walk f root)) as S. fold (down_walk f root) in S. rewrite E in Hin, S.
  assert (Hl : (length q < length p)%nat).
  { rewrite Hk, app_length. destruct k; [rewrite app_nil_r in Hk; congruence|]. cbn. lia. }
  apply elem_of_app in Hin as [|Hin]; [done|]. exfalso. apply elem_of_cons in Hin as [->|Hin]; [lia|].
  clear E. induction l1 as [|x l1 IH]; cbn in S; apply StronglySorted_inv in S as [S F].
  - rewrite Forall_forall in F. specialize (F _ Hin). unfold no_longer in F. lia.
  - by apply IH.
Qed.

(** ** A library is copied *)
Definition before_copy : gmap (list string) node := <[ ["tmp"] := Dir ]> (built_disk good_course).
Definition after_copy : gmap (list string) node := final (copy_library down_walk ["lib"] ["tmp"] None before_copy).
Lemma before_tree : tree before_copy.
Proof. apply tree_checked. vm_compute. reflexivity. Qed.
Definition below_check (f : gmap (list string) node) (dst : list string) : bool := forallb (λ x, negb (bool_decide (dst `prefix_of` x.1)) || bool_decide (x.1 = dst)) (map_to_list f).
Lemma below_checked f dst : below_check f dst = true → ∀ r, r ≠ [] → f !! (dst ++ r) = None.
Proof.
  intros H r Hr. destruct (f !! (dst ++ r)) as [n|] eqn:E; [|done]. exfalso. unfold below_check in H. rewrite forallb_forall in H.
  specialize (H (dst ++ r, n)). cbn [fst] in H. apply elem_of_map_to_list, elem_of_list_In in E. specialize (H E).
  apply orb_true_iff in H as [H|H].
  - apply negb_true_iff, bool_decide_eq_false in H. apply H. by exists r.
  - apply bool_decide_eq_true in H. apply Hr. apply (app_inv_head dst). by rewrite app_nil_r.
Qed.
Lemma before_below : ∀ r, r ≠ [] → before_copy !! (["tmp"] ++ r) = None.
Proof. apply below_checked. vm_compute. reflexivity. Qed.
Lemma before_dirs : before_copy !! ["lib"] = Some Dir ∧ before_copy !! ["tmp"] = Some Dir.
Proof.
  assert (is_dir before_copy ["lib"] = true ∧ is_dir before_copy ["tmp"] = true) as [H1 H2] by (split; vm_compute; reflexivity).
  split; by apply is_dir_true.
Qed.
Lemma apart_lib : ¬ ["lib"] `prefix_of` ["tmp"] ∧ ¬ ["tmp"] `prefix_of` ["lib"].
Proof. split; intros [k Hk]; discriminate Hk. Qed.
Lemma copy_run : copy_library down_walk ["lib"] ["tmp"] None before_copy = Over () None after_copy.
Proof.
  destruct before_dirs as [D1 D2]. destruct apart_lib as [A1 A2].
  destruct (copy_can down_walk down_walks down_parents ["lib"] ["tmp"] before_copy before_tree D1 A1 A2 D2 before_below) as [f' E].
  unfold after_copy. rewrite E. done.
Qed.
Lemma after_same : same_tree before_copy ["lib"] after_copy ["tmp"].
Proof.
  destruct before_dirs as [D1 D2]. destruct apart_lib as [A1 A2].
  destruct (copied down_walk down_walks ["lib"] ["tmp"] None before_copy None after_copy before_tree D1 A1 A2 before_below copy_run) as [H _]. exact H.
Qed.
Lemma some_anywhere c l b : generates_anywhere (some_readers c l b).
Proof. by intros f f' dir dir' cm config _. Qed.
Lemma scans_copied :
  scan_courses rd0 down_walk [] before_copy (Given true ["lib"]) [] = Some [c_course] ∧
  scan_courses rd0 down_walk [] after_copy (Given true ["tmp"]) [] = Some [c_course] ∧
  scan_courses rd0 down_walk [] before_copy (Given true ["lib"]) [Given true ["lib"; "C"]] = Some [] ∧
  scan_courses rd0 down_walk [] after_copy (Given true ["tmp"]) [Given true ["lib"; "C"]] = Some [c_course].
Proof. split; [|split; [|split]]; vm_compute; reflexivity. Qed.
(** A course that is ignored under its full name is not ignored in the copy. *)
Lemma ignored_reappears : ∃ rd walk f src f' dst ignored cs, walks walk ∧ generates_anywhere rd ∧ same_tree f src f' dst ∧
  scan_courses rd walk [] f (Given true src) ignored = Some [] ∧ scan_courses rd walk [] f' (Given true dst) ignored = Some cs ∧ cs ≠ [].
Proof.
  destruct scans_copied as (_ & _ & S1 & S2).
  exists rd0, down_walk, before_copy, ["lib"], after_copy, ["tmp"], [Given true ["lib"; "C"]], [c_course].
  split; [apply down_walks|]. split; [apply some_anywhere|]. split; [apply after_same|]. split; [exact S1|]. split; [exact S2|]. discriminate.
Qed.
Lemma copy_shown : walks down_walk ∧ parents_first down_walk ∧ tree before_copy ∧ before_copy !! ["lib"] = Some Dir ∧ before_copy !! ["tmp"] = Some Dir ∧
  (∀ r, r ≠ [] → before_copy !! (["tmp"] ++ r) = None) ∧ copy_library down_walk ["lib"] ["tmp"] None before_copy = Over () None after_copy ∧
  generates_anywhere (some_readers (Some (Markdown (Relative ["course.md"]))) (Some (Markdown (Relative ["notes"; "lesson.md"]))) None) ∧
  scan_courses (some_readers (Some (Markdown (Relative ["course.md"]))) (Some (Markdown (Relative ["notes"; "lesson.md"]))) None) down_walk [] after_copy (Given true ["tmp"]) [] = Some [c_course].
Proof.
  destruct before_dirs as [D1 D2]. destruct scans_copied as (_ & S & _).
  split; [apply down_walks|]. split; [apply down_parents|]. split; [apply before_tree|]. split; [exact D1|]. split; [exact D2|].
  split; [apply before_below|]. split; [apply copy_run|]. split; [apply some_anywhere|exact S].
Qed.

(** ** Students *)
Definition p_0_01 : f32 := lit false 10737418 (-30) eq_refl.
Definition p_0_02 : f32 := lit false 10737418 (-29) eq_refl.
Definition p_0_03 : f32 := lit false 16106127 (-29) eq_refl.
Definition p_0_05 : f32 := lit false 13421773 (-28) eq_refl.
Definition p_0_06 : f32 := lit false 16106127 (-28) eq_refl.
Definition p_0_07 : f32 := lit false 9395241 (-27) eq_refl.
Definition p_0_08 : f32 := lit false 10737418 (-27) eq_refl.
Definition p_0_1 : f32 := lit false 13421773 (-27) eq_refl.
Definition p_0_12 : f32 := lit false 16106127 (-27) eq_refl.
Definition p_0_15 : f32 := lit false 10066330 (-26) eq_refl.
Definition p_0_18 : f32 := lit false 12079596 (-26) eq_refl.
Definition p_0_2 : f32 := lit false 13421773 (-26) eq_refl.
Definition p_0_25 : f32 := lit false 8388608 (-25) eq_refl.
Definition p_0_3 : f32 := lit false 10066330 (-25) eq_refl.
Definition p_0_4 : f32 := lit false 13421773 (-25) eq_refl.
Definition p_0_65 : f32 := lit false 10905190 (-24) eq_refl.
Definition p_0_7 : f32 := lit false 11744051 (-24) eq_refl.
Definition p_0_75 : f32 := lit false 12582912 (-24) eq_refl.
Definition p_0_8 : f32 := lit false 13421773 (-24) eq_refl.
(** The students of src/benchmark.rs:134-173. *)
Definition students : list profile := [
  Profile [p_0_3; p_0_2; p_0_25; p_0_15; p_0_1] 5 [p_0_03; p_0_02; p_0_1; p_0_2; p_0_65] p_0_1;
  Profile [p_0_2; p_0_25; p_0_3; p_0_15; p_0_1] 5 [p_0_02; p_0_03; p_0_1; p_0_2; p_0_65] p_0_08;
  Profile [p_0_15; p_0_25; p_0_3; p_0_18; p_0_12] 4 [p_0_02; p_0_03; p_0_1; p_0_15; p_0_7] p_0_07;
  Profile [p_0_1; p_0_15; p_0_4; p_0_2; p_0_15] 4 [p_0_01; p_0_03; p_0_06; p_0_15; p_0_75] p_0_06;
  Profile [p_0_08; p_0_12; p_0_4; p_0_2; p_0_2] 3 [fzero; p_0_02; p_0_03; p_0_15; p_0_8] p_0_05 ].
Definition probabilities_check (p : list f32) : bool := Nat.eqb (length p) 5 && forallb (fle fzero) p.
Lemma probabilities_checked p : probabilities_check p = true → five_probabilities p.
Proof.
  intros [H1 H2]%andb_true_iff. apply Nat.eqb_eq in H1. split; [done|]. rewrite forallb_forall in H2. apply Forall_forall. intros x Hx. apply H2. by apply elem_of_list_In.
Qed.
Definition student_check (x : profile) : bool :=
  probabilities_check (initial x) && probabilities_check (stable x) && verify_profile x && Z.leb 0 (before_stable x) && Z.ltb (before_stable x) (2 ^ 32).
Lemma students_checked : forallb student_check students = true.
Proof. vm_compute. reflexivity. Qed.
Lemma students_ok x : x ∈ students → five_probabilities (initial x) ∧ five_probabilities (stable x) ∧ verify_profile x = true ∧ counted (before_stable x).
Proof.
  intros Hx%elem_of_list_In. pose proof students_checked as H. rewrite forallb_forall in H. specialize (H x Hx). unfold student_check in H.
  rewrite !andb_true_iff in H. destruct H as [[[[H1 H2] H3] H4] H5]. split; [by apply probabilities_checked|]. split; [by apply probabilities_checked|].
  split; [done|]. split; [by apply Z.leb_le|by apply Z.ltb_lt].
Qed.
(** Half of the total. *)
Definition f_half : f32 := lit false 8388608 (-24) eq_refl.
(** Negative probabilities with the sum 1. *)
Definition odd_probabilities : list f32 := [fneg f_1; f_1; f_1; fzero; fzero].
Definition odd_student : profile := Profile odd_probabilities 5 odd_probabilities fzero.
Lemma odd_panics : verify_profile odd_student = true ∧ ∀ u pick, get_score odd_student 0 u pick = None.
Proof.
  assert (E : weighted_index (performance odd_student 0) = None) by (vm_compute; reflexivity).
  split; [vm_compute; reflexivity|]. intros u pick. unfold get_score. replace (Z.ltb (before_stable odd_student) 0) with false by reflexivity.
  rewrite andb_false_r, E. reflexivity.
Qed.
Lemma negative_panics : ∃ x, verify_profile x = true ∧ length (initial x) = 5%nat ∧ length (stable x) = 5%nat ∧ counted (before_stable x) ∧
  ∀ u pick, get_score x 0 u pick = None.
Proof. exists odd_student. destruct odd_panics as [H1 H2]. split; [exact H1|]. split; [reflexivity|]. split; [reflexivity|]. split; [|exact H2]. unfold counted. cbn. lia. Qed.

(** ** Simulations *)
(** A library of two exercises that gives them again and again. *)
Definition two_batch (t : Z) (now : Z) : option (list string) := Some ["e1"; "e2"].
Definition two_score (t : Z) (e : string) (s : mastery_score) (now : Z) : option Z := Some (t + 1)%Z.
Definition two_unit (t : Z) (now : Z) (c : string) : option f32 := if Z.ltb 5 t then Some f_5 else None.
Definition two_draw (n k : Z) : option mastery_score := Some Four.
Definition two_run (frequency per : Z) := simulate two_batch two_score two_unit two_draw "c" f_4 ["c"] 10 1000 frequency per 0%Z.
Definition run_check (r : simulated (T:=Z)) (days : option Z) (n k : Z) (times : list Z) : bool :=
  match r with
  | Simulated r s => bool_decide (days_to_mastery r = days) && Z.eqb (sessions_run r) n && Z.eqb (exercises_practiced r) k && bool_decide ((reverse (sim_log s)).*2 = times)
  | _ => false
  end.
Lemma run_checked r days n k times : run_check r days n k times = true →
  ∃ s, r = Simulated (StudentResult days n k) s ∧ (reverse (sim_log s)).*2 = times.
Proof.
  destruct r as [[d a b] s| |]; cbn; [|done..]. rewrite !andb_true_iff. intros [[[H1%bool_decide_eq_true H2%Z.eqb_eq] H3%Z.eqb_eq] H4%bool_decide_eq_true].
  exists s. subst. done.
Qed.
Lemma two_ends : ∃ s, two_run 2 3 = Simulated (StudentResult (Some 2%Z) 2 6) s ∧ (reverse (sim_log s)).*2 = [1000; 1001; 1002; 173800; 173801; 173802]%Z.
Proof. apply run_checked. vm_compute. reflexivity. Qed.
Lemma two_overlap : ∃ s, two_run 0 3 = Simulated (StudentResult (Some 0%Z) 2 6) s ∧ (reverse (sim_log s)).*2 = [1000; 1001; 1002; 1000; 1001; 1002]%Z.
Proof. apply run_checked. vm_compute. reflexivity. Qed.
(** With no days in between, later trials are recorded in the past. *)
Lemma overlaps : ∃ (T : Type) get_batch score_exercise unit_score draw advanced threshold courses max anchor frequency per (t : T) r s i j x y,
  simulate get_batch score_exercise unit_score draw advanced threshold courses max anchor frequency per t = Simulated r s ∧ (0 ≤ frequency)%Z ∧ (0 < per)%Z ∧
  reverse (sim_log s) !! i = Some x ∧ reverse (sim_log s) !! j = Some y ∧ (i < j)%nat ∧ (y.2 < x.2)%Z.
Proof.
  destruct two_overlap as (s & E & Et).
  assert (∃ x, reverse (sim_log s) !! 2 = Some x ∧ x.2 = 1002%Z) as (x & Hx & Vx).
  { assert (H : (reverse (sim_log s)).*2 !! 2 = Some 1002%Z) by (rewrite Et; reflexivity). rewrite list_lookup_fmap in H.
    destruct (reverse (sim_log s) !! 2) as [x|]; [|discriminate H]. exists x. split; [done|]. injection H. done. }
  assert (∃ x, reverse (sim_log s) !! 3 = Some x ∧ x.2 = 1000%Z) as (y & Hy & Vy).
  { assert (H : (reverse (sim_log s)).*2 !! 3 = Some 1000%Z) by (rewrite Et; reflexivity). rewrite list_lookup_fmap in H.
    destruct (reverse (sim_log s) !! 3) as [y|]; [|discriminate H]. exists y. split; [done|]. injection H. done. }
  exists Z, two_batch, two_score, two_unit, two_draw, "c", f_4, ["c"], 10%nat, 1000%Z, 0%Z, 3%Z, 0%Z, (StudentResult (Some 0%Z) 2 6), s, 2%nat, 3%nat, x, y.
  split; [exact E|]. split; [lia|]. split; [lia|]. split; [exact Hx|]. split; [exact Hy|]. split; [lia|]. rewrite Vx, Vy. lia.
Qed.
