(** More proofs about reading a library from the disk. *)
From stdpp Require Import gmap strings list.
From Verif Require Import Graph GraphSpec Library LibrarySpec LibraryProofs LoadProofs LibraryQueries GraphMore Options Generators FileSystem FileSpec FileProofs BuildProofs Walk WalkSpec WalkProofs.
Local Open Scope string_scope.
Local Open Scope list_scope.

(** * Ignored paths *)
Lemma ignored_none cwd root rel : is_ignored cwd root [] (locate cwd root ++ rel) = false ↔ ¬ nothing (locate cwd root ++ rel).
Proof. split; [by intros _ []|done]. Qed.
Lemma join_absolute r i : join_given (Given true r) i = Given true (locate r i).
Proof. unfold join_given, locate. destruct i as [[|] n]; done. Qed.
Lemma ignored_absolute cwd root ignored rel : is_absolute root = true →
  is_ignored cwd root ignored (locate cwd root ++ rel) = false ↔ ¬ below_any (names root) ignored (locate cwd root ++ rel).
Proof.
  destruct root as [abs r]. intros Ha. cbn in Ha. subst abs. unfold is_ignored, ignored_paths.
  change (locate cwd (Given true r)) with r. change (names (Given true r)) with r. rewrite drop_app, join_absolute.
  change (locate r (Given false rel)) with (r ++ rel). rewrite <- not_true_iff_false, existsb_exists. f_equiv. unfold below_any. split.
  - intros (x & Hx & E). apply elem_of_list_In, elem_of_list_fmap in Hx as (i & -> & Hi). exists i. split; [done|].
    rewrite join_absolute in E. unfold starts_with_given in E. cbn [is_absolute names] in E.
    apply andb_true_iff in E as [_ E]. by apply bool_decide_eq_true in E.
  - intros (i & Hi & Hp). exists (Given true (locate r i)). split.
    { apply elem_of_list_In, elem_of_list_fmap. exists i. split; [|done]. by rewrite join_absolute. }
    unfold starts_with_given. cbn [is_absolute names]. by apply andb_true_iff; split; [|apply bool_decide_eq_true].
Qed.
Lemma ignored_relative cwd root ignored p : is_absolute root = false → is_ignored cwd root ignored p = false.
Proof.
  intros Ha. unfold is_ignored. apply not_true_iff_false. rewrite existsb_exists. intros (x & Hx & E).
  apply elem_of_list_In in Hx. unfold ignored_paths in Hx. apply elem_of_list_fmap in Hx as (i & -> & _).
  unfold starts_with_given, join_given in E. cbn [is_absolute] in E. rewrite Ha in E. destruct (is_absolute i) eqn:Ei; cbn in E; [by rewrite Ei in E|done].
Qed.

Section more.
  Context (rd : readers) (walk : files → path → list path) (Hw : walks walk).

  Lemma library_exact cwd f root cs : scan_courses rd walk cwd f root [] = Some cs → library_reads rd f (locate cwd root) nothing cs.
  Proof using Hw. apply scan_sound; [done|]. apply ignored_none. Qed.
  Lemma library_complete cwd f root cs : library_reads rd f (locate cwd root) nothing cs → ∃ cs', scan_courses rd walk cwd f root [] = Some cs' ∧ same_courses cs cs'.
  Proof using Hw. apply scan_complete; [done|]. apply ignored_none. Qed.
  Lemma ignored_exact cwd f root ignored cs : is_absolute root = true → scan_courses rd walk cwd f root ignored = Some cs →
    library_reads rd f (names root) (below_any (names root) ignored) cs.
  Proof using Hw.
    intros Ha H. replace (names root) with (locate cwd root) at 1 by (unfold locate; by rewrite Ha).
    revert H. apply scan_sound; [done|]. intros rel. by apply ignored_absolute.
  Qed.
  Lemma ignored_complete cwd f root ignored cs : is_absolute root = true → library_reads rd f (names root) (below_any (names root) ignored) cs →
    ∃ cs', scan_courses rd walk cwd f root ignored = Some cs' ∧ same_courses cs cs'.
  Proof using Hw.
    intros Ha. replace (names root) with (locate cwd root) at 1 by (unfold locate; by rewrite Ha).
    apply scan_complete; [done|]. intros rel. by apply ignored_absolute.
  Qed.
  Lemma ignored_no_effect cwd f root ignored : is_absolute root = false → scan_courses rd walk cwd f root ignored = scan_courses rd walk cwd f root [].
  Proof using.
    intros Ha. unfold scan_courses, course_paths. f_equal. apply list_filter_iff. intros p. by rewrite !ignored_relative.
  Qed.
End more.

(** * Order *)
Lemma reads_consistent rd f root skip cs : generates_consistently rd → library_reads rd f root skip cs → Forall consistent cs.
Proof.
  intros Hg (dirs & _ & _ & H). induction H as [|d c dirs cs Hc _ IH]; [done|]. constructor; [|done].
  destruct Hc as (s & cf & cm & gen & ls & ds & _ & _ & _ & _ & _ & Hgen & _ & _ & Hl & ->).
  intros lm exs Hin. cbn in *. apply elem_of_app in Hin as [Hin|Hin].
  - destruct (cf_generator cf) as [config|]; [|destruct Hgen as [_ ->]; by apply elem_of_nil in Hin]. destruct Hgen as (m & Hgen & ->).
    apply Hg in Hgen. destruct (Hgen lm exs Hin) as [H1 H2]. split; [|done]. cbn in H1. rewrite H1. by destruct m.
  - apply elem_of_list_lookup in Hin as [i Hi]. destruct (Forall2_lookup_r _ _ _ _ _ Hl Hi) as (x & _ & Hx).
    destruct Hx as (s' & i' & m' & ds' & _ & _ & _ & _ & _ & E & _ & _ & He). cbn in *. split; [done|]. intros em Hem.
    apply elem_of_list_lookup in Hem as [j Hj]. destruct (Forall2_lookup_r _ _ _ _ _ He Hj) as (y & _ & Hy).
    by destruct Hy as (? & ? & _ & _ & _ & _ & ? & _).
Qed.
Lemma same_opened cs cs' o o' : same_courses cs cs' → Forall consistent cs → order_ok o → order_ok o' →
  (is_Some (open_library o cs) ↔ is_Some (open_library o' cs')) ∧ ∀ lib lib', open_library o cs = Some lib → open_library o' cs' = Some lib' → agree lib lib'.
Proof. intros Hs Hc Ho Ho'. exact (order_irrelevant cs cs' Hs o o' Ho Ho' Hc). Qed.
Lemma scan_same rd walk walk' f cwd root ignored cs : walks walk → walks walk' → scan_courses rd walk cwd f root ignored = Some cs →
  library_reads rd f (locate cwd root) (λ p, is_ignored cwd root ignored p = true) cs ∧ ∃ cs', scan_courses rd walk' cwd f root ignored = Some cs' ∧ same_courses cs cs'.
Proof.
  intros Hw Hw' H. set (skip := λ p, is_ignored cwd root ignored p = true). assert (Hs : ∀ rel, is_ignored cwd root ignored (locate cwd root ++ rel) = false ↔ ¬ skip (locate cwd root ++ rel))
    by (intros rel; unfold skip; by rewrite not_true_iff_false).
  apply (scan_sound rd walk Hw cwd f root ignored skip Hs) in H. split; [done|]. by apply (scan_complete rd walk' Hw' cwd f root ignored skip Hs).
Qed.
Lemma disk_order rd walk walk' o o' : generates_consistently rd → walks walk → walks walk' → order_ok o → order_ok o' → ∀ cwd f root ignored,
  (is_Some (open_from_disk rd walk o cwd f root ignored) ↔ is_Some (open_from_disk rd walk' o' cwd f root ignored)) ∧
  ∀ lib lib', open_from_disk rd walk o cwd f root ignored = Some lib → open_from_disk rd walk' o' cwd f root ignored = Some lib' → agree lib lib'.
Proof.
  intros Hg Hw Hw' Ho Ho' cwd f root ignored. unfold open_from_disk.
  destruct (scan_courses rd walk cwd f root ignored) as [cs|] eqn:E; cbn.
  - destruct (scan_same rd walk walk' f cwd root ignored cs Hw Hw' E) as (Hr & cs' & E' & Hs). rewrite E'. cbn.
    apply same_opened; [done| |done|done]. by eapply reads_consistent.
  - destruct (scan_courses rd walk' cwd f root ignored) as [cs'|] eqn:E'; cbn; [|by split].
    destruct (scan_same rd walk' walk f cwd root ignored cs' Hw' Hw E') as (_ & cs & E2 & _). by rewrite E2 in E.
Qed.
Lemma disk_opens rd walk o : generates_consistently rd → walks walk → order_ok o → ∀ cwd f root,
  is_Some (open_from_disk rd walk o cwd f root []) ↔
  ∃ cs, library_reads rd f (locate cwd root) nothing cs ∧ distinct_ids cs ∧ valid_weights cs ∧ no_cycles cs.
Proof.
  intros Hg Hw Ho cwd f root. unfold open_from_disk. split.
  - destruct (scan_courses rd walk cwd f root []) as [cs|] eqn:E; cbn; [|by intros [? ?]]. intros H.
    pose proof (library_exact rd walk Hw _ _ _ _ E) as Hr. exists cs. split; [done|].
    apply open_library_iff in H; [done|done|]. by eapply reads_consistent.
  - intros (cs & Hr & H). destruct (library_complete rd walk Hw _ _ _ _ Hr) as (cs' & E & Hs). rewrite E. cbn.
    apply (same_opened cs cs' o o Hs ltac:(by eapply reads_consistent) Ho Ho). apply open_library_iff; [done|by eapply reads_consistent|done].
Qed.
