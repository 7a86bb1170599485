(** The methods of a library take its locks in a fixed order, except for the request of a batch from
    the review list, and never borrow a cache twice. *)
From stdpp Require Import list list_numbers.
From Coq Require Import Lia.
From Verif Require Import Locks LocksSpec LocksProofs.

(** * The order of the locks *)

(** The locks that calls sharing a library also take exclusively have a rank; [f] is the rank of the
    frequencies. *)
Definition rank_with (f : option nat) (l : lock) : option nat :=
  match l with
  | Frequencies => f
  | Pile => Some 1
  | Counts => Some 2
  | Stats => Some 3
  | Deltas => Some 4
  | Rewards => Some 5
  | StatsBase | DeltasBase | RewardsBase | ReviewListBase | BlacklistBase => Some 6
  | BlacklistCache => Some 7
  | Graph | Library | Filters | Preferences | Sessions | Blacklist | ReviewList => None
  end.

(** Everything but the three recursive functions is unfolded. *)
Ltac open_code :=
  unfold call_code, change_code, score_exercise, batch, relearn, session_filter, candidates, review_candidates,
    course_candidates, whole_candidates, search, lesson_candidates, skip_lesson, skip_course,
    valid_dependents, initial_stack, starting_lessons, all_satisfied, satisfied, satisfied_effective,
    last_matching, starting_units, avg_trials, course_trials, lesson_trials, course_score,
    lesson_score, superseding, is_superseded, have_scores, exercise_value, exercise_score,
    invalidate_prefix, invalidate, all_valid, valid_in_lesson, passes_filter, unit_exists,
    inside_blacklisted, blacklisted, change_review_list, change_rewards, change_deltas,
    change_scores, review_entries, rewards, deltas, scores, blacklist_entries, blacklist_remove,
    blacklist_add, has_entry, library, graph, put, look, write, read, maybe, steps.

Section checks.
  Context (f : option nat).
  Notation rank := (rank_with f).
  Lemma replace_climbs b score n : b ≤ 1 → climbs rank b score = true →
    climbs rank b (replace_superseding score n) = true.
  Proof.
    intros Hb Hs. induction n as [|n IH]; [done|]. cbn [replace_superseding]. open_code.
    destruct b as [|[|b]]; [| |lia]; cbn; rewrite Hs, IH; reflexivity.
  Qed.
  Lemma score_climbs b n : b ≤ 1 → climbs rank b (unit_score n) = true.
  Proof.
    intros Hb. induction n as [|n IH]; [done|]. cbn [unit_score].
    pose proof (replace_climbs b _ n Hb IH) as Hr.
    open_code. generalize dependent (replace_superseding (unit_score n) n). intros rep Hr.
    generalize dependent (unit_score n). intros score Hs.
    destruct b as [|[|b]]; [| |lia]; cbn; rewrite Hs, Hr; reflexivity.
  Qed.
  Lemma resolve_climbs b n : climbs rank b (resolve n) = true.
  Proof.
    induction n as [|n IH]; [done|]. cbn [resolve]. open_code.
    generalize dependent (resolve n). intros res Hs. cbn. rewrite Hs. reflexivity.
  Qed.
End checks.

Ltac close_code n :=
  generalize (resolve n) (replace_superseding (unit_score n) n) (unit_score n); intros res rep score.

(** All calls but for batches from the review list take the locks in order. *)
Lemma calls_climb n c : asks_reviews c = false → climbs (rank_with (Some 0)) 0 (call_code n c) = true.
Proof.
  intros Hc.
  pose proof (score_climbs (Some 0) 0 n ltac:(lia)) as H1. pose proof (score_climbs (Some 0) 1 n ltac:(lia)) as H2.
  pose proof (replace_climbs (Some 0) 0 _ n ltac:(lia) H1) as H3. pose proof (replace_climbs (Some 0) 1 _ n ltac:(lia) H2) as H4.
  pose proof (resolve_climbs (Some 0) 0 n) as H5.
  revert H1 H2 H3 H4 H5.
  destruct c as [| | | |w|w| | | | | | | | | | | | |]; try destruct w; try discriminate Hc; clear Hc; open_code; close_code n;
    intros H1 H2 H3 H4 H5; cbn; rewrite ?H1, ?H2, ?H3, ?H4, ?H5; reflexivity.
Qed.
(** Without the frequencies, all calls do. *)
Lemma all_climb n c : climbs (rank_with None) 0 (call_code n c) = true.
Proof.
  pose proof (score_climbs None 0 n ltac:(lia)) as H1.
  pose proof (replace_climbs None 0 _ n ltac:(lia) H1) as H3.
  pose proof (resolve_climbs None 0 n) as H5.
  revert H1 H3 H5.
  destruct c as [| | | |w|w| | | | | | | | | | | | |]; try destruct w; open_code; close_code n;
    intros H1 H3 H5; cbn; rewrite ?H1, ?H3, ?H5; reflexivity.
Qed.

(** * What is never taken *)

(** The recursive functions take nothing that they do not take at the first level. *)
Lemma replace_takes r m score n : takes r m score = false → takes r m (replace_superseding Done 1) = false →
  takes r m (replace_superseding score n) = false.
Proof.
  intros Hs H1. induction n as [|n IH]; [done|].
  cbn [replace_superseding] in *. revert H1. open_code. cbn. rewrite Hs, IH. rewrite !orb_false_r. done.
Qed.
Lemma resolve_takes r m n : takes r m (resolve 1) = false → takes r m (resolve n) = false.
Proof.
  intros H1. induction n as [|n IH]; [done|].
  cbn [resolve] in *. revert H1. open_code. revert IH. generalize (resolve n). intros res IH.
  cbn. rewrite IH. rewrite !orb_false_r. done.
Qed.
Lemma score_takes r m n : takes r m (unit_score 1) = false → takes r m (replace_superseding Done 1) = false →
  takes r m (unit_score n) = false.
Proof.
  intros H1 H2. induction n as [|n IH]; [done|].
  pose proof (replace_takes r m (unit_score n) n IH H2) as Hr.
  cbn [unit_score replace_superseding] in *. clear H2. revert H1 IH Hr. open_code.
  generalize (replace_superseding (unit_score n) n) (unit_score n). intros rep score H1 IH Hr.
  cbn in *. rewrite IH, Hr. rewrite !orb_false_r in *. done.
Qed.
Ltac taken_tac n r m :=
  pose proof (score_takes r m n eq_refl eq_refl) as T1;
  pose proof (replace_takes r m _ n T1 eq_refl) as T2;
  pose proof (resolve_takes r m n eq_refl) as T3.

(** Locks without a rank are only taken for reading. *)
Lemma calls_read n c l : rank_with (Some 0) l = None → takes (Lock l) Exclusive (call_code n c) = false.
Proof.
  intros Hl. destruct l; try discriminate Hl; clear Hl;
  match goal with |- takes ?r ?m _ = _ => taken_tac n r m end;
  revert T1 T2 T3;
  destruct c as [| | | |w|w| | | | | | | | | | | | |]; try destruct w; open_code; close_code n;
    intros H1 H2 H3; cbn; rewrite ?H1, ?H2, ?H3; reflexivity.
Qed.
(** Only requests of batches use the frequencies. *)
Lemma calls_frequencies n c m : asks_batch c = false → takes (Lock Frequencies) m (call_code n c) = false.
Proof.
  intros Hc. destruct m;
  match goal with |- takes ?r ?m _ = _ => taken_tac n r m end;
  revert T1 T2 T3;
  destruct c as [| | | |w|w| | | | | | | | | | | | |]; try discriminate Hc; clear Hc; open_code; close_code n;
    intros H1 H2 H3; cbn; rewrite ?H1, ?H2, ?H3; reflexivity.
Qed.
(** The caches of scores. *)
Lemma calls_cells n c x m : uses_scores c = false → takes (Cell x) m (call_code n c) = false.
Proof. by destruct c, x, m. Qed.

(** * Nothing is taken twice *)

Lemma replace_apart score n : apart score = true → apart (replace_superseding score n) = true.
Proof.
  intros Hs. induction n as [|n IH]; [done|]. cbn [replace_superseding]. open_code. cbn.
  rewrite Hs, IH. done.
Qed.
Lemma resolve_apart n : apart (resolve n) = true.
Proof.
  induction n as [|n IH]; [done|]. taken_tac n (Lock Graph) Exclusive. clear T1 T2. revert IH T3.
  cbn [resolve]. open_code. generalize (resolve n). intros res IH T. cbn. rewrite IH, T. done.
Qed.
Lemma score_apart n : apart (unit_score n) = true.
Proof.
  induction n as [|n IH]; [done|].
  pose proof (replace_apart (unit_score n) n IH) as Hr.
  taken_tac n (Lock Blacklist) Exclusive. clear T3.
  cbn [unit_score]. revert IH Hr T1 T2. open_code.
  generalize (replace_superseding (unit_score n) n) (unit_score n). intros rep score IH Hr T1 T2.
  cbn. rewrite IH, Hr, T1, T2. done.
Qed.
Lemma calls_apart n c : apart (call_code n c) = true.
Proof.
  pose proof (score_apart n) as A1. pose proof (replace_apart _ n A1) as A2. pose proof (resolve_apart n) as A3.
  taken_tac n (Lock Graph) Exclusive. rename T1 into G1, T2 into G2, T3 into G3.
  taken_tac n (Lock Blacklist) Exclusive. rename T1 into B1, T2 into B2, T3 into B3.
  taken_tac n (Lock Frequencies) Exclusive.
  revert A1 A2 A3 G1 G2 G3 B1 B2 B3 T1 T2 T3.
  destruct c as [| | | |w|w| | | | | | | | | | | | |]; try destruct w; open_code; close_code n;
    intros A1 A2 A3 G1 G2 G3 B1 B2 B3 T1 T2 T3; cbn;
    rewrite ?A1, ?A2, ?A3, ?G1, ?G2, ?G3, ?B1, ?B2, ?B3, ?T1, ?T2, ?T3; reflexivity.
Qed.
Lemma changes_apart c : apart (change_code c) = true.
Proof. by destruct c. Qed.

(** * Threads *)

Lemma calls_ranked rank cs t : (∀ n c, c ∈ cs → climbs rank 0 (call_code n c) = true) →
  calls_run cs t → ranked rank [] t.
Proof.
  intros Hc (ts & Hts & ->). induction Hts as [|c t cs ts [n Hn] _ IH]; [done|]. simpl.
  eapply runs_ranked; [done|apply Hc; by left| |].
  - intros l m k Hx. by apply elem_of_nil in Hx.
  - apply IH. intros n' c' Hin. apply Hc. by right.
Qed.
Lemma runs_fits_nil c t u : runs c t → apart c = true → fits [] u → fits [] (t ++ u).
Proof. intros Hc Ha Hu. eapply runs_fits; [done..| | |done]; intros; split_and?; apply not_elem_of_nil. Qed.
Lemma calls_fit cs t : calls_run cs t → fits [] t.
Proof.
  intros (ts & Hts & ->). induction Hts as [|c t cs ts [n Hn] _ IH]; [done|]. simpl.
  eapply runs_fits_nil; [done|apply calls_apart|done].
Qed.
Lemma owner_fits cs t : owner_run cs t → fits [] t.
Proof.
  intros (ts & Hts & ->). induction Hts as [|[c|c] t cs ts Hn _ IH]; [done|..]; simpl.
  - destruct Hn as [n Hn]. eapply runs_fits_nil; [done|apply calls_apart|done].
  - eapply runs_fits_nil; [done|apply changes_apart|done].
Qed.
Definition absent (r : resource) (m : mode) (th : thread) : Prop :=
  (r, m) ∉ holds th ∧ Ask r m ∉ next th ∧ (m = Exclusive → ∀ l, r = Lock l → Enter l ∉ next th).
Lemma absent_step r m h e t : absent r m (Thread h (e :: t)) → absent r m (Thread (after h e) t).
Proof.
  intros (H1 & H2 & H3). cbn in *. rewrite not_elem_of_cons in H2. destruct H2 as [H2 H2']. split_and!.
  - destruct e as [r' m'|l|r' m']; simpl; [|done|].
    + intros [Hx|Hx]%elem_of_cons; [congruence|done].
    + by intros Hx%without_in.
  - done.
  - intros Hm l Hl. specialize (H3 Hm l Hl). cbn in *. by apply not_elem_of_cons in H3 as [_ H3].
Qed.
Lemma calls_absent r m cs t : (∀ n c, c ∈ cs → takes r m (call_code n c) = false) → calls_run cs t →
  absent r m (Thread [] t).
Proof.
  intros Hc (ts & Hts & ->). split; [apply not_elem_of_nil|]. cbn.
  induction Hts as [|c t cs ts [n Hn] _ IH].
  { split; [|intros _ ? _]; apply not_elem_of_nil. }
  destruct (runs_takes _ _ r m Hn) as [H1 H2]; [apply Hc; by left|].
  destruct IH as [H3 H4]; [intros n' c' Hin; apply Hc; by right|]. simpl. split.
  - intros [?|?]%elem_of_app; done.
  - intros Hm l Hl [?|?]%elem_of_app; [by eapply H2|by eapply H4].
Qed.
Lemma start_lookup ts i th : start ts !! i = Some th → ∃ t, ts !! i = Some t ∧ th = Thread [] t.
Proof. unfold start. rewrite list_lookup_fmap. intros (t & E & ->)%fmap_Some. eauto. Qed.

Section sharing.
  Context (css : list (list call)) (n : nat) (s : list thread) (Hs : sharing css n s).
  (** What holds of every single thread, whatever the others do. *)
  Lemma each_thread (Q : nat → thread → Prop) :
    (∀ i h e t, Q i (Thread h (e :: t)) → Q i (Thread (after h e) t)) →
    (∀ i cs t, css !! i = Some cs → calls_run cs t → Q i (Thread [] t)) →
    ∀ i th, s !! i = Some th → Q i th.
  Proof using Hs.
    intros Hstep H0. destruct Hs as (ts & Hts & Hr).
    apply (reaches_keeps (λ s, ∀ i th, s !! i = Some th → Q i th) (start ts) n s); [| |done].
    - intros s1 s2 H1 H2. by apply (keeps_ith Q s1 s2).
    - intros i th Hi. apply start_lookup in Hi as (t & Ht & ->).
      destruct (Forall2_lookup_r _ _ _ _ _ Hts Ht) as (cs & Hcs & Hrun). by eapply H0.
  Qed.
  Lemma readers_only i th l : s !! i = Some th → rank_with (Some 0) l = None → absent (Lock l) Exclusive th.
  Proof using Hs.
    intros Hi Hl. revert i th Hi. apply each_thread.
    - intros _. apply absent_step.
    - intros i cs t _ Hrun. eapply calls_absent; [|done]. intros. by apply calls_read.
  Qed.
  Lemma fits_all i th : s !! i = Some th → fits (holds th) (next th).
  Proof using Hs.
    revert i th. apply each_thread.
    - intros _ h e t. apply fits_step.
    - intros i cs t _ Hrun. by eapply calls_fit.
  Qed.
  Lemma never_blocked : Forall (Forall (λ c, asks_reviews c = false)) css → ¬ blocked_for_ever s.
  Proof using Hs.
    intros Hno. apply (no_block (rank_with (Some 0))).
    - apply Forall_lookup. apply (each_thread (λ _ th, ranked _ (holds th) (next th))).
      + intros _ h e t. apply ranked_step.
      + intros i cs t Hi Hrun. eapply calls_ranked; [|done]. intros n' c Hin. apply calls_climb.
        rewrite Forall_lookup in Hno. specialize (Hno _ _ Hi). rewrite Forall_forall in Hno. by apply Hno.
    - intros th e t l [i Hi]%elem_of_list_lookup En Ew El.
      destruct e as [[l'|x] m|l'|]; simpl in Ew; try done; injection Ew as ->; simpl.
      + intros (th' & [j Hj]%elem_of_list_lookup & Hh). by destruct (readers_only _ _ _ Hj El) as [? _].
      + destruct (readers_only _ _ _ Hi El) as (_ & _ & H3). exfalso. apply (H3 eq_refl l eq_refl).
        rewrite En. by left.
  Qed.
  Lemma never_blocked_one : only_one asks_batch css → ¬ blocked_for_ever s.
  Proof using Hs.
    intros [k Hk].
    assert (∀ m i th, s !! i = Some th → i ≠ k → absent (Lock Frequencies) m th) as Hothers.
    { intros m. apply (each_thread (λ i th, i ≠ k → absent (Lock Frequencies) m th)).
      - intros i h e t H Hi. apply absent_step. auto.
      - intros i cs t Hi Hrun Hne. eapply calls_absent; [|done]. intros n' c Hin. apply calls_frequencies.
        specialize (Hk _ _ Hi Hne). rewrite Forall_forall in Hk. by apply Hk. }
    apply (no_block (rank_with None)).
    - apply Forall_lookup. apply (each_thread (λ _ th, ranked _ (holds th) (next th))).
      + intros _ h e t. apply ranked_step.
      + intros i cs t Hi Hrun. eapply calls_ranked; [|done]. intros n' c Hin. apply all_climb.
    - intros th e t l [i Hi]%elem_of_list_lookup En Ew El.
      destruct (decide (l = Frequencies)) as [->|Hl].
      + assert (i = k) as ->.
        { destruct (decide (i = k)); [done|]. exfalso.
          destruct e as [[l'|x] m|l'|]; simpl in Ew; try done; injection Ew as ->.
          - destruct (Hothers m i th Hi) as (_ & H2 & _); [done|]. apply H2. rewrite En. by left.
          - destruct (Hothers Exclusive i th Hi) as (_ & _ & H3); [done|].
            apply (H3 eq_refl _ eq_refl). rewrite En. by left. }
        pose proof (fits_all k th Hi) as Hf. rewrite En in Hf. destruct Hf as [Hc _].
        destruct e as [[l'|x] m|l'|]; simpl in Ew; try done; injection Ew as ->; simpl in *.
        * intros (th' & [j Hj]%elem_of_list_lookup & Hh). destruct (decide (j = k)) as [->|Hne].
          -- rewrite Hi in Hj. injection Hj as <-. by destruct Hc.
          -- by destruct (Hothers Exclusive j th' Hj Hne) as [? _].
        * intros (th' & [j Hj]%elem_of_list_lookup & Hh). destruct (decide (j = k)) as [->|Hne].
          -- rewrite Hi in Hj. injection Hj as <-. done.
          -- by destruct (Hothers Shared j th' Hj Hne) as [? _].
      + assert (rank_with (Some 0) l = None) as El' by (by destruct l).
        destruct e as [[l'|x] m|l'|]; simpl in Ew; try done; injection Ew as ->; simpl.
        * intros (th' & [j Hj]%elem_of_list_lookup & Hh). by destruct (readers_only _ _ _ Hj El') as [? _].
        * destruct (readers_only _ _ _ Hi El') as (_ & _ & H3). exfalso. apply (H3 eq_refl l eq_refl).
          rewrite En. by left.
  Qed.
End sharing.

(** A thread does not borrow a cell twice. *)
Definition once (h : list (resource * mode)) : Prop := ∀ r m, ¬ [(r, Exclusive); (r, m)] ⊆+ h.
Lemma once_after h e : once h → compatible h e → once (after h e).
Proof.
  intros Ho Hc r m Hsub. destruct e as [r' m'|l|r' m']; simpl in *.
  - apply submseteq_cons_r in Hsub as [Hsub|(l' & Hp & Hsub)]; [by apply (Ho r m)|].
    destruct Hc as [H1 H2].
    assert ((r', m') ∈ [(r, Exclusive); (r, m)]) as Hin by (rewrite Hp; by left).
    assert (r' = r) as -> by (apply elem_of_cons in Hin as [[= -> _]|Hin%elem_of_list_singleton]; by simplify_eq).
    destruct m'.
    + assert ((r, Exclusive) ∈ l') as Hx.
      { assert ((r, Exclusive) ∈ (r, Shared) :: l') as Hx by (rewrite <- Hp; by left).
        by apply elem_of_cons in Hx as [?|?]. }
      apply H1. by eapply elem_of_submseteq.
    + apply Permutation_length in Hp as Hl. destruct l' as [|y l']; [done|]. destruct l'; [|done].
      assert (y ∈ [(r, Exclusive); (r, m)]) as Hy by (rewrite Hp; right; by left).
      assert (y.1 = r) as E by (apply elem_of_cons in Hy as [->|Hy]; [done|]; by apply elem_of_list_singleton in Hy as ->).
      destruct y as [r1 m1]. simpl in E. subst r1.
      assert ((r, m1) ∈ h) as Hyh by (eapply elem_of_submseteq; [by left|done]).
      destruct m1; [by apply H2|done].
  - by apply (Ho r m).
  - apply (Ho r m). etrans; [done|]. apply without_sub.
Qed.
Lemma kept_once th h e t : th = Thread h (e :: t) → once h ∧ fits h (e :: t) →
  once (after h e) ∧ fits (after h e) t.
Proof. intros -> [Ho [Hc Hf]]. split; [by apply once_after|done]. Qed.
Lemma no_cells_nothing x m (s : list thread) :
  (∀ th, th ∈ s → ∀ m, (Cell x, m) ∉ holds th) → (Cell x, m) ∉ s ≫= holds.
Proof. intros Hno (th & Hin & Hs)%elem_of_list_bind. by apply (Hno th Hs m). Qed.
Lemma submseteq_two_app {A} (a b : A) l k : [a; b] ⊆+ l ++ k → (a ∉ l ∧ b ∉ l) → [a; b] ⊆+ k.
Proof.
  intros Hs [Ha Hb]. apply submseteq_app_r in Hs as (l1 & l2 & Hp & H1 & H2).
  assert (l1 = []) as ->.
  { destruct l1 as [|y l1]; [done|]. exfalso.
    assert (y ∈ [a; b]) as Hy by (rewrite Hp; by left).
    assert (y ∈ l) as Hyl by (eapply elem_of_submseteq; [by left|done]).
    apply elem_of_cons in Hy as [->|Hy]; [done|]. by apply elem_of_list_singleton in Hy as ->. }
  simpl in Hp. by rewrite Hp.
Qed.
Lemma only_thread k s x m th : s !! k = Some th →
  (∀ i th', s !! i = Some th' → i ≠ k → ∀ m, (Cell x, m) ∉ holds th') →
  [(Cell x, Exclusive); (Cell x, m)] ⊆+ s ≫= holds → [(Cell x, Exclusive); (Cell x, m)] ⊆+ holds th.
Proof.
  intros Hk Hno Hsub. apply elem_of_list_split_length in Hk as (s1 & s2 & -> & Hl).
  rewrite bind_app in Hsub. cbn in Hsub.
  apply submseteq_two_app in Hsub.
  - rewrite (comm (++)) in Hsub. apply submseteq_two_app in Hsub; [done|].
    assert (∀ m, (Cell x, m) ∉ s2 ≫= holds) as Hx; [|split; apply Hx].
    intros m'. apply no_cells_nothing. intros th' [j Hj]%elem_of_list_lookup m''.
    apply (Hno (S (length s1) + j)); [|lia].
    rewrite lookup_app_r by lia. replace (S (length s1) + j - length s1) with (S j) by lia. done.
  - assert (∀ m, (Cell x, m) ∉ s1 ≫= holds) as Hx; [|split; apply Hx].
    intros m'. apply no_cells_nothing. intros th' [j Hj]%elem_of_list_lookup m''.
    apply lookup_lt_Some in Hj as Hlt. apply (Hno j); [|lia]. by rewrite lookup_app_l by lia.
Qed.

Lemma never_clash css n s : sharing css n s → only_one uses_scores css → ¬ clash s.
Proof.
  intros Hs [k Hk] (x & m & Hsub).
  assert (∀ i th, s !! i = Some th → i ≠ k → ∀ m, (Cell x, m) ∉ holds th) as Hothers.
  { intros i th Hi Hne m'. revert i th Hi Hne.
    assert (∀ i th, s !! i = Some th → i ≠ k → absent (Cell x) m' th) as H.
    { apply (each_thread css n s Hs (λ i th, i ≠ k → absent (Cell x) m' th)).
      - intros i h e t H Hi. apply absent_step. auto.
      - intros i cs t Hi Hrun Hne. eapply calls_absent; [|done]. intros n' c Hin. apply calls_cells.
        specialize (Hk _ _ Hi Hne). rewrite Forall_forall in Hk. by apply Hk. }
    intros i th Hi Hne. by destruct (H i th Hi Hne) as [? _]. }
  assert (∀ i th, s !! i = Some th → once (holds th) ∧ fits (holds th) (next th)) as Honce.
  { apply (each_thread css n s Hs (λ _ th, once (holds th) ∧ fits (holds th) (next th))).
    - intros _ h e t. by apply (kept_once (Thread h (e :: t))).
    - intros i cs t _ Hrun. split; [|by eapply calls_fit].
      intros r m' Hx. by apply submseteq_nil_r in Hx. }
  destruct (s !! k) as [th|] eqn:Ek.
  - destruct (Honce k th Ek) as [Ho _]. apply (Ho (Cell x) m). by eapply only_thread.
  - assert ((Cell x, Exclusive) ∈ s ≫= holds) as Hin by (eapply elem_of_submseteq; [by left|done]).
    revert Hin. apply no_cells_nothing. intros th [i Hi]%elem_of_list_lookup. apply (Hothers i th Hi).
    intros ->. congruence.
Qed.

(** * One thread that owns the library *)

Lemma owner_state cs n s : owning cs n s → ∃ th, s = [th] ∧ once (holds th) ∧ fits (holds th) (next th).
Proof.
  intros (t & Ht & Hr). revert Hr.
  apply (reaches_keeps (λ s, ∃ th, s = [th] ∧ once (holds th) ∧ fits (holds th) (next th))).
  - intros s1 s2 (th & -> & Ho & Hf) Hs. destruct Hs as [i h e u Hi Hp].
    destruct i as [|i]; [|done]. injection Hi as ->. exists (Thread (after h e) u). split; [done|].
    by apply (kept_once (Thread h (e :: u))).
  - exists (Thread [] t). split; [done|]. split; [|by eapply owner_fits].
    intros r m Hx. by apply submseteq_nil_r in Hx.
Qed.
Lemma owner_alone cs n s : owning cs n s → ¬ blocked_for_ever s ∧ ¬ clash s.
Proof.
  intros (th & -> & Ho & Hf)%owner_state. split.
  - intros [Hnf Hstuck]. destruct th as [h t]. simpl in *. destruct t as [|e t].
    { apply Hnf. by repeat constructor. }
    destruct Hf as [Hc _].
    destruct (can_step [Thread h (e :: t)] h e t) as [s' Hs']; [by left| |by apply (Hstuck s')].
    destruct e as [[l|x] m|l|]; simpl in *; try done.
    + intros (th & Hth & Hh). apply elem_of_list_singleton in Hth as ->. by destruct Hc.
    + intros (th & Hth & Hh). by apply elem_of_list_singleton in Hth as ->.
  - intros (x & m & Hsub). cbn in Hsub. rewrite app_nil_r in Hsub. by apply (Ho (Cell x) m).
Qed.

(** * All calls return *)

Lemma sharing_more css n s m s' : sharing css n s → reaches s m s' → sharing css (n + m) s'.
Proof. intros (ts & Hts & Hr) Hm. exists ts. split; [done|]. by eapply reaches_trans. Qed.
Lemma calls_return css n s : Forall (Forall (λ c, asks_reviews c = false)) css → sharing css n s →
  ∃ m s', reaches s m s' ∧ finished s'.
Proof.
  intros Hno Hs. apply all_end. intros m s' Hm. eapply never_blocked; [by eapply sharing_more|done].
Qed.
Lemma steps_bounded ts n s : reaches (start ts) n s → n ≤ sum_list_with length ts.
Proof. intros Hr%to_do_reaches. rewrite to_do_start in Hr. lia. Qed.
