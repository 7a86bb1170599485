(** Runs of threads that share a library. *)
From stdpp Require Import list list_numbers.
From Coq Require Import Lia.
From Verif Require Import Locks LocksSpec LocksProofs LocksMore.

(** * One way through the code *)

(** Every choice is the second one and every loop runs once. *)
Fixpoint follow (c : code) : list event :=
  match c with
  | Done => []
  | With r m c => taking r m ++ follow c ++ [Leave r m]
  | Then c d => follow c ++ follow d
  | Either _ d => follow d
  | Repeat c => follow c
  end.
Lemma follow_runs c : runs c (follow c).
Proof.
  induction c; simpl.
  - constructor.
  - by constructor.
  - by constructor.
  - by apply runs_right.
  - rewrite <- (app_nil_r (follow c)). by constructor; [|constructor].
Qed.
Definition way (cs : list call) : list event := concat ((λ c, follow (call_code 1 c)) <$> cs).
Lemma way_run cs : calls_run cs (way cs).
Proof.
  exists ((λ c, follow (call_code 1 c)) <$> cs). split; [|done].
  induction cs as [|c cs IH]; simpl; constructor; [|done]. exists 1. apply follow_runs.
Qed.

(** * Runs that can be computed *)

Definition heldb (s : list thread) (r : resource) (m : mode) : bool :=
  existsb (λ th, existsb (λ h, same h.1 r h.2 m) (holds th)) s.
Lemma heldb_true s r m : heldb s r m = true ↔ held_by s r m.
Proof.
  unfold heldb, held_by. rewrite existsb_exists. split.
  - intros (th & Hin & Hx). apply existsb_exists in Hx as ([r' m'] & Hh & E). simpl in E.
    apply same_true in E as [-> ->]. exists th. by rewrite !elem_of_list_In.
  - intros (th & Hin & Hh). exists th. rewrite <- elem_of_list_In. split; [done|].
    apply existsb_exists. exists (r, m). rewrite <- elem_of_list_In. split; [done|]. by apply same_true.
Qed.
Definition possibleb (s : list thread) (e : event) : bool :=
  match e with
  | Ask (Lock l) _ => negb (heldb s (Lock l) Exclusive)
  | Enter l => negb (heldb s (Lock l) Shared)
  | Ask (Cell _) _ | Leave _ _ => true
  end.
Lemma possibleb_true s e : possibleb s e = true ↔ possible s e.
Proof.
  destruct e as [[l|x] m|l|]; simpl; try done.
  - rewrite negb_true_iff, <- not_true_iff_false, heldb_true. done.
  - rewrite negb_true_iff, <- not_true_iff_false, heldb_true. done.
Qed.
(** Quick variants of [without] and [after]. *)
Fixpoint withoutb (r : resource) (m : mode) (h : list (resource * mode)) : list (resource * mode) :=
  match h with
  | [] => []
  | x :: h => if same x.1 r x.2 m then h else x :: withoutb r m h
  end.
Lemma withoutb_eq r m h : withoutb r m h = without r m h.
Proof.
  induction h as [|[r' m'] h IH]; [done|]. simpl. rewrite IH. destruct (same r' r m' m) eqn:E.
  - apply same_true in E as [-> ->]. by rewrite decide_True.
  - rewrite decide_False; [done|]. intros [= -> ->].
    assert (same r r m m = true) by (by apply same_true). congruence.
Qed.
Definition move (s : list thread) (i : nat) : option (list thread) :=
  match s !! i with
  | Some (Thread h (e :: t)) =>
      if possibleb s e then
        Some (<[i := Thread (match e with Ask r m => (r, m) :: h | Enter _ => h | Leave r m => withoutb r m h end) t]> s)
      else None
  | _ => None
  end.
Lemma move_step s i s' : move s i = Some s' → step s s'.
Proof.
  unfold move. destruct (s !! i) as [[h [|e t]]|] eqn:Ei; try done.
  destruct (possibleb s e) eqn:Ep; [|done]. intros [= <-]. apply possibleb_true in Ep.
  replace (match e with Ask r m => (r, m) :: h | Enter _ => h | Leave r m => withoutb r m h end) with (after h e).
  - by econstructor.
  - destruct e; simpl; [done..|]. by rewrite withoutb_eq.
Qed.
Fixpoint moves (s : list thread) (is_ : list nat) : option (list thread) :=
  match is_ with [] => Some s | i :: is_ => s' ← move s i; moves s' is_ end.
Lemma moves_reach s is_ s' : moves s is_ = Some s' → reaches s (length is_) s'.
Proof.
  revert s. induction is_ as [|i is_ IH]; intros s E; simpl in E.
  - injection E as ->. constructor.
  - apply bind_Some in E as (s1 & E1 & E2). apply move_step in E1. apply IH in E2.
    simpl. change (S (length is_)) with (1 + length is_). eapply reaches_trans; [|done].
    econstructor; [constructor|done].
Qed.
(** Thread [i] runs as far as it can, at most [n] steps; then come the next ones. *)
Fixpoint along (i n : nat) (s : list thread) : nat * list thread :=
  match n with
  | O => (0, s)
  | S n => match move s i with Some s' => let '(k, s'') := along i n s' in (S k, s'') | None => (0, s) end
  end.
Lemma along_reach i n s : reaches s (along i n s).1 (along i n s).2.
Proof.
  revert s. induction n as [|n IH]; intros s; simpl; [constructor|].
  destruct (move s i) as [s'|] eqn:E; [|constructor]. apply move_step in E. specialize (IH s').
  destruct (along i n s') as [k s'']. simpl in *. change (S k) with (1 + k).
  eapply reaches_trans; [|done]. econstructor; [constructor|done].
Qed.
Fixpoint plan (p : list (nat * nat)) (s : list thread) : nat * list thread :=
  match p with
  | [] => (0, s)
  | (i, n) :: p => let '(k, s') := along i n s in let '(k', s'') := plan p s' in (k + k', s'')
  end.
Lemma plan_reach p s : reaches s (plan p s).1 (plan p s).2.
Proof.
  revert s. induction p as [|[i n] p IH]; intros s; simpl; [constructor|].
  pose proof (along_reach i n s) as H. destruct (along i n s) as [k s']. specialize (IH s').
  destruct (plan p s') as [k' s'']. simpl in *. by eapply reaches_trans.
Qed.
Lemma plan_sharing css p : sharing css (plan p (start (way <$> css))).1 (plan p (start (way <$> css))).2.
Proof.
  exists (way <$> css). split; [|apply plan_reach].
  induction css as [|cs css IH]; simpl; constructor; [apply way_run|done].
Qed.

Definition finishedb (s : list thread) : bool := forallb (λ th, match next th with [] => true | _ => false end) s.
Definition blockedb (s : list thread) : bool :=
  negb (finishedb s) && forallb (λ th, match next th with e :: _ => negb (possibleb s e) | [] => true end) s.
Lemma finishedb_true s : finishedb s = true ↔ finished s.
Proof.
  unfold finishedb, finished. rewrite forallb_forall, Forall_forall. split; intros H th Hin.
  - apply elem_of_list_In in Hin. specialize (H th Hin). by destruct (next th).
  - apply elem_of_list_In in Hin. by rewrite (H th Hin).
Qed.
Lemma blockedb_true s : blockedb s = true → blocked_for_ever s.
Proof.
  intros [H1 H2]%andb_true_iff. split.
  - rewrite negb_true_iff in H1. intros Hf%finishedb_true. congruence.
  - intros s' [i h e t Hi Hp]. rewrite forallb_forall in H2.
    specialize (H2 (Thread h (e :: t))). simpl in H2. rewrite negb_true_iff in H2.
    apply possibleb_true in Hp. rewrite H2 in Hp; [done|]. apply elem_of_list_In. by eapply elem_of_list_lookup_2.
Qed.

(** * A batch from the review list and another batch *)

(** The number of steps up to and with the [k]-th step of a kind. *)
Fixpoint upto (p : event → bool) (k : nat) (t : list event) : nat :=
  match t with
  | [] => 0
  | e :: t => if p e then match k with O => 1 | S k => S (upto p k t) end else S (upto p k t)
  end.
Definition asks_frequencies (m : mode) (e : event) : bool :=
  match e with Ask r m' => same r (Lock Frequencies) m' m | _ => false end.
Definition both : list (list call) := [[Batch Reviews]; [Batch Everything]].
(** The first thread asks for the frequencies and goes on until it asks for them again; the second
    one computes its batch and wants to count its exercises. *)
Definition both_plan : list (nat * nat) :=
  [(0, pred (upto (asks_frequencies Shared) 1 (way [Batch Reviews])));
   (1, upto (asks_frequencies Exclusive) 0 (way [Batch Everything]))].
Lemma both_blocked : ∃ n s, sharing both n s ∧ blocked_for_ever s.
Proof.
  exists (plan both_plan (start (way <$> both))).1, (plan both_plan (start (way <$> both))).2.
  split; [apply plan_sharing|]. apply blockedb_true. vm_compute. reflexivity.
Qed.

(** * Two calls that use the scores *)

Definition asks_exercises (m : option mode) (e : event) : bool :=
  match e with
  | Ask r m' => same r (Cell ExerciseScores) m' (match m with Some m => m | None => m' end)
  | _ => false
  end.
Definition pair_plan (c d : call) : list (nat * nat) :=
  [(0, upto (asks_exercises (Some Exclusive)) 0 (way [c])); (1, upto (asks_exercises None) 0 (way [d]))].
Definition borrowed_twice (s : list thread) : bool :=
  match s with
  | [a; b] =>
      existsb (λ h, same h.1 (Cell ExerciseScores) h.2 Exclusive) (holds a) &&
      existsb (λ h, same h.1 (Cell ExerciseScores) h.2 h.2) (holds b)
  | _ => false
  end.
Lemma borrowed_twice_clash s : borrowed_twice s = true → clash s.
Proof.
  destruct s as [|a [|b [|]]]; simpl; try done. intros [H1 H2]%andb_true_iff.
  apply existsb_exists in H1 as ([r1 m1] & H1 & E1). apply existsb_exists in H2 as ([r2 m2] & H2 & E2).
  simpl in E1, E2. apply same_true in E1 as [-> ->]. apply same_true in E2 as [-> _].
  exists ExerciseScores, m2. cbn. rewrite app_nil_r. apply elem_of_list_In in H1, H2.
  apply (submseteq_app [_] _ [_]); by apply singleton_submseteq_l.
Qed.
Definition all_wanted : list wanted := [Everything; Courses; Lessons; Metadata; Reviews; Dependents; Dependencies].
Definition users : list call :=
  (Batch <$> all_wanted) ++ (SessionBatch <$> all_wanted) ++ [ScoreExercise; UnitScore; Invalidate; InvalidatePrefix].
Lemma users_all c : uses_scores c = true → c ∈ users.
Proof. destruct c as [| | | |w|w| | | | | | | | | | | | |]; try done; try destruct w; intros _; apply elem_of_list_In; simpl; tauto. Qed.
Definition pair_clash (c d : call) : bool :=
  borrowed_twice (plan (pair_plan c d) (start (way <$> [[c]; [d]]))).2.
Lemma pairs_clash : forallb (λ c, forallb (pair_clash c) users) users = true.
Proof. vm_compute. reflexivity. Qed.
Lemma any_two c d : uses_scores c = true → uses_scores d = true → ∃ n s, sharing [[c]; [d]] n s ∧ clash s.
Proof.
  intros Hc%users_all Hd%users_all. apply elem_of_list_In in Hc, Hd.
  pose proof pairs_clash as H. rewrite forallb_forall in H. specialize (H c Hc).
  rewrite forallb_forall in H. specialize (H d Hd).
  exists (plan (pair_plan c d) (start (way <$> [[c]; [d]]))).1, (plan (pair_plan c d) (start (way <$> [[c]; [d]]))).2.
  split; [apply plan_sharing|]. by apply borrowed_twice_clash.
Qed.

(** * Threads that get on *)

(** Three threads take turns, fifty steps each. *)
Definition three : list (list call) :=
  [[Batch Everything; ScoreExercise]; [SessionBatch Courses; UnitScore; ScoreExercise]; [GetScores; BlacklistEntries; Batch Lessons]].
Definition turns (n : nat) : list (nat * nat) := concat (replicate n [(0, 50); (1, 50); (2, 50)]).
Lemma three_calls : Forall (Forall (λ c, asks_reviews c = false)) three.
Proof. by repeat constructor. Qed.
Definition three_end : list thread := (plan (turns 40) (start (way <$> three))).2.
Lemma three_finish : finishedb three_end && (1000 <? (plan (turns 40) (start (way <$> three))).1) = true.
Proof. vm_compute. reflexivity. Qed.
Lemma three_finished : ∃ n s, sharing three n s ∧ 1000 < n ∧ finished s.
Proof.
  pose proof three_finish as [H1 H2]%andb_true_iff. apply Nat.ltb_lt in H2.
  exists (plan (turns 40) (start (way <$> three))).1, three_end.
  split; [apply plan_sharing|]. split; [done|]. by apply finishedb_true.
Qed.
(** One thread practises, also from the review list, the others look things up. *)
Definition one_student : list (list call) :=
  [[Batch Reviews; ScoreExercise; Batch Everything]; [GetScores; GraphCalls; Manifests]; [ReviewEntries; Blacklisted]].
Lemma one_student_alone : only_one uses_scores one_student ∧ only_one asks_batch one_student.
Proof.
  split; exists 0; intros i cs Hi Hne; destruct i as [|[|[|i]]]; try done;
    injection Hi as <-; by repeat constructor.
Qed.
Lemma one_student_finish : finishedb (plan (turns 40) (start (way <$> one_student))).2 = true.
Proof. vm_compute. reflexivity. Qed.
