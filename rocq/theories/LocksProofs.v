(** Threads that share a library do not block each other for ever, if they take locks in a fixed
    order. *)
From stdpp Require Import list list_numbers.
From Coq Require Import Lia.
From Verif Require Import Locks LocksSpec.

(** * What a thread holds *)

Lemma without_head r m h : without r m ((r, m) :: h) = h.
Proof. simpl. by rewrite decide_True. Qed.
Lemma without_in r m h x : x ∈ without r m h → x ∈ h.
Proof.
  induction h as [|y h IH]; simpl; [done|]. destruct (decide (y = (r, m))); intros Hx.
  - by right.
  - apply elem_of_cons in Hx as [->|Hx]; [by left|right; auto].
Qed.
Lemma without_sub r m h : without r m h ⊆+ h.
Proof.
  induction h as [|y h IH]; simpl; [done|]. destruct (decide (y = (r, m))).
  - by apply submseteq_cons.
  - by apply submseteq_skip.
Qed.

(** * Traces of code, looked at through the code *)

Definition lock_number (l : lock) : nat :=
  match l with
  | Graph => 0 | Library => 1 | Filters => 2 | Preferences => 3 | Sessions => 4
  | Blacklist => 5 | BlacklistCache => 6 | BlacklistBase => 7
  | Stats => 8 | StatsBase => 9 | Deltas => 10 | DeltasBase => 11 | Rewards => 12 | RewardsBase => 13
  | ReviewList => 14 | ReviewListBase => 15 | Frequencies => 16 | Counts => 17 | Pile => 18
  end.
Definition cell_number (x : cell) : nat :=
  match x with
  | ExerciseScores => 0 | LessonScores => 1 | CourseScores => 2 | LessonTrials => 3 | CourseTrials => 4
  end.
(** [r] in the mode [m] is [r'] in the mode [m']. *)
Definition same (r r' : resource) (m m' : mode) : bool :=
  match m, m' with
  | Shared, Shared | Exclusive, Exclusive =>
      match r, r' with
      | Lock l, Lock l' => lock_number l =? lock_number l'
      | Cell x, Cell x' => cell_number x =? cell_number x'
      | _, _ => false
      end
  | _, _ => false
  end.
Definition exclusively (m : mode) : bool := match m with Shared => false | Exclusive => true end.
Lemma same_true r r' m m' : same r r' m m' = true ↔ r = r' ∧ m = m'.
Proof.
  assert (∀ l l', lock_number l = lock_number l' → l = l') as H1 by (intros [] []; simpl; congruence).
  assert (∀ l l', cell_number l = cell_number l' → l = l') as H2 by (intros [] []; simpl; congruence).
  split.
  - destruct r, r', m, m'; simpl; try done; intros E%Nat.eqb_eq; split; f_equal; auto.
  - intros [-> ->]. destruct r', m'; simpl; apply Nat.eqb_refl.
Qed.
(** Whether some step of the code takes [r] in the mode [m]. *)
Fixpoint takes (r : resource) (m : mode) (c : code) : bool :=
  match c with
  | Done => false
  | With r' m' c => same r' r m' m || takes r m c
  | Then c d | Either c d => takes r m c || takes r m d
  | Repeat c => takes r m c
  end.
(** Whether the code never takes what it holds itself. *)
Fixpoint apart (c : code) : bool :=
  match c with
  | Done => true
  | With r m c => apart c && negb (takes r Exclusive c) && negb (exclusively m && takes r Shared c)
  | Then c d | Either c d => apart c && apart d
  | Repeat c => apart c
  end.
(** Whether ranked locks are taken in the order of their ranks, from the rank [b] on. *)
Fixpoint climbs (rank : lock → option nat) (b : nat) (c : code) : bool :=
  match c with
  | Done => true
  | With (Lock l) _ c =>
      match rank l with Some k => (b <=? k) && climbs rank (S k) c | None => climbs rank b c end
  | With (Cell _) _ c => climbs rank b c
  | Then c d | Either c d => climbs rank b c && climbs rank b d
  | Repeat c => climbs rank b c
  end.

Lemma runs_takes c t r m : runs c t → takes r m c = false →
  Ask r m ∉ t ∧ (m = Exclusive → ∀ l, r = Lock l → Enter l ∉ t).
Proof.
  intros Hc. induction Hc; simpl; intros E.
  - split; [|intros _ ? _]; apply not_elem_of_nil.
  - apply orb_false_iff in E as [E1 E2].
    assert (¬ (r0 = r ∧ m0 = m)) as E3 by (intros E3%same_true; congruence). clear E1. rename E3 into E1.
    destruct (IHHc E2) as [H1 H2]. unfold taking. split.
    + intros Hx. apply elem_of_cons in Hx as [Hx|Hx]; [injection Hx as -> ->; by apply E1|].
      repeat (apply elem_of_app in Hx as [Hx|Hx]); [|by apply H1|by apply elem_of_list_singleton in Hx].
      destruct r0, m0; try by apply elem_of_nil in Hx. by apply elem_of_list_singleton in Hx.
    + intros -> l -> Hx. apply elem_of_cons in Hx as [Hx|Hx]; [done|].
      repeat (apply elem_of_app in Hx as [Hx|Hx]); [|by apply (H2 eq_refl l eq_refl)|by apply elem_of_list_singleton in Hx].
      destruct r0, m0; try by apply elem_of_nil in Hx. apply elem_of_list_singleton in Hx as [= ->].
      by apply E1.
  - apply orb_false_iff in E as [E1 E2].
    destruct (IHHc1 E1) as [H1 H2], (IHHc2 E2) as [H3 H4]. split.
    + intros [?|?]%elem_of_app; auto.
    + intros Hm l Hl [?|?]%elem_of_app; [by apply (H2 Hm l Hl)|by apply (H4 Hm l Hl)].
  - apply orb_false_iff in E as [E1 E2]. auto.
  - apply orb_false_iff in E as [E1 E2]. auto.
  - apply orb_false_iff in E as [E1 E2]. auto.
  - split; [|intros _ ? _]; apply not_elem_of_nil.
  - destruct (IHHc1 E) as [H1 H2], (IHHc2 E) as [H3 H4]. split.
    + intros [?|?]%elem_of_app; auto.
    + intros Hm l Hl [?|?]%elem_of_app; [by apply (H2 Hm l Hl)|by apply (H4 Hm l Hl)].
Qed.

(** A thread that never waits for itself. *)
Definition compatible (h : list (resource * mode)) (e : event) : Prop :=
  match e with
  | Ask r m => (r, Exclusive) ∉ h ∧ (m = Exclusive → (r, Shared) ∉ h)
  | Enter l => (Lock l, Shared) ∉ h
  | Leave _ _ => True
  end.
Fixpoint fits (h : list (resource * mode)) (t : list event) : Prop :=
  match t with [] => h = [] | e :: t => compatible h e ∧ fits (after h e) t end.
Lemma runs_fits c t : runs c t → apart c = true → ∀ h u,
  (∀ r, takes r Exclusive c = true → (r, Exclusive) ∉ h ∧ (r, Shared) ∉ h) →
  (∀ r, takes r Shared c = true → (r, Exclusive) ∉ h) →
  fits h u → fits h (t ++ u).
Proof.
  intros Hc. induction Hc; simpl; intros E h w H1 H2 Hu.
  - done.
  - apply andb_true_iff in E as [E E3]. apply andb_true_iff in E as [E1 E2]. apply negb_true_iff in E2.
    assert (fits ((r, m) :: h) (t ++ Leave r m :: w)) as Hin.
    { apply IHHc; [done| | |].
      - intros q Hq. destruct (H1 q) as [Ha Hb]; [rewrite Hq; by apply orb_true_r|].
        split; intros [[= <- <-]|Hx]%elem_of_cons; try done.
        + by rewrite E2 in Hq.
        + by rewrite E2 in Hq.
      - intros q Hq [[= <- <-]|Hx]%elem_of_cons.
        + simpl in E3. by rewrite Hq in E3.
        + revert Hx. apply H2. rewrite Hq. by apply orb_true_r.
      - cbn [fits after]. split; [done|]. by rewrite without_head. }
    assert (compatible h (Ask r m)) as Ha.
    { destruct m; cbn.
      - split; [|done]. apply H2. assert (same r r Shared Shared = true) as -> by (by apply same_true). done.
      - destruct (H1 r) as [? ?]; [|done]. assert (same r r Exclusive Exclusive = true) as -> by (by apply same_true). done. }
    assert (m = Exclusive → (r, Shared) ∉ (r, m) :: h) as Hb.
    { intros -> [?|?]%elem_of_cons; [done|]. by apply Ha. }
    rewrite <- !app_assoc. unfold taking.
    destruct r as [l|x], m; cbn [app fits after]; (split; [exact Ha|]); [exact Hin| |exact Hin|exact Hin].
    split; [by apply Hb|exact Hin].
  - apply andb_true_iff in E as [E1 E2]. rewrite <- app_assoc. apply IHHc1; [done| | |].
    + intros r Hr. apply H1. by rewrite Hr.
    + intros r Hr. apply H2. by rewrite Hr.
    + apply IHHc2; [done| | |done].
      * intros r Hr. apply H1. rewrite Hr. apply orb_true_r.
      * intros r Hr. apply H2. rewrite Hr. apply orb_true_r.
  - apply andb_true_iff in E as [E1 E2]. apply IHHc; [done| | |done].
    + intros r Hr. apply H1. by rewrite Hr.
    + intros r Hr. apply H2. by rewrite Hr.
  - apply andb_true_iff in E as [E1 E2]. apply IHHc; [done| | |done].
    + intros r Hr. apply H1. by rewrite Hr.
    + intros r Hr. apply H2. by rewrite Hr.
  - apply andb_true_iff in E as [E1 E2]. apply IHHc; [done| | |done].
    + intros r Hr. apply H1. rewrite Hr. apply orb_true_r.
    + intros r Hr. apply H2. rewrite Hr. apply orb_true_r.
  - done.
  - rewrite <- app_assoc. apply IHHc1; [done|done|done|]. by apply IHHc2.
Qed.

Local Instance held_dec s r m : Decision (held_by s r m).
Proof.
  destruct (decide (Exists (λ th, (r, m) ∈ holds th) s)) as [Hx|Hx]; [left|right].
  - by apply Exists_exists in Hx.
  - intros Hy. apply Hx. by apply Exists_exists.
Qed.
Local Instance possible_dec s e : Decision (possible s e).
Proof. destruct e as [[]| |]; simpl; apply _. Qed.
Definition ready (s : list thread) (th : thread) : Prop :=
  match next th with e :: _ => possible s e | [] => False end.
Local Instance ready_dec s th : Decision (ready s th).
Proof. unfold ready. destruct (next th); apply _. Qed.

(** A thread that takes ranked locks in order. *)
Section ranks.
  Context (rank : lock → option nat).
  Definition below (h : list (resource * mode)) (k : nat) : Prop :=
    ∀ l m k', (Lock l, m) ∈ h → rank l = Some k' → k' < k.
  Definition in_order (h : list (resource * mode)) (e : event) : Prop :=
    match e with
    | Ask (Lock l) _ => ∀ k, rank l = Some k → below h k
    | Enter l => ∀ k, rank l = Some k →
        ∀ l' m' k', (Lock l', m') ∈ h → rank l' = Some k' → (l', m') = (l, Exclusive) ∨ k' < k
    | _ => True
    end.
  Fixpoint ranked (h : list (resource * mode)) (t : list event) : Prop :=
    match t with [] => h = [] | e :: t => in_order h e ∧ ranked (after h e) t end.
  Lemma runs_ranked c t : runs c t → ∀ b h u, climbs rank b c = true → below h b →
    ranked h u → ranked h (t ++ u).
  Proof.
    intros Hc. induction Hc; simpl; intros b h w E Hb Hu.
    - done.
    - rewrite <- !app_assoc. destruct r as [l|x].
      + assert (∃ b', climbs rank b' c = true ∧ below ((Lock l, m) :: h) b' ∧ ∀ k, rank l = Some k → below h k)
          as (b' & E' & Hb' & Hk).
        { destruct (rank l) as [k|] eqn:Ek.
          - apply andb_true_iff in E as [E1 E2]. apply Nat.leb_le in E1. exists (S k). split; [done|].
            assert (below h k) as Hk by (intros l' m' k' Hin El; specialize (Hb l' m' k' Hin El); lia).
            split.
            + intros l' m' k' [[= -> ->]|Hin]%elem_of_cons El.
              * rewrite Ek in El. injection El as <-. lia.
              * specialize (Hk _ _ _ Hin El). lia.
            + by intros k' [= <-].
          - exists b. split; [done|]. split; [|done].
            intros l' m' k' [[= -> ->]|Hin]%elem_of_cons El.
            + by rewrite Ek in El.
            + by eapply Hb. }
        assert (ranked ((Lock l, m) :: h) (t ++ Leave (Lock l) m :: w)) as Hin.
        { eapply IHHc; [done..|]. cbn [ranked after]. split; [done|]. by rewrite without_head. }
        destruct m; cbn [taking app ranked after]; (split; [exact Hk|]); [exact Hin|].
        split; [|exact Hin]. intros k Ek l' m' k' [[= -> ->]|Hx]%elem_of_cons El; [by left|].
        right. by eapply (Hk k).
      + assert (ranked ((Cell x, m) :: h) (t ++ Leave (Cell x) m :: w)) as Hin.
        { eapply IHHc; [done| |].
          - intros l' m' k' [?|Hx]%elem_of_cons El; [done|]. by eapply Hb.
          - cbn [ranked after]. split; [done|]. by rewrite without_head. }
        destruct m; cbn [taking app ranked after]; done.
    - apply andb_true_iff in E as [E1 E2]. rewrite <- app_assoc. eapply IHHc1; [done..|]. by eapply IHHc2.
    - apply andb_true_iff in E as [E1 E2]. by eapply IHHc.
    - apply andb_true_iff in E as [E1 E2]. by eapply IHHc.
    - apply andb_true_iff in E as [E1 E2]. by eapply IHHc.
    - done.
    - rewrite <- app_assoc. eapply IHHc1; [done..|]. by eapply IHHc2.
  Qed.
  Lemma ranked_finished h : ranked h [] → h = [].
  Proof. done. Qed.

  (** ** Nobody waits for ever *)

  Definition wants (e : event) : option lock :=
    match e with Ask (Lock l) _ | Enter l => Some l | _ => None end.
  Definition rank_wanted (th : thread) : nat :=
    match next th with
    | e :: _ => match wants e ≫= rank with Some k => S k | None => 0 end
    | [] => 0
    end.
  Lemma highest (s : list thread) :
    s ≠ [] → ∃ th, th ∈ s ∧ ∀ th', th' ∈ s → rank_wanted th' ≤ rank_wanted th.
  Proof using.
    induction s as [|th s IH]; [done|]. intros _. destruct s as [|th' s].
    - exists th. split; [by left|]. by intros ? ->%elem_of_list_singleton.
    - destruct IH as (x & Hx & Hm); [done|].
      destruct (decide (rank_wanted th ≤ rank_wanted x)).
      + exists x. split; [by right|]. intros y [->|Hy]%elem_of_cons; [done|auto].
      + exists th. split; [by left|]. intros y [->|Hy]%elem_of_cons; [done|]. specialize (Hm y Hy). lia.
  Qed.
  Definition stopped (s : list thread) (th : thread) : Prop :=
    ∃ e t l k, next th = e :: t ∧ wants e = Some l ∧ rank l = Some k ∧ ¬ possible s e.
  Lemma can_step s h e t : Thread h (e :: t) ∈ s → possible s e → ∃ s', step s s'.
  Proof using. intros [i Hi]%elem_of_list_lookup He. eexists. by eapply step_thread. Qed.

  Lemma no_block s : Forall (λ th, ranked (holds th) (next th)) s →
    (∀ th e t l, th ∈ s → next th = e :: t → wants e = Some l → rank l = None → possible s e) →
    ¬ blocked_for_ever s.
  Proof.
    intros Hr Hfree [Hnf Hstuck]. rewrite Forall_forall in Hr.
    assert (∀ th, th ∈ s → next th ≠ [] → stopped s th) as Hst.
    { intros [h t] Hin Hne. cbn in *. destruct t as [|e t]; [done|].
      assert (¬ possible s e) as Hp.
      { intros Hp. destruct (can_step _ _ _ _ Hin Hp) as [s' Hs']. by apply (Hstuck s'). }
      destruct (wants e) as [l|] eqn:Ew.
      - destruct (rank l) as [k|] eqn:Ek; [by exists e, t, l, k|].
        exfalso. apply Hp. by eapply Hfree.
      - exfalso. apply Hp. by destruct e as [[]| |]. }
    assert (∃ th, th ∈ s ∧ next th ≠ []) as (th0 & Hin0 & Hne0).
    { destruct (decide (Exists (λ th, next th ≠ []) s)) as [Hx|Hx]; [by apply Exists_exists in Hx|].
      exfalso. apply Hnf. apply Forall_forall. intros th Hin.
      destruct (next th) eqn:E; [done|]. exfalso. apply Hx. apply Exists_exists. exists th. by rewrite E. }
    (* the thread waiting for the lock with the highest rank *)
    destruct (highest s) as (th & Hin & Hmax); [by intros ->; apply elem_of_nil in Hin0|].
    assert (next th ≠ []) as Hne.
    { intros E. specialize (Hmax _ Hin0). destruct (Hst _ Hin0 Hne0) as (e & t & l & k & Ee & Ew & Ek & _).
      unfold rank_wanted in Hmax. rewrite E, Ee, Ew in Hmax. simpl in Hmax. rewrite Ek in Hmax. lia. }
    destruct (Hst _ Hin Hne) as (e & t & l & k & Ee & Ew & Ek & Hp).
    assert (rank_wanted th = S k) as Ehi by (unfold rank_wanted; rewrite Ee, Ew; simpl; by rewrite Ek).
    assert (∀ th', th' ∈ s → next th' ≠ [] → ∃ e' t' l' k', next th' = e' :: t' ∧ wants e' = Some l' ∧
      rank l' = Some k' ∧ ¬ possible s e' ∧ k' ≤ k) as Hle.
    { intros th' Hin' Hne'. destruct (Hst _ Hin' Hne') as (e' & t' & l' & k' & Ee' & Ew' & Ek' & Hp').
      exists e', t', l', k'. repeat split; try done. specialize (Hmax _ Hin').
      assert (rank_wanted th' = S k') as E by (unfold rank_wanted; rewrite Ee', Ew'; simpl; by rewrite Ek').
      lia. }
    (* nobody can be a reader of it *)
    assert (¬ held_by s (Lock l) Shared) as Hread.
    { intros (th' & Hin' & Hh'). specialize (Hr _ Hin').
      destruct (next th') as [|e' t'] eqn:En.
      { simpl in Hr. rewrite Hr in Hh'. by apply elem_of_nil in Hh'. }
      destruct (Hle th' Hin') as (e'' & t'' & l' & k' & E1 & E2 & E3 & E4 & E5); [by rewrite En|].
      rewrite En in E1. injection E1 as <- <-. destruct Hr as [Ho _].
      destruct e' as [[l''|x] m'|l''|]; simpl in E2; try done; injection E2 as ->.
      - specialize (Ho k' E3 _ _ _ Hh' Ek). lia.
      - destruct (Ho k' E3 _ _ _ Hh' Ek) as [?|?]; [done|]. lia. }
    (* so it is taken by a writer *)
    destruct (decide (held_by s (Lock l) Exclusive)) as [Hw|Hw].
    - destruct Hw as (th' & Hin' & Hh'). specialize (Hr _ Hin').
      destruct (next th') as [|e' t'] eqn:En.
      { simpl in Hr. rewrite Hr in Hh'. by apply elem_of_nil in Hh'. }
      destruct (Hle th' Hin') as (e'' & t'' & l' & k' & E1 & E2 & E3 & E4 & E5); [by rewrite En|].
      rewrite En in E1. injection E1 as <- <-. destruct Hr as [Ho _].
      destruct e' as [[l''|x] m'|l''|]; simpl in E2; try done; injection E2 as ->.
      + specialize (Ho k' E3 _ _ _ Hh' Ek). lia.
      + destruct (Ho k' E3 _ _ _ Hh' Ek) as [[= ->]|?]; [|lia]. by apply E4.
    - apply Hp. by destruct e as [[l'|x] m'|l'|]; simpl in Ew; try done; injection Ew as ->.
  Qed.
End ranks.

(** * Steps keep what was shown of the traces *)

Lemma reaches_keeps (P : list thread → Prop) s n s' :
  (∀ s s', P s → step s s' → P s') → P s → reaches s n s' → P s'.
Proof. intros Hstep H0 Hr. induction Hr; [done|]. by eapply Hstep; [apply IHHr|]. Qed.
Lemma keeps_each (Q : thread → Prop) s s' :
  (∀ h e t, Q (Thread h (e :: t)) → Q (Thread (after h e) t)) →
  Forall Q s → step s s' → Forall Q s'.
Proof.
  intros Hq Hs [i h e t Hi _]. apply Forall_insert; [done|]. apply Hq. by eapply Forall_lookup_1 in Hi.
Qed.
Lemma keeps_ith (Q : nat → thread → Prop) s s' :
  (∀ i h e t, Q i (Thread h (e :: t)) → Q i (Thread (after h e) t)) →
  (∀ i th, s !! i = Some th → Q i th) → step s s' → ∀ i th, s' !! i = Some th → Q i th.
Proof.
  intros Hq Hs [i h e t Hi _] j th Hj. apply list_lookup_insert_Some in Hj as [(-> & <- & _)|[_ Hj]]; [|by apply Hs].
  apply Hq. by apply Hs.
Qed.
Lemma ranked_step rank h e t : ranked rank h (e :: t) → ranked rank (after h e) t.
Proof. by intros [_ ?]. Qed.
Lemma fits_step h e t : fits h (e :: t) → fits (after h e) t.
Proof. by intros [_ ?]. Qed.

(** Every run is finite. *)
Definition to_do (s : list thread) : nat := sum_list_with (λ th, length (next th)) s.
Lemma to_do_step s s' : step s s' → to_do s = S (to_do s').
Proof.
  intros [i h e t Hi _]. unfold to_do. revert i Hi.
  induction s as [|th s IH]; intros i Hi; [done|]. destruct i as [|i]; simpl in Hi.
  - injection Hi as ->. simpl. lia.
  - simpl. rewrite (IH i Hi). lia.
Qed.
Lemma to_do_reaches s n s' : reaches s n s' → to_do s = n + to_do s'.
Proof. induction 1 as [|n s' s'' Hr IH Hs]; [done|]. rewrite IH, (to_do_step _ _ Hs). lia. Qed.
Lemma to_do_start ts : to_do (start ts) = sum_list_with length ts.
Proof. unfold to_do, start. induction ts as [|t ts IH]; [done|]. simpl. by rewrite <- IH. Qed.
Lemma reaches_trans s n s' m s'' : reaches s n s' → reaches s' m s'' → reaches s (n + m) s''.
Proof.
  intros H1 H2. induction H2.
  - by rewrite Nat.add_0_r.
  - rewrite Nat.add_succ_r. by econstructor.
Qed.
Lemma all_end s : (∀ n s', reaches s n s' → ¬ blocked_for_ever s') → ∃ n s', reaches s n s' ∧ finished s'.
Proof.
  remember (to_do s) as k eqn:Ek. revert s Ek. induction k as [|k IH]; intros s Ek Hb.
  - exists 0, s. split; [constructor|]. apply Forall_forall. intros th Hin.
    unfold to_do in Ek. destruct (next th) eqn:E; [done|]. exfalso.
    apply elem_of_list_lookup in Hin as [i Hi]. clear -Ek Hi E. revert i Hi Ek.
    induction s as [|x s IH]; intros [|i] Hi Ek; simpl in *; try done.
    + injection Hi as ->. rewrite E in Ek. done.
    + apply (IH i Hi). lia.
  - assert (¬ finished s) as Hnf.
    { intros Hf. assert (to_do s = 0) as E; [|congruence]. unfold to_do. clear -Hf.
      induction Hf as [|th s E _ IH]; [done|]. simpl. by rewrite E, IH. }
    assert (¬ ∀ s', ¬ step s s') as Hs by (intros Hs; by apply (Hb 0 s (reaches_here s))).
    (* a step is found by trying the threads one after the other *)
    assert (∃ s', step s s') as [s' Hs'].
    { destruct (decide (Exists (ready s) s)) as [Hx|Hx].
      - apply Exists_exists in Hx as ([h t] & Hin & Hp). unfold ready in Hp. simpl in Hp. destruct t as [|e t]; [done|].
        by eapply can_step.
      - exfalso. apply Hs. intros s' [i h e t Hi Hp]. apply Hx. apply Exists_exists.
        exists (Thread h (e :: t)). split; [by eapply elem_of_list_lookup_2|done]. }
    destruct (IH s') as (n & s'' & Hr & Hf).
    + pose proof (to_do_step _ _ Hs'). lia.
    + intros n s'' Hr. apply (Hb (1 + n)). eapply reaches_trans; [|done]. econstructor; [constructor|done].
    + exists (1 + n), s''. split; [|done]. eapply reaches_trans; [|done]. econstructor; [constructor|done].
Qed.
