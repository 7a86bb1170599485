(** Proofs about the files of the databases. *)
From stdpp Require Import gmap strings list.
From Coq Require Import Lia.
From Verif Require Import Migrate MigrateSpec.
Local Open Scope string_scope.
Local Open Scope list_scope.

(** ** Statements look only at the schema *)
Definition same_shape (a b : database) : Prop :=
  d_indexes a = d_indexes b ∧ ∀ t, columns <$> d_tables a !! t = columns <$> d_tables b !! t.
Lemma shape_sym a b : same_shape a b → same_shape b a.
Proof. intros [H1 H2]. by split. Qed.
Lemma shape_trans a b c : same_shape a b → same_shape b c → same_shape a c.
Proof. intros [H1 H2] [H3 H4]. split; [congruence|]. intros t. by rewrite H2. Qed.
Lemma schema_shape a b : same_schema a b ↔ d_version a = d_version b ∧ same_shape a b.
Proof. unfold same_schema, same_shape. naive_solver. Qed.
Lemma shape_has a b t : same_shape a b → is_Some (d_tables a !! t) ↔ is_Some (d_tables b !! t).
Proof. intros [_ H]. specialize (H t). rewrite <- !(fmap_is_Some columns), H. done. Qed.
Lemma shape_taken a b t : same_shape a b → taken a t = taken b t.
Proof.
  intros H. unfold taken. rewrite (proj1 H). f_equal. apply bool_decide_ext. by apply shape_has.
Qed.
Lemma shape_columns a b t cs : same_shape a b → has_columns a t cs = has_columns b t cs.
Proof.
  intros [_ H]. specialize (H t). unfold has_columns. destruct (d_tables a !! t) as [x|], (d_tables b !! t) as [y|]; try done.
  injection H as H. by rewrite H.
Qed.
Lemma shape_understood a b k : same_shape a b → understood k a = understood k b.
Proof. intros H. unfold understood. induction (named_by k) as [|x l IH]; [done|]. cbn [forallb]. by rewrite (shape_columns a b) , IH. Qed.
Lemma shape_insert a b v w i n c :
  same_shape a b → same_shape (Database v (<[n:=SqlTable c []]> (d_tables a)) i) (Database w (<[n:=SqlTable c []]> (d_tables b)) i).
Proof.
  intros [_ H]. split; [done|]. intros t. cbn [d_tables]. destruct (decide (t = n)) as [->|Hn]; [by rewrite !lookup_insert|].
  by rewrite !lookup_insert_ne by done.
Qed.

Lemma exec_shape a b s a' : same_shape a b → exec a s = Some a' → ∃ b', exec b s = Some b' ∧ same_shape a' b'.
Proof.
  intros H E. destruct s as [n cs|n t cs|n|n]; cbn [exec] in *.
  - rewrite <- (shape_taken a b n H). destruct (taken a n); [done|]. injection E as <-. eexists. split; [reflexivity|].
    rewrite (proj1 H). by apply shape_insert.
  - rewrite <- (shape_taken a b n H), <- (shape_columns a b t cs H). destruct (taken a n); [done|]. destruct (has_columns a t cs); [|done].
    injection E as <-. eexists. split; [reflexivity|]. destruct H as [H1 H2]. split; [cbn [d_indexes]; by rewrite H1|exact H2].
  - rewrite <- (proj1 H). destruct (bool_decide _); [|done]. injection E as <-. eexists. split; [reflexivity|]. split; [done|apply H].
  - assert (Hd : bool_decide (is_Some (d_tables a !! n)) = bool_decide (is_Some (d_tables b !! n))) by (apply bool_decide_ext; by apply shape_has).
    rewrite <- Hd. destruct (bool_decide _); [|done]. injection E as <-. eexists. split; [reflexivity|]. destruct H as [H1 H2].
    split; [cbn [d_indexes]; by rewrite H1|]. intros t. cbn [d_tables]. destruct (decide (t = n)) as [->|Hn]; [by rewrite !lookup_delete|].
    rewrite !lookup_delete_ne by done. apply H2.
Qed.
Lemma exec_all_shape l : ∀ a b a', same_shape a b → exec_all a l = Some a' → ∃ b', exec_all b l = Some b' ∧ same_shape a' b'.
Proof.
  induction l as [|s l IH]; intros a b a' H E; cbn [exec_all] in *; [injection E as <-; eauto|].
  destruct (exec a s) as [c|] eqn:Ec; [|done]. destruct (exec_shape a b s c H Ec) as (d & -> & Hd). by apply (IH c d).
Qed.
Lemma exec_all_app l1 l2 : ∀ a, exec_all a (l1 ++ l2) = match exec_all a l1 with Some b => exec_all b l2 | None => None end.
Proof. induction l1 as [|s l1 IH]; intros a; cbn [exec_all app]; [done|]. destruct (exec a s); [apply IH|done]. Qed.

(** ** Only dropping a table loses rows *)
Definition keeps (s : statement) : Prop := match s with DropTable _ => False | _ => True end.
Lemma kept_refl a : rows_same a a.
Proof. split; [intros t x H; eauto|]. intros t y H1 H2. congruence. Qed.
Lemma kept_tables a b : d_tables a = d_tables b → rows_same a b.
Proof. intros H. split; [intros t x Hx; exists x; by rewrite <- H|]. intros t y H1 H2. congruence. Qed.
Lemma kept_trans a b c : rows_same a b → rows_same b c → rows_same a c.
Proof.
  intros [K1 N1] [K2 N2]. split.
  - intros t x Hx. destruct (K1 t x Hx) as (y & Hy & C1 & R1). destruct (K2 t y Hy) as (z & Hz & C2 & R2). exists z. split; [done|]. split; congruence.
  - intros t z Hz Ha. destruct (d_tables b !! t) as [y|] eqn:Hy; [|by apply (N2 t)].
    destruct (K2 t y Hy) as (z' & Hz' & _ & R2). rewrite Hz in Hz'. injection Hz' as <-. rewrite R2. by apply (N1 t).
Qed.
Lemma exec_kept a s b : keeps s → exec a s = Some b → rows_same a b.
Proof.
  intros K E. destruct s as [n cs|n t cs|n|n]; cbn [exec] in E; [|..|done].
  - destruct (taken a n) eqn:Et; [done|]. injection E as <-. unfold taken in Et. apply orb_false_iff in Et as [Et _].
    apply bool_decide_eq_false, eq_None_not_Some in Et. split.
    + intros t x Hx. exists x. cbn [d_tables]. rewrite lookup_insert_ne; [done|]. intros ->. congruence.
    + intros t y Hy Ha. cbn [d_tables] in Hy. destruct (decide (t = n)) as [->|Hn]; [rewrite lookup_insert in Hy; by injection Hy as <-|].
      rewrite lookup_insert_ne in Hy by done. congruence.
  - destruct (taken a n); [done|]. destruct (has_columns a t cs); [|done]. injection E as <-. by apply kept_tables.
  - destruct (bool_decide _); [|done]. injection E as <-. by apply kept_tables.
Qed.
Lemma exec_all_kept l : ∀ a b, Forall keeps l → exec_all a l = Some b → rows_same a b.
Proof.
  induction l as [|s l IH]; intros a b H E; cbn [exec_all] in E; [injection E as <-; apply kept_refl|].
  apply Forall_cons in H as [H1 H2]. destruct (exec a s) as [c|] eqn:Ec; [|done]. eapply kept_trans; [by eapply exec_kept|by apply IH].
Qed.
Lemma latest_kept ms a b : Forall keeps ms → to_latest ms a = Some b → rows_same a b ∧ d_version b = length ms.
Proof.
  intros H E. unfold to_latest in E. destruct (Nat.ltb _ _); [done|]. destruct (Nat.eqb _ _) eqn:En.
  - injection E as <-. apply Nat.eqb_eq in En. split; [apply kept_refl|done].
  - destruct (exec_all a _) as [c|] eqn:Ec; [|done]. injection E as <-. split; [|done].
    eapply kept_trans; [eapply exec_all_kept; [|exact Ec]; by apply Forall_drop|by apply kept_tables].
Qed.
Lemma latest_again ms a b : to_latest ms a = Some b → to_latest ms b = Some b.
Proof.
  intros E. assert (Hv : d_version b = length ms).
  { unfold to_latest in E. destruct (Nat.ltb _ _); [done|]. destruct (Nat.eqb _ _) eqn:En; [injection E as <-; by apply Nat.eqb_eq in En|].
    destruct (exec_all a _); [|done]. by injection E as <-. }
  unfold to_latest. by rewrite Hv, Nat.ltb_irrefl, Nat.eqb_refl.
Qed.

(** ** Files of earlier releases *)
Lemma release_shape ms a : from_releases ms a →
  d_version a ≤ length ms ∧ ∃ f, exec_all empty_database (take (d_version a) ms) = Some f ∧ same_shape f a.
Proof.
  induction 1 as [|n a b _ (Hv & f & Ef & Hf) E|a b _ (Hv & f & Ef & Hf) Hs].
  - split; [cbn; lia|]. exists empty_database. by split.
  - unfold to_latest in E. destruct (Nat.ltb _ _) eqn:El; [done|]. destruct (Nat.eqb _ _) eqn:En.
    { injection E as <-. split; [done|]. by exists f. }
    apply Nat.ltb_ge in El. set (m := take n ms) in *.
    assert (Hm : take (length m) ms = m) by (unfold m; rewrite take_length; destruct (decide (n ≤ length ms)); [by rewrite Nat.min_l by lia|rewrite Nat.min_r, !take_ge by lia; done]).
    destruct (exec_all a (drop (d_version a) m)) as [c|] eqn:Ec; [|done]. injection E as <-. cbn [d_version].
    split; [rewrite <- Hm, take_length; lia|].
    destruct (exec_all_shape _ a f c (shape_sym _ _ Hf) Ec) as (h & Eh & Hh). exists h. split.
    + rewrite Hm. rewrite <- (take_drop (d_version a) m). rewrite exec_all_app.
      replace (take (d_version a) m) with (take (d_version a) ms) by (rewrite <- Hm, take_take; f_equal; lia). by rewrite Ef.
    + by apply shape_sym.
  - apply schema_shape in Hs as [Hsv Hs]. rewrite <- Hsv. split; [done|]. exists f. split; [done|]. by eapply shape_trans.
Qed.
Lemma release_latest ms fresh a : Forall keeps ms → ms ≠ [] → to_latest ms empty_database = Some fresh → from_releases ms a →
  ∃ b, to_latest ms a = Some b ∧ rows_same a b ∧ same_schema fresh b.
Proof.
  intros K Hne Hfr Ha. destruct (release_shape ms a Ha) as (Hv & f & Ef & Hf).
  assert (Hx : ∃ x, exec_all empty_database ms = Some x ∧ same_shape x fresh ∧ d_version fresh = length ms).
  { unfold to_latest in Hfr. cbn [empty_database d_version] in Hfr. destruct ms as [|s l]; [done|]. cbn [length Nat.ltb Nat.leb Nat.eqb drop] in Hfr.
    destruct (exec_all _ (s :: l)) as [x|]; [|done]. injection Hfr as <-. exists x. by split. }
  destruct Hx as (x & Ex & Hx & Hvx).
  assert (Hb : ∃ b, to_latest ms a = Some b ∧ same_shape x b).
  { unfold to_latest. assert (Nat.ltb (length ms) (d_version a) = false) as -> by (apply Nat.ltb_ge; lia).
    destruct (Nat.eqb _ _) eqn:En.
    - apply Nat.eqb_eq in En. exists a. split; [done|]. rewrite <- En, firstn_all in Ef. congruence.
    - rewrite <- (take_drop (d_version a) ms) in Ex. rewrite exec_all_app, Ef in Ex.
      destruct (exec_all_shape _ f a x Hf Ex) as (c & -> & Hc). eexists. split; [reflexivity|]. exact Hc. }
  destruct Hb as (b & Eb & Hb). exists b. destruct (latest_kept ms a b K Eb) as [K1 K2]. split; [done|]. split; [done|].
  apply schema_shape. split; [congruence|]. by eapply shape_trans; [apply shape_sym|].
Qed.

(** ** The five stores *)
Lemma stores_keep k : Forall keeps (migrations k).
Proof. destruct k; repeat constructor. Qed.
Lemma stores_some k : migrations k ≠ [].
Proof. by destruct k. Qed.
Definition fresh_ok (k : store) : bool := match to_latest (migrations k) empty_database with Some d => understood k d | None => false end.
Lemma fresh_checked k : fresh_ok k = true.
Proof. destruct k; vm_compute; reflexivity. Qed.
Lemma store_fresh k : ∃ d, to_latest (migrations k) empty_database = Some d ∧ understood k d = true.
Proof. pose proof (fresh_checked k) as H. unfold fresh_ok in H. destruct (to_latest _ _) as [d|]; [|done]. by exists d. Qed.

Lemma store_opens k db : from_releases (migrations k) db → ∃ new db', open_store k empty_database = (new, true) ∧ open_store k db = (db', true) ∧
  rows_same db db' ∧ same_schema new db' ∧ understood k db' = true.
Proof.
  intros H. destruct (store_fresh k) as (d & Ed & Hd).
  destruct (release_latest _ d db (stores_keep k) (stores_some k) Ed H) as (db' & E & K & S).
  assert (Hu : understood k db' = true). { rewrite <- Hd. symmetry. apply shape_understood. by apply schema_shape. }
  exists d, db'. unfold open_store. rewrite Ed, E. split; [destruct k; by rewrite ?Hd|]. split; [destruct k; by rewrite ?Hu|]. done.
Qed.
Lemma store_again k db db' : open_store k db = (db', true) → open_store k db' = (db', true).
Proof.
  unfold open_store. destruct (to_latest (migrations k) db) as [d|] eqn:E; [|done]. intros [= -> H]. rewrite (latest_again _ _ _ E), H. done.
Qed.
Lemma store_keeps k db : rows_same db (open_store k db).1.
Proof.
  unfold open_store. destruct (to_latest (migrations k) db) as [d|] eqn:E; [|apply kept_refl].
  cbn [fst]. by apply (latest_kept _ _ _ (stores_keep k) E).
Qed.
Lemma store_newer k db : length (migrations k) < d_version db → open_store k db = (db, false).
Proof. intros H. apply Nat.ltb_lt in H. unfold open_store, to_latest. by rewrite H. Qed.

(** ** All of them *)
Lemma put_same k db dbs : put k db dbs k = db.
Proof. unfold put. by rewrite decide_True. Qed.
Lemma put_other k k' db dbs : k' ≠ k → put k db dbs k' = dbs k'.
Proof. intros H. unfold put. by rewrite decide_False. Qed.
Lemma stores_kept l : ∀ dbs k, rows_same (dbs k) ((open_stores l dbs).1 k).
Proof.
  induction l as [|j l IH]; intros dbs k; cbn [open_stores]; [apply kept_refl|].
  assert (Hj : rows_same (dbs k) (put j (open_store j (dbs j)).1 dbs k)).
  { destruct (decide (k = j)) as [->|Hk]; [rewrite put_same; apply store_keeps|rewrite put_other by done; apply kept_refl]. }
  destruct (open_store j (dbs j)).2; cbn [fst]; [|done]. eapply kept_trans; [exact Hj|apply IH].
Qed.
Lemma part_kept dbs i k : rows_same (dbs k) ((open_stores (take i in_turn) dbs).1 k).
Proof. apply stores_kept. Qed.
Lemma stores_open l : ∀ dbs, NoDup l → (∀ k, k ∈ l → (open_store k (dbs k)).2 = true) →
  (open_stores l dbs).2 = true ∧ ∀ k, (open_stores l dbs).1 k = if decide (k ∈ l) then (open_store k (dbs k)).1 else dbs k.
Proof.
  induction l as [|j l IH]; intros dbs Hnd H; cbn [open_stores]; [done|]. apply NoDup_cons in Hnd as [Hj Hnd].
  rewrite (H j) by left. destruct (IH (put j (open_store j (dbs j)).1 dbs) Hnd) as [H1 H2].
  { intros k Hk. rewrite put_other by (by intros ->). apply H. by right. }
  split; [done|]. intros k. rewrite H2. destruct (decide (k = j)) as [->|Hk].
  - rewrite decide_False by done. rewrite decide_True by left. by rewrite put_same.
  - rewrite put_other by done. destruct (decide (k ∈ l)); [rewrite decide_True by (by right); done|].
    rewrite decide_False; [done|]. rewrite elem_of_cons. tauto.
Qed.
Lemma turn_all k : k ∈ in_turn.
Proof. unfold in_turn. rewrite !elem_of_cons. destruct k; tauto. Qed.
Lemma turn_once : NoDup in_turn.
Proof. apply (bool_decide_eq_true_1 (NoDup in_turn)). reflexivity. Qed.
Lemma all_open dbs : left_behind dbs → ∃ dbs', open_databases dbs = (dbs', true) ∧
  ∀ k, rows_same (dbs k) (dbs' k) ∧ understood k (dbs' k) = true ∧ same_schema (open_store k empty_database).1 (dbs' k).
Proof.
  intros H. destruct (stores_open in_turn dbs turn_once) as [H1 H2].
  { intros k _. by destruct (store_opens k (dbs k) (H k)) as (? & ? & _ & -> & _). }
  unfold open_databases. destruct (open_stores in_turn dbs) as [dbs' ok]. cbn [fst snd] in *. subst ok. exists dbs'. split; [done|].
  intros k. rewrite H2, decide_True by apply turn_all. destruct (store_opens k (dbs k) (H k)) as (new & db' & -> & -> & K & S & U). by split.
Qed.
(** An opening that stops after some of the stores, and another one. *)
Lemma all_resume dbs i : left_behind dbs → let mid := (open_stores (take i in_turn) dbs).1 in
  (∀ k, rows_same (dbs k) (mid k)) ∧ (open_databases mid).2 = true ∧ ∀ k, (open_databases mid).1 k = (open_databases dbs).1 k.
Proof.
  intros H mid. split; [intros k; apply stores_kept|].
  assert (Hok : ∀ k, (open_store k (dbs k)).2 = true). { intros k. by destruct (store_opens k (dbs k) (H k)) as (? & ? & _ & -> & _). }
  assert (Hnd : NoDup (take i in_turn)) by (pose proof turn_once as Ht; rewrite <- (take_drop i in_turn) in Ht; apply NoDup_app in Ht as [Ht _]; exact Ht).
  destruct (stores_open (take i in_turn) dbs Hnd) as [_ Hmid]; [auto|].
  assert (Hag : ∀ k, open_store k (mid k) = ((open_store k (dbs k)).1, true)).
  { intros k. unfold mid. rewrite Hmid. pose proof (Hok k) as E. destruct (open_store k (dbs k)) as [d b] eqn:Eo. cbn [fst snd] in *. subst b.
    destruct (decide _); [|done]. by apply (store_again k (dbs k)). }
  destruct (stores_open in_turn mid turn_once) as [H1 H2]; [intros k _; by rewrite Hag|].
  destruct (stores_open in_turn dbs turn_once) as [_ H4]; [auto|].
  split; [exact H1|]. intros k. unfold open_databases. rewrite H2, H4, !decide_True by apply turn_all. by rewrite Hag.
Qed.

(** ** Files of another kind *)
Definition wrong_kind : bool :=
  match open_store Blacklist empty_database with
  | (d, true) => match open_store ReviewList d with (d', ok) => ok && negb (understood ReviewList d') end
  | _ => false
  end.
Lemma wrong_kind_checked : wrong_kind = true.
Proof. vm_compute. reflexivity. Qed.
Lemma wrong_kind_opens : ∃ db, from_releases (migrations Blacklist) db ∧
  (open_store ReviewList db).2 = true ∧ understood ReviewList (open_store ReviewList db).1 = false.
Proof.
  pose proof wrong_kind_checked as H. unfold wrong_kind in H. destruct (open_store Blacklist empty_database) as [d b] eqn:E. destruct b; [|done].
  exists d. destruct (open_store ReviewList d) as [d' ok]. apply andb_true_iff in H as [-> H]. apply negb_true_iff in H. split; [|done].
  apply (release_opens _ (length (migrations Blacklist)) empty_database); [constructor|]. rewrite firstn_all.
  unfold open_store in E. destruct (to_latest (migrations Blacklist) empty_database) as [x|]; [|done]. by injection E as -> _.
Qed.

(** ** A file of the release before the index of trials was changed *)
Definition old_version : option database := to_latest (take 4 (migrations Trials)) empty_database.
Definition with_rows (db : database) (t : string) (rs : list (list string)) : database :=
  Database (d_version db) (alter (λ x, SqlTable (columns x) rs) t (d_tables db)) (d_indexes db).
Lemma with_rows_schema db t rs : same_schema db (with_rows db t rs).
Proof.
  split; [done|]. split; [done|]. intros t'. cbn [with_rows d_tables]. destruct (decide (t' = t)) as [->|Hn].
  - rewrite lookup_alter. by destruct (d_tables db !! t).
  - by rewrite lookup_alter_ne.
Qed.
Definition old_file (db : database) : database := with_rows (with_rows db "uids" [["1"; "A::1::x"]]) "practice_stats" [["1"; "1"; "5"; "100"]].
Definition has_index (db : database) (i : string) : bool := bool_decide (is_Some (d_indexes db !! i)).
Definition rows_of (db : database) (t : string) : option (list (list string)) := rows <$> d_tables db !! t.
Definition old_ok : bool :=
  match old_version with
  | Some d =>
      let a := old_file d in
      let b := (open_store Trials a).1 in
      Nat.eqb (d_version a) 4 && has_index a "unit_scores" && negb (has_index a "trials") && bool_decide (rows_of a "practice_stats" = Some [["1"; "1"; "5"; "100"]]) &&
      Nat.eqb (d_version b) 6 && negb (has_index b "unit_scores") && has_index b "trials"
  | None => false
  end%bool.
Lemma old_checked : old_ok = true.
Proof. vm_compute. reflexivity. Qed.
Lemma old_example : ∃ a b, from_releases (migrations Trials) a ∧ d_version a = 4 ∧ is_Some (d_indexes a !! "unit_scores") ∧ d_indexes a !! "trials" = None ∧
  rows <$> d_tables a !! "practice_stats" = Some [["1"; "1"; "5"; "100"]] ∧
  open_store Trials a = (b, true) ∧ d_version b = 6 ∧ d_indexes b !! "unit_scores" = None ∧ is_Some (d_indexes b !! "trials").
Proof.
  pose proof old_checked as H. unfold old_ok in H. destruct old_version as [d|] eqn:E; [|done].
  set (a := old_file d) in *. cbv zeta in H. rewrite !andb_true_iff in H. destruct H as ((((((H1 & H2) & H3) & H4) & H5) & H6) & H7).
  apply Nat.eqb_eq in H1, H5. apply negb_true_iff in H3, H6. unfold has_index in *.
  apply bool_decide_eq_true in H2, H4, H7. apply bool_decide_eq_false, eq_None_not_Some in H3, H6.
  assert (Ha : from_releases (migrations Trials) a).
  { unfold a, old_file. eapply release_writes; [|apply with_rows_schema]. eapply release_writes; [|apply with_rows_schema].
    eapply (release_opens _ 4); [constructor|exact E]. }
  destruct (store_opens Trials a Ha) as (_ & b & _ & Eb & _). rewrite Eb in *. cbn [fst] in *. exists a, b. done.
Qed.
