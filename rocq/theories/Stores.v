(** Model of the SQLite stores: src/practice_stats.rs, src/practice_deltas.rs,
    src/practice_rewards.rs, src/blacklist.rs and src/review_list.rs.

    A table is the list of its rows. What SQLite leaves open is given by the caller: the order
    of rows with equal timestamps ([order]), and whether and where a statement fails ([stop],
    [fault]). Locks, migrations, VACUUM and the file format are not modelled. *)
From stdpp Require Import gmap strings list.
From Coq Require Import ZArith.
From Verif Require Import F32 Graph Sql.

(** Rows of practice_stats (src/practice_stats.rs:57-62), practice_deltas
    (src/practice_deltas.rs:55-60) and practice_rewards (src/practice_rewards.rs:114-121). The
    value columns are one field; [None] is NULL. *)
Record row (A : Type) := Row { r_id : Z; r_uid : nat; r_val : option A; r_ts : Z }.
Arguments Row {A}. Arguments r_id {A}. Arguments r_uid {A}. Arguments r_val {A}. Arguments r_ts {A}.

(** The table uids (src/practice_stats.rs:54) never loses a row, so the integer key of a
    unit is its position. *)
Record table (A : Type) := Table { t_uids : list string; t_rows : list (row A) }.
Arguments Table {A}. Arguments t_uids {A}. Arguments t_rows {A}.
Definition empty_table {A} : table A := Table [] [].

Definition order A := list (row A) → list (row A).

Section table.
  Context {A : Type}.
  (** How a value is stored: SQLite stores NaN as NULL. *)
  Context (bind : A → option A).
  Implicit Types t : table A.

  (** [SELECT unit_uid FROM uids WHERE unit_id = $1]. *)
  Definition uid_of (uids : list string) (u : string) : option nat :=
    fst <$> list_find (λ x, x = u) uids.
  (** [INSERT OR IGNORE INTO uids(unit_id) VALUES ($1)]. *)
  Definition add_uid (uids : list string) (u : string) : list string :=
    if bool_decide (u ∈ uids) then uids else uids ++ [u].
  (** The key of a new row of a table with an INTEGER PRIMARY KEY. *)
  Definition fresh_id (rows : list (row A)) : Z := (1 + foldr (λ r m, Z.max (r_id r) m) 0 rows)%Z.

  (** An entry to record: unit, value, timestamp. *)
  Record entry := Entry { e_unit : string; e_val : A; e_ts : Z }.

  (** The two INSERT statements of src/practice_stats.rs:140-152,
      src/practice_deltas.rs:121-133, src/practice_rewards.rs:198-211. A NULL [unit_uid] violates
      NOT NULL and is an error. *)
  Definition insert_entry t (e : entry) : option (table A) :=
    let uids := add_uid (t_uids t) (e_unit e) in
    match uid_of uids (e_unit e) with
    | None => None
    | Some k => Some (Table uids (t_rows t ++ [Row (fresh_id (t_rows t)) k (bind (e_val e)) (e_ts e)]))
    end.
  Fixpoint insert_entries t (es : list entry) : option (table A) :=
    match es with
    | [] => Some t
    | e :: es => match insert_entry t e with Some t' => insert_entries t' es | None => None end
    end.

  (** src/practice_stats.rs:134-157 [record_exercise_scores_helper] and
      src/practice_deltas.rs:117-138 [record_exercise_deltas_helper]. All statements are in one
      transaction: if one of them or the commit fails ([fault]), nothing is stored. The
      boolean says whether the call succeeded. *)
  Definition record_entries (fault : bool) t (es : list entry) : table A * bool :=
    if fault then (t, false) else
    match insert_entries t es with Some t' => (t', true) | None => (t, false) end.

  (** Rows of one unit, newest first. *)
  Definition newest_rows (q : order A) (rows : list (row A)) (k : nat) : list (row A) :=
    q (filter (λ r, r_uid r = k) rows).

  (** src/practice_stats.rs:107-131 [get_scores_helper], src/practice_deltas.rs:92-113
      [get_deltas_helper], src/practice_rewards.rs:159-185 [get_rewards_helper]. Reading a NULL
      into an [f32] is an error ([None]). *)
  Definition decode_row (u : string) (r : row A) : option entry :=
    match r_val r with Some a => Some (Entry u a (r_ts r)) | None => None end.
  Definition get_entries (q : order A) t (u : string) (n : nat) : option (list entry) :=
    match uid_of (t_uids t) u with
    | None => Some []
    | Some k => mapM (decode_row u) (take n (newest_rows q (t_rows t) k))
    end.

  (** src/practice_stats.rs:171-176, src/practice_deltas.rs:150-155: the DELETE statement of a
      trim. *)
  Definition trim_unit (q : order A) (n : nat) (k : nat) (rows : list (row A)) : list (row A) :=
    let tops := r_ts <$> take n (newest_rows q rows k) in
    filter (λ r, ¬ (r_uid r = k ∧ r_ts r ∉ tops)) rows.
  (** src/practice_rewards.rs:239-245: the DELETE statement of a reward trim; also lines
      213-220 with [n = 20]. *)
  Definition trim_unit_by_id (q : order A) (n : nat) (k : nat) (rows : list (row A)) : list (row A) :=
    let old := r_id <$> drop n (newest_rows q rows k) in
    filter (λ r, r_id r ∉ old) rows.

  (** A loop that runs one autocommitted statement per key; [stop] is the number of keys
      processed before an error or a crash. *)
  Definition upto (stop : option nat) (ks : list nat) : list nat :=
    match stop with None => ks | Some i => take i ks end.
  Definition for_uids (stop : option nat) (f : nat → list (row A) → list (row A)) (ks : list nat) t : table A :=
    Table (t_uids t) (fold_left (λ rows k, f k rows) (upto stop ks) (t_rows t)).
  Definition all_uids t : list nat := seq 0 (length (t_uids t)).

  (** src/practice_stats.rs:160-182 [trim_scores_helper], src/practice_deltas.rs:141-160
      [trim_deltas_helper]. *)
  Definition trim_entries (q : order A) (stop : option nat) (n : nat) t : table A :=
    for_uids stop (trim_unit q n) (all_uids t) t.
  (** src/practice_rewards.rs:232-248 [trim_rewards_helper]. *)
  Definition trim_entries_by_id (q : order A) (stop : option nat) (n : nat) t : table A :=
    for_uids stop (trim_unit_by_id q n) (all_uids t) t.

  (** src/practice_stats.rs:185-205 [remove_scores_with_prefix_helper],
      src/practice_deltas.rs:162-180 [remove_deltas_with_prefix_helper],
      src/practice_rewards.rs:251-268 [remove_rewards_with_prefix_helper]. *)
  Definition matching_uids (p : string) t : list nat :=
    filter (λ k, match t_uids t !! k with Some u => like_prefix p u | None => false end = true) (all_uids t).
  Definition delete_unit (k : nat) (rows : list (row A)) : list (row A) :=
    filter (λ r, r_uid r ≠ k) rows.
  Definition remove_prefix (stop : option nat) (p : string) t : table A :=
    for_uids stop delete_unit (matching_uids p t) t.
End table.
Arguments entry : clear implicits.
Arguments Entry {A}. Arguments e_unit {A}. Arguments e_val {A}. Arguments e_ts {A}.

(** The calls on the score store and on the delta store. *)
Inductive store_op (A : Type) :=
| SRecord (fault : bool) (es : list (entry A))
| STrim (q : order A) (stop : option nat) (n : nat)
| SRemovePrefix (stop : option nat) (p : string).
Arguments SRecord {A}. Arguments STrim {A}. Arguments SRemovePrefix {A}.
Definition store_step {A} (bind : A → option A) (t : table A) (op : store_op A) : table A :=
  match op with
  | SRecord fault es => fst (record_entries bind fault t es)
  | STrim q stop n => trim_entries q stop n t
  | SRemovePrefix stop p => remove_prefix stop p t
  end.
Definition store_run {A} (bind : A → option A) (ops : list (store_op A)) : table A :=
  fold_left (store_step bind) ops empty_table.

(** Scores and deltas are single [f32] values; [bind_f32] is the conversion to REAL (exact,
    apart from NaN). *)
Definition bind_f32 (x : f32) : option f32 := if fis_nan x then None else Some x.

(** The reward store: src/practice_rewards.rs. A reward is a value and a weight. *)
Definition reward : Type := f32 * f32.
Definition bind_reward (r : reward) : option reward :=
  if fis_nan r.1 || fis_nan r.2 then None else Some r.
Notation unit_reward := (entry reward) (only parsing).

Definition seconds_in_day : Z := 86400.
Definition max_cache_size : nat := 10.
Definition max_rewards : nat := 20.

(** src/practice_rewards.rs:62-65 [RewardCache], 96-102 [LocalPracticeRewards]. *)
Record reward_store := RewardStore { rs_table : table reward; rs_cache : gmap string (list unit_reward) }.
Definition empty_reward_store : reward_store := RewardStore empty_table ∅.

(** src/practice_rewards.rs:71-82 [has_similar_reward]. Timestamps are integers without
    overflow. *)
Definition similar_reward (r reward : unit_reward) : bool :=
  feq (e_val r).1 (e_val reward).1
  && (Z.abs (e_ts r - e_ts reward) <? seconds_in_day)%Z
  && flt (fabs (fsub (e_val r).2 (e_val reward).2)) f_0_1.
Definition has_similar_reward (cache : gmap string (list unit_reward)) (r : unit_reward) : bool :=
  match cache !! e_unit r with
  | Some rewards => existsb (λ r', similar_reward r' r) rewards
  | None => false
  end.
(** src/practice_rewards.rs:86-92 [add_new_reward]. *)
Definition add_new_reward (cache : gmap string (list unit_reward)) (r : unit_reward) : gmap string (list unit_reward) :=
  let rewards := default [] (cache !! e_unit r) in
  let rewards := if decide (max_cache_size <= length rewards) then tail rewards else rewards in
  <[e_unit r := rewards ++ [r]]> cache.

(** src/practice_rewards.rs:193-224: the body of the loop. The state is the table inside the
    transaction, the cache and the list of updated units. *)
Definition reward_body (q : order reward) (st : table reward * gmap string (list unit_reward) * list string)
    (r : unit_reward) : option (table reward * gmap string (list unit_reward) * list string) :=
  let '(t, cache, updated) := st in
  if has_similar_reward cache r then Some st else
  match insert_entry bind_reward t r with
  | None => None
  | Some t =>
      match uid_of (t_uids t) (e_unit r) with
      | None => None
      | Some k =>
          let t := Table (t_uids t) (trim_unit_by_id q max_rewards k (t_rows t)) in
          Some (t, add_new_reward cache r, updated ++ [e_unit r])
      end
  end.
Fixpoint reward_loop (q : order reward) st (rs : list unit_reward) :=
  match rs with
  | [] => Some st
  | r :: rs => match reward_body q st r with Some st => reward_loop q st rs | None => None end
  end.

(** src/practice_rewards.rs:188-228 [record_unit_rewards_helper]. [fault = Some i]: an error
    after [i] rewards (in the next statement or in the commit). The transaction is rolled
    back, the cache is not. A NOT NULL error is a further [None] case, in which the cache is
    left as it was: the proofs show that it does not occur. *)
Definition record_unit_rewards (q : order reward) (fault : option nat) (s : reward_store) (rs : list unit_reward)
    : reward_store * option (list string) :=
  match fault with
  | None =>
      match reward_loop q (rs_table s, rs_cache s, []) rs with
      | Some (t, cache, updated) => (RewardStore t cache, Some updated)
      | None => (s, None)
      end
  | Some i =>
      match reward_loop q (rs_table s, rs_cache s, []) (take i rs) with
      | Some (_, cache, _) => (RewardStore (rs_table s) cache, None)
      | None => (s, None)
      end
  end.

Inductive reward_op :=
| RRecord (q : order reward) (fault : option nat) (rs : list unit_reward)
| RTrim (q : order reward) (stop : option nat) (n : nat)
| RRemovePrefix (stop : option nat) (p : string)
  (** The program is restarted: the cache starts empty. *)
| RReopen.
Definition reward_step (s : reward_store) (op : reward_op) : reward_store :=
  match op with
  | RRecord q fault rs => fst (record_unit_rewards q fault s rs)
  | RTrim q stop n => RewardStore (trim_entries_by_id q stop n (rs_table s)) (rs_cache s)
  | RRemovePrefix stop p => RewardStore (remove_prefix stop p (rs_table s)) (rs_cache s)
  | RReopen => RewardStore (rs_table s) ∅
  end.
Definition reward_run (ops : list reward_op) : reward_store := fold_left reward_step ops empty_reward_store.

(** The blacklist: src/blacklist.rs:38-44 [LocalBlacklist]. The table is the list of its rows
    in order of insertion. *)
Record blacklist := Blacklist { bl_rows : list string; bl_cache : gmap string bool }.

(** src/blacklist.rs:69-82 [new]: the cache is filled from the table. *)
Definition open_blacklist (rows : list string) : blacklist :=
  Blacklist rows (fold_left (λ c u, <[u := true]> c) rows ∅).
(** src/blacklist.rs:92-101 [has_entry]. *)
Definition has_entry (b : blacklist) (u : string) : blacklist * bool :=
  match bl_cache b !! u with
  | Some v => (b, v)
  | None => (Blacklist (bl_rows b) (<[u := false]> (bl_cache b)), false)
  end.
(** src/blacklist.rs:104-119 [add_to_blacklist_helper]. [fault]: the INSERT fails; it also
    fails if the row exists, since the column is UNIQUE. *)
Definition add_to_blacklist (fault : bool) (b : blacklist) (u : string) : blacklist * bool :=
  let '(b, has) := has_entry b u in
  if has then (b, true)
  else if fault || bool_decide (u ∈ bl_rows b) then (b, false)
  else (Blacklist (bl_rows b ++ [u]) (<[u := true]> (bl_cache b)), true).
(** src/blacklist.rs:122-131 [remove_from_blacklist_helper]. *)
Definition remove_from_blacklist (fault : bool) (b : blacklist) (u : string) : blacklist * bool :=
  if fault then (b, false)
  else (Blacklist (filter (λ x, x ≠ u) (bl_rows b)) (<[u := false]> (bl_cache b)), true).
(** src/blacklist.rs:134-155 [remove_prefix_from_blacklist_helper]. The query runs over the
    rows present at its start. [stop]: the statement fails after that many rows. *)
Definition remove_prefix_from_blacklist (stop : option nat) (b : blacklist) (p : string) : blacklist * bool :=
  let rows := filter (λ u, like_prefix p u = true) (bl_rows b) in
  let rows := match stop with None => rows | Some i => take i rows end in
  (fold_left (λ b u, Blacklist (filter (λ x, x ≠ u) (bl_rows b)) (<[u := false]> (bl_cache b))) rows b,
   match stop with None => true | Some _ => false end).
(** src/blacklist.rs:158-171 [all_blacklist_entries_helper]. *)
Definition get_blacklist_entries (b : blacklist) : list string := bl_rows b.

Inductive blacklist_op :=
| BAdd (fault : bool) (u : string)
| BRemove (fault : bool) (u : string)
| BRemovePrefix (stop : option nat) (p : string)
| BQuery (u : string)
  (** The program ends or crashes, and the blacklist is opened again. *)
| BReopen.
Definition blacklist_step (b : blacklist) (op : blacklist_op) : blacklist * bool :=
  match op with
  | BAdd fault u => add_to_blacklist fault b u
  | BRemove fault u => remove_from_blacklist fault b u
  | BRemovePrefix stop p => remove_prefix_from_blacklist stop b p
  | BQuery u => (fst (has_entry b u), true)
  | BReopen => (open_blacklist (bl_rows b), true)
  end.
Definition blacklist_run (ops : list blacklist_op) : blacklist :=
  fold_left (λ b op, fst (blacklist_step b op)) ops (open_blacklist []).

(** The review list: src/review_list.rs:71-104. *)
Inductive review_op := VAdd (u : string) | VRemove (u : string).
Definition review_step (rows : list string) (op : review_op) : list string :=
  match op with
  | VAdd u => if bool_decide (u ∈ rows) then rows else rows ++ [u]
  | VRemove u => filter (λ x, x ≠ u) rows
  end.
Definition review_run (ops : list review_op) : list string := fold_left review_step ops [].
