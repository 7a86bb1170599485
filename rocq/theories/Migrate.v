(** The five databases of a library as files: how opening a library creates their tables or brings
    those of an earlier release up to date. The statements are those of the repository; what they
    do is the documented behaviour of SQLite, and [to_latest] that of the crate rusqlite_migration
    (version 2.4.1 in Cargo.toml). *)
From stdpp Require Import gmap strings list.
Local Open Scope string_scope.
Local Open Scope list_scope.

(** A row is a list of values, each as text. A column is its name and the rest of its declaration. *)
Notation row := (list string) (only parsing).
Definition column : Type := string * string.
Record sql_table := SqlTable { columns : list column; rows : list row }.
(** Tables and indexes have different names in SQLite. The version is [PRAGMA user_version], 0 in a
    new file. *)
Record database := Database {
  d_version : nat;
  d_tables : gmap string sql_table;
  d_indexes : gmap string (string * list string) }.
Definition empty_database : database := Database 0 ∅ ∅.

Inductive statement :=
| CreateTable (name : string) (cols : list column)
| CreateIndex (name table : string) (cols : list string)
| DropIndex (name : string)
| DropTable (name : string).

(** A statement fails if what it creates is there or what it needs is not. *)
Definition taken (db : database) (name : string) : bool :=
  bool_decide (is_Some (d_tables db !! name)) || bool_decide (is_Some (d_indexes db !! name)).
Definition has_columns (db : database) (table : string) (cols : list string) : bool :=
  match d_tables db !! table with
  | Some t => forallb (λ c, bool_decide (c ∈ fst <$> columns t)) cols
  | None => false
  end.
Definition exec (db : database) (s : statement) : option database :=
  match s with
  | CreateTable name cols =>
      if taken db name then None
      else Some (Database (d_version db) (<[name := SqlTable cols []]> (d_tables db)) (d_indexes db))
  | CreateIndex name table cols =>
      if taken db name then None
      else if has_columns db table cols then
        Some (Database (d_version db) (d_tables db) (<[name := (table, cols)]> (d_indexes db)))
      else None
  | DropIndex name =>
      if bool_decide (is_Some (d_indexes db !! name)) then
        Some (Database (d_version db) (d_tables db) (delete name (d_indexes db)))
      else None
  | DropTable name =>
      if bool_decide (is_Some (d_tables db !! name)) then
        Some (Database (d_version db) (delete name (d_tables db)) (filter (λ i, i.2.1 ≠ name) (d_indexes db)))
      else None
  end.
Fixpoint exec_all (db : database) (l : list statement) : option database :=
  match l with
  | [] => Some db
  | s :: l => match exec db s with Some db => exec_all db l | None => None end
  end.
(** [Migrations::to_latest]: an error if the file has more migrations than are known, nothing to do
    if it has as many, else the missing ones and the new version in one transaction. [None]: an
    error, and the file is as it was. *)
Definition to_latest (ms : list statement) (db : database) : option database :=
  if Nat.ltb (length ms) (d_version db) then None
  else if Nat.eqb (length ms) (d_version db) then Some db
  else
    match exec_all db (drop (d_version db) ms) with
    | Some db => Some (Database (length ms) (d_tables db) (d_indexes db))
    | None => None
    end.

Inductive store := Trials | Deltas | Rewards | Blacklist | ReviewList.
Definition uids_columns : list column := [("unit_uid", "INTEGER PRIMARY KEY"); ("unit_id", "TEXT NOT NULL UNIQUE")].
(** src/practice_stats.rs:49-80, src/practice_deltas.rs:49-66, src/practice_rewards.rs:106-129,
    src/blacklist.rs:48-57 and src/review_list.rs:36-45. The steps back are never taken. *)
Definition migrations (k : store) : list statement :=
  match k with
  | Trials =>
      [CreateTable "uids" uids_columns;
       CreateTable "practice_stats" [("id", "INTEGER PRIMARY KEY"); ("unit_uid", "INTEGER NOT NULL REFERENCES uids(unit_uid)"); ("score", "REAL"); ("timestamp", "INTEGER")];
       CreateIndex "unit_ids" "uids" ["unit_id"];
       CreateIndex "unit_scores" "practice_stats" ["unit_uid"];
       DropIndex "unit_scores";
       CreateIndex "trials" "practice_stats" ["unit_uid"; "timestamp"]]
  | Deltas =>
      [CreateTable "uids" uids_columns;
       CreateTable "practice_deltas" [("id", "INTEGER PRIMARY KEY"); ("unit_uid", "INTEGER NOT NULL REFERENCES uids(unit_uid)"); ("delta", "REAL"); ("timestamp", "INTEGER")];
       CreateIndex "deltas_trials" "practice_deltas" ["unit_uid"; "timestamp"]]
  | Rewards =>
      [CreateTable "uids" uids_columns;
       CreateTable "practice_rewards" [("id", "INTEGER PRIMARY KEY"); ("unit_uid", "INTEGER NOT NULL REFERENCES uids(unit_uid)"); ("reward", "REAL"); ("weight", "REAL"); ("timestamp", "INTEGER")];
       CreateIndex "unit_ids" "uids" ["unit_id"];
       CreateIndex "rewards" "practice_rewards" ["unit_uid"; "timestamp"]]
  | Blacklist => [CreateTable "blacklist" [("unit_id", "TEXT NOT NULL UNIQUE")]; CreateIndex "unit_id_index" "blacklist" ["unit_id"]]
  | ReviewList => [CreateTable "review_list" [("unit_id", "TEXT NOT NULL UNIQUE")]; CreateIndex "unit_id_index" "review_list" ["unit_id"]]
  end.

(** The tables and columns that the statements of a store name: src/practice_stats.rs:111-198,
    src/practice_deltas.rs:95-174, src/practice_rewards.rs:163-260, src/blacklist.rs:113-161 and
    src/review_list.rs:76-94. *)
Definition named_by (k : store) : list (string * list string) :=
  match k with
  | Trials => [("uids", ["unit_uid"; "unit_id"]); ("practice_stats", ["unit_uid"; "score"; "timestamp"])]
  | Deltas => [("uids", ["unit_uid"; "unit_id"]); ("practice_deltas", ["unit_uid"; "delta"; "timestamp"])]
  | Rewards => [("uids", ["unit_uid"; "unit_id"]); ("practice_rewards", ["id"; "unit_uid"; "reward"; "weight"; "timestamp"])]
  | Blacklist => [("blacklist", ["unit_id"])]
  | ReviewList => [("review_list", ["unit_id"])]
  end.
Definition understood (k : store) (db : database) : bool := forallb (λ x, has_columns db x.1 x.2) (named_by k).

(** [new_from_disk] of the stores: the file, and whether it succeeds. That of the blacklist also reads
    all entries (src/blacklist.rs:68-82). *)
Definition open_store (k : store) (db : database) : database * bool :=
  match to_latest (migrations k) db with
  | None => (db, false)
  | Some db => (db, match k with Blacklist => understood Blacklist db | _ => true end)
  end.

Global Instance store_eq_dec : EqDecision store.
Proof. solve_decision. Defined.
(** The databases in [new_local_helper], in order and until one fails (src/lib.rs:250-264). *)
Definition put (k : store) (db : database) (dbs : store → database) : store → database :=
  λ k', if decide (k' = k) then db else dbs k'.
Fixpoint open_stores (l : list store) (dbs : store → database) : (store → database) * bool :=
  match l with
  | [] => (dbs, true)
  | k :: l =>
      let r := open_store k (dbs k) in
      if r.2 then open_stores l (put k r.1 dbs) else (put k r.1 dbs, false)
  end.
Definition in_turn : list store := [Trials; Deltas; Rewards; Blacklist; ReviewList].
Definition open_databases (dbs : store → database) : (store → database) * bool := open_stores in_turn dbs.
