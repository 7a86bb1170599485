(** C104: opening a library brings its databases up to date and keeps what is in them. The
    specification is in MigrateSpec.v. *)
From stdpp Require Import gmap strings list.
From Verif Require Import Migrate MigrateSpec MigrateProofs.
Local Open Scope string_scope.
Local Open Scope list_scope.

(** C104: a library whose databases are new, or were left behind by any earlier releases with any
    rows, opens. Then every database has the rows it had, the schema of a new one, and all tables and
    columns that the calls name. *)
Theorem C104_opens : ∀ dbs, left_behind dbs → ∃ dbs', open_databases dbs = (dbs', true) ∧
  ∀ k, rows_same (dbs k) (dbs' k) ∧ understood k (dbs' k) = true ∧ same_schema (open_store k empty_database).1 (dbs' k).
Proof. exact all_open. Qed.
Print Assumptions C104_opens.
(** C104: opening a database again changes nothing. *)
Theorem C104_again : ∀ k db db', open_store k db = (db', true) → open_store k db' = (db', true).
Proof. exact store_again. Qed.
Print Assumptions C104_again.
(** C104: whatever the files are, and wherever opening the library stops, no row is lost or
    added. Each database is changed in one transaction, so that an end of the program within it leaves
    the file as it was. *)
Theorem C104_keeps : ∀ dbs i k, rows_same (dbs k) ((open_stores (take i in_turn) dbs).1 k).
Proof. exact part_kept. Qed.
Print Assumptions C104_keeps.
(** C104: if the program ends between two databases, the next opening gives what the interrupted
    one would have given. *)
Theorem C104_resumes : ∀ dbs i, left_behind dbs → let mid := (open_stores (take i in_turn) dbs).1 in
  (∀ k, rows_same (dbs k) (mid k)) ∧ (open_databases mid).2 = true ∧ ∀ k, (open_databases mid).1 k = (open_databases dbs).1 k.
Proof. exact all_resume. Qed.
Print Assumptions C104_resumes.
(** C104: a database of a later release is refused and left as it is. *)
Theorem C104_newer : ∀ k db, length (migrations k) < d_version db → open_store k db = (db, false).
Proof. exact store_newer. Qed.
Print Assumptions C104_newer.
(** A file of the release that still had the old index of trials, with a trial in it. *)
Example C104_nonvacuous : ∃ a b, from_releases (migrations Trials) a ∧ d_version a = 4 ∧ is_Some (d_indexes a !! "unit_scores") ∧ d_indexes a !! "trials" = None ∧
  rows <$> d_tables a !! "practice_stats" = Some [["1"; "1"; "5"; "100"]] ∧
  open_store Trials a = (b, true) ∧ d_version b = 6 ∧ d_indexes b !! "unit_scores" = None ∧ is_Some (d_indexes b !! "trials").
Proof. exact old_example. Qed.

(** C104 in full would say that a database that opens can be used. It is false for a file of another
    kind: a blacklist in the place of the review list opens, and then every call about the review
    list fails, because only the number of migrations is compared. *)
Theorem C104_other_kind_refuted : ∃ db, from_releases (migrations Blacklist) db ∧
  (open_store ReviewList db).2 = true ∧ understood ReviewList (open_store ReviewList db).1 = false.
Proof. exact wrong_kind_opens. Qed.
Print Assumptions C104_other_kind_refuted.
