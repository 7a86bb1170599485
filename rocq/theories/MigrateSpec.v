(** What the theorems about the files of the databases speak about (C104). *)
From stdpp Require Import gmap strings list.
From Verif Require Import Migrate.

(** The same tables with the same columns, the same indexes and the same version. *)
Definition same_schema (a b : database) : Prop :=
  d_version a = d_version b ∧ d_indexes a = d_indexes b ∧
  ∀ t, columns <$> d_tables a !! t = columns <$> d_tables b !! t.
(** Every row is still there. *)
Definition rows_kept (a b : database) : Prop :=
  ∀ t x, d_tables a !! t = Some x → ∃ y, d_tables b !! t = Some y ∧ columns y = columns x ∧ rows y = rows x.
(** And there is no other. *)
Definition rows_same (a b : database) : Prop :=
  rows_kept a b ∧ ∀ t y, d_tables b !! t = Some y → d_tables a !! t = None → rows y = [].

(** A file that earlier releases left behind. A release knows the first migrations of today; each
    one opens the file and then writes any rows. *)
Inductive from_releases (ms : list statement) : database → Prop :=
  | release_new : from_releases ms empty_database
  | release_opens n a b : from_releases ms a → to_latest (take n ms) a = Some b → from_releases ms b
  | release_writes a b : from_releases ms a → same_schema a b → from_releases ms b.
(** All five files of a library. *)
Definition left_behind (dbs : store → database) : Prop := ∀ k, from_releases (migrations k) (dbs k).
