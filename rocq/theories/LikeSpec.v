(** Which units a removal by prefix reaches, for C15. Independent of the matching function. *)
From stdpp Require Import list strings.
From Verif Require Import Sql.
Local Open Scope string_scope.
Local Open Scope list_scope.

(** The letters of which SQLite ignores the case. *)
Definition alphabet : list (string * string) :=
  [("a","A"); ("b","B"); ("c","C"); ("d","D"); ("e","E"); ("f","F"); ("g","G"); ("h","H"); ("i","I"); ("j","J"); ("k","K"); ("l","L"); ("m","M");
   ("n","N"); ("o","O"); ("p","P"); ("q","Q"); ("r","R"); ("s","S"); ("t","T"); ("u","U"); ("v","V"); ("w","W"); ("x","X"); ("y","Y"); ("z","Z")].
Definition same_letter (x c : string) : Prop := x = c ∨ (x, c) ∈ alphabet ∨ (c, x) ∈ alphabet.
(** The characters of a text match those of a pattern: a percent sign stands for any text, an
    underscore for any character, all others for themselves in either case. *)
Inductive matches : list string → list string → Prop :=
  | matches_end : matches [] []
  | matches_any p some rest : matches p rest → matches ("%" :: p) (some ++ rest)
  | matches_one p c rest : matches p rest → matches ("_" :: p) (c :: rest)
  | matches_same x p c rest : x ≠ "%" → x ≠ "_" → same_letter x c → matches p rest → matches (x :: p) (c :: rest).
(** The beginning of the identifier matches the prefix. *)
Definition begins_like (prefix u : string) : Prop := ∃ start rest, chars u = start ++ rest ∧ matches (chars prefix) start.
