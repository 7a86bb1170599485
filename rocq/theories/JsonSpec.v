(** Vocabulary for JSON texts. *)
From stdpp Require Import strings list.
From Coq Require Import ZArith Ascii.
From Verif Require Import Json.
Local Open Scope bool_scope.

(** How deep arrays and objects are nested. *)
Fixpoint depth (j : json) : nat :=
  match j with
  | JArray l => S (list_max (map depth l))
  | JObject l => S (list_max (map (λ x, depth x.2) l))
  | _ => 0
  end.
(** The text of a number that is not an integer of 64 bits. *)
Definition decimal_text (t : list ascii) : Prop := forallb number_char t = true ∧ read_number t = Some (JDec t).
(** Values that serde_json writes: integers have 64 bits. *)
Fixpoint json_ok (j : json) : Prop :=
  match j with
  | JInt z => (- 2 ^ 63 ≤ z < 2 ^ 64)%Z
  | JDec t => decimal_text t
  | JArray l => (fix go l := match l with [] => True | x :: l => json_ok x ∧ go l end) l
  | JObject l => (fix go l := match l with [] => True | x :: l => json_ok x.2 ∧ go l end) l
  | _ => True
  end.
