(** What the theorems about practice histories are stated with. *)
From stdpp Require Import gmap strings list.
From Verif Require Import F32 Graph UnitScorer.
From Verif Require Export Practice.

(** The calls that keep the caches right: all but the removal of a prefix from the blacklist,
    the removal of scores, and a score that is not stored although its delta is. *)
Definition keeps_caches (c : call) : Prop :=
  match c with
  | CScore f _ _ _ => f_score f = false
  | CUnbanPrefix _ | CRemoveScores _ => False
  | _ => True
  end.
(** The caches after asking for the scores of some units. *)
Definition after_asking (w : world) (asked : list (nat * uid)) (c : caches) : caches :=
  fold_left (λ c x, snd (unit_score w x.1 x.2 c)) asked c.
