(** Vocabulary of C13 to C19: what a store should hold after a history of calls. *)
From stdpp Require Import gmap strings list sorting.
From Coq Require Import ZArith.
From Verif Require Import F32 Graph Sql Stores.

(** Only what SQLite promises about [ORDER BY timestamp DESC]. *)
Definition later_first {A} (a b : row A) : Prop := (r_ts b <= r_ts a)%Z.
Definition sorts_newest_first {A} (q : order A) : Prop :=
  ∀ l, q l ≡ₚ l ∧ StronglySorted later_first (q l).

(** A stored item: the value (NULL for NaN) and the timestamp. *)
Notation item A := (option A * Z)%type (only parsing).
Definition item_of {A} (e : entry A) : item A := (Some (e_val e), e_ts e).

(** Number of timestamps strictly after [ts]. *)
Definition newer (l : list Z) (ts : Z) : nat := length (filter (λ x, (ts < x)%Z) l).

(** [l] lists [n] most recent items of [es] (all if there are fewer), newest first. *)
Definition newest {A} (n : nat) (es l : list (item A)) : Prop :=
  ∃ rest, es ≡ₚ l ++ rest ∧ length l = min n (length es) ∧
    StronglySorted (λ a b, (b.2 <= a.2)%Z) l ∧ ∀ x y, x ∈ l → y ∈ rest → (y.2 <= x.2)%Z.

(** The effect of a call on the items held for each unit. A call that fails or is
    interrupted can leave a unit out, but never does anything else. *)
Definition effect {A} (bind : A → option A) (op : store_op A) (before after : string → list (item A)) : Prop :=
  match op with
  | SRecord fault es =>
      let new u := (λ x, (bind (e_val x), e_ts x)) <$> filter (λ x, e_unit x = u) es in
      ∀ u, after u ≡ₚ before u ++ if fault then [] else new u
  | STrim _ stop n =>
      ∀ u, after u ≡ₚ filter (λ x, newer (before u).*2 x.2 < n) (before u) ∨
           (stop ≠ None ∧ after u ≡ₚ before u)
  | SRemovePrefix stop p =>
      ∀ u, if like_prefix p u then after u ≡ₚ [] ∨ (stop ≠ None ∧ after u ≡ₚ before u)
           else after u ≡ₚ before u
  end.
Inductive holds_after {A} (bind : A → option A) : list (store_op A) → (string → list (item A)) → Prop :=
| holds_nil : holds_after bind [] (λ _, [])
| holds_snoc ops op before after : holds_after bind ops before → effect bind op before after →
    holds_after bind (ops ++ [op]) after.

(** Every sorting the calls rely on is right. *)
Definition op_ok {A} (op : store_op A) : Prop :=
  match op with STrim q _ _ => sorts_newest_first q | _ => True end.
(** No value recorded is stored as NULL. *)
Definition no_nulls {A} (bind : A → option A) (op : store_op A) : Prop :=
  match op with SRecord _ es => Forall (λ e, bind (e_val e) = Some (e_val e)) es | _ => True end.

(** [u] begins with [p]. Both are UTF-8 texts, so the rest does not begin in the middle of
    a character. *)
Definition begins_with (p u : string) : Prop := ∃ rest, u = p +:+ rest ∧ starts_cont rest = false.
(** The same up to the case of ASCII letters. *)
Fixpoint lower_case (s : string) : string :=
  match s with EmptyString => EmptyString | String a s => String (lower a) (lower_case s) end.
Definition begins_with_nocase (p u : string) : Prop :=
  ∃ q rest, u = q +:+ rest ∧ lower_case q = lower_case p.
(** Without the wildcards of [LIKE]. *)
Definition plain (p : string) : Prop := "%" ∉ chars p ∧ "_" ∉ chars p.

(** Rewards: the newest [n] of [ws], in any order. *)
Definition keeps_newest {A} (n : nat) (es l : list (item A)) : Prop := ∃ l', l ≡ₚ l' ∧ newest n es l'.
Definition reward_item (r : unit_reward) : item reward := (bind_reward (e_val r), e_ts r).
Definition of_unit (u : string) (rs : list unit_reward) : list (item reward) :=
  reward_item <$> filter (λ r, e_unit r = u) rs.

(** Two rewards the store may treat as the same: equal values, weights closer than 0.1, less
    than a day apart. *)
Definition similar (a b : item reward) : Prop :=
  ∃ va wa vb wb, a.1 = Some (va, wa) ∧ b.1 = Some (vb, wb) ∧
    feq va vb = true ∧ flt (fabs (fsub wa wb)) f_0_1 = true ∧ (Z.abs (a.2 - b.2) < 86400)%Z.

(** What a reward store holds for a unit: everything [get_rewards] can return. *)
Definition stored {A} (t : table A) (u : string) : list (item A) :=
  match uid_of (t_uids t) u with
  | None => []
  | Some k => (λ r, (r_val r, r_ts r)) <$> filter (λ r, r_uid r = k) (t_rows t)
  end.

Definition reward_op_ok (op : reward_op) : Prop :=
  match op with
  | RRecord q _ _ | RTrim q _ _ => sorts_newest_first q
  | _ => True
  end.

(** Review list: call number [i] put [u] in the list, where it has been since. *)
Definition added_at (ops : list review_op) (u : string) (i : nat) : Prop :=
  ops !! i = Some (VAdd u) ∧
  (∀ j, i < j → ops !! j ≠ Some (VRemove u)) ∧
  (∀ j, j < i → ops !! j = Some (VAdd u) → ∃ k, j < k < i ∧ ops !! k = Some (VRemove u)).

(** Histories of the reward store made of recordings only, none of them interrupted, in
    order of time for each unit. *)
Definition only_records (op : reward_op) : Prop :=
  match op with RRecord q _ _ => sorts_newest_first q | RReopen => True | _ => False end.
Definition op_rewards (op : reward_op) : list unit_reward := match op with RRecord _ _ rs => rs | _ => [] end.
Definition in_order (rs : list unit_reward) : Prop :=
  ∀ i j a b, i < j → rs !! i = Some a → rs !! j = Some b → e_unit a = e_unit b → (e_ts a < e_ts b)%Z.
Definition never_fails (op : reward_op) : Prop :=
  match op with RRecord _ (Some _) _ => False | _ => True end.

(** The effect of a call on the units in the blacklist. *)
Definition bl_effect (op : blacklist_op) (before after : list string) : Prop :=
  match op with
  | BAdd fault u => if fault then after = before else ∀ x, x ∈ after ↔ x ∈ before ∨ x = u
  | BRemove fault u => if fault then after = before else ∀ x, x ∈ after ↔ x ∈ before ∧ x ≠ u
  | BRemovePrefix None p => ∀ x, x ∈ after ↔ x ∈ before ∧ like_prefix p x = false
  | BRemovePrefix (Some _) p =>
      (∀ x, x ∈ after → x ∈ before) ∧ (∀ x, x ∈ before → like_prefix p x = false → x ∈ after)
  | BQuery _ | BReopen => after = before
  end.
Definition bl_faultless (op : blacklist_op) : bool :=
  match op with BAdd f _ | BRemove f _ => negb f | BRemovePrefix s _ => bool_decide (s = None) | _ => true end.
