(** What serde_json writes it reads again, unless it is nested too deep. *)
From stdpp Require Import strings list.
From Coq Require Import ZArith Ascii DecimalString DecimalFacts DecimalN Lia.
From Verif Require Import Json JsonSpec.
Local Open Scope bool_scope.
Local Open Scope char_scope.
Local Open Scope list_scope.

Lemma json_rec' (P : json → Prop) : P JNull → (∀ b, P (JBool b)) → (∀ z, P (JInt z)) → (∀ t, P (JDec t)) → (∀ s, P (JString s)) →
  (∀ l, Forall P l → P (JArray l)) → (∀ l, Forall (λ x, P x.2) l → P (JObject l)) → ∀ j, P j.
Proof.
  intros H1 H2 H3 H4 H5 H6 H7. fix IH 1. intros [|b|z|t|s|l|l]; [done..| |].
  - apply H6. induction l as [|x l IHl]; constructor; [apply IH|apply IHl].
  - apply H7. induction l as [|[k x] l IHl]; constructor; [apply IH|apply IHl].
Qed.
Lemma ok_array l : json_ok (JArray l) ↔ Forall json_ok l.
Proof. induction l as [|x l IH]; cbn; [done|]. rewrite Forall_cons. cbn in IH. by rewrite IH. Qed.
Lemma ok_object l : json_ok (JObject l) ↔ Forall (λ x, json_ok x.2) l.
Proof. induction l as [|x l IH]; cbn; [done|]. rewrite Forall_cons. cbn in IH. by rewrite IH. Qed.
Definition depths (d : nat) (l : list json) : bool := forallb (λ x, (depth x <? d)%nat) l.
Lemma max_below {A} (f : A → nat) d l : (list_max (map f l) <? d)%nat = (0 <? d)%nat && forallb (λ x, (f x <? d)%nat) l.
Proof.
  apply eq_true_iff_eq. rewrite andb_true_iff, forallb_forall, !Nat.ltb_lt. induction l as [|x l IH]; cbn.
  - split; [|tauto]. intros H. split; [done|]. by intros x [].
  - rewrite Nat.max_lub_lt_iff, IH. split.
    + intros (H1 & H2 & H3). split; [done|]. intros y [->|Hy]; [by apply Nat.ltb_lt|]. by apply H3.
    + intros (H1 & H2). split; [apply Nat.ltb_lt, H2; by left|]. split; [done|]. intros y Hy. apply H2. by right.
Qed.
Lemma depth_array l d : (depth (JArray l) <? S (S d))%nat = depths (S d) l.
Proof. change (depth (JArray l) <? S (S d))%nat with (list_max (map depth l) <? S d)%nat. by rewrite max_below. Qed.
Lemma depth_object l d : (depth (JObject l) <? S (S d))%nat = depths (S d) l.*2.
Proof.
  change (depth (JObject l) <? S (S d))%nat with (list_max (map (λ x, depth x.2) l) <? S d)%nat. rewrite max_below. cbn. unfold depths.
  induction l as [|x l IH]; [done|]. cbn. by rewrite IH.
Qed.

(** ** Strings *)
Lemma read_escape c s : read_chars (escape c ++ s) = put [c] (read_chars s).
Proof. destruct c as [[] [] [] [] [] [] [] []]; reflexivity. Qed.
Lemma read_string s rest : read_chars (mjoin (escape <$> s) ++ quote :: rest) = Some (s, rest).
Proof. induction s as [|c s IH]; [done|]. rewrite fmap_cons. change (mjoin (escape c :: (escape <$> s))) with (escape c ++ mjoin (escape <$> s)). by rewrite <- app_assoc, read_escape, IH. Qed.
Lemma read_write_string s rest : read_chars (tail (write_string s) ++ rest) = Some (list_ascii_of_string s, rest).
Proof. unfold write_string. cbn [tail]. rewrite <- app_assoc. apply read_string. Qed.

(** ** Numbers *)
Lemma span_all p s : forallb p s = true → span p s = (s, []).
Proof. induction s as [|c s IH]; cbn; [done|]. intros [-> H]%andb_true_iff. by rewrite IH. Qed.
Lemma span_app p s rest : forallb p s = true → match rest with [] => True | c :: _ => p c = false end → span p (s ++ rest) = (s, rest).
Proof.
  intros H Hr. induction s as [|c s IH]; cbn in *; [|apply andb_true_iff in H as [-> H]; by rewrite IH].
  destruct rest as [|c r]; [done|]. cbn. by rewrite Hr.
Qed.
Lemma digits_uint u : forallb is_digit (list_ascii_of_string (NilEmpty.string_of_uint u)) = true.
Proof. induction u; cbn; auto. Qed.
Lemma digits_nat n : forallb is_digit (write_nat n) = true.
Proof. apply digits_uint. Qed.
Lemma read_write_nat n : read_nat (write_nat n) = Some n.
Proof.
  unfold read_nat, write_nat. pose proof (DecimalN.Unsigned.of_to n) as Hn.
  assert (Hnz : Decimal.unorm (N.to_uint n) = N.to_uint n) by (by rewrite <- DecimalN.Unsigned.to_of, Hn).
  assert (Hr : NilEmpty.uint_of_string (string_of_list_ascii (list_ascii_of_string (NilEmpty.string_of_uint (N.to_uint n)))) = Some (N.to_uint n)).
  { rewrite string_of_list_ascii_of_string. apply NilEmpty.usu. }
  destruct (N.to_uint n) as [|u|u|u|u|u|u|u|u|u|u] eqn:E; try (cbn in Hnz; discriminate Hnz).
  2-10: cbn [NilEmpty.string_of_uint list_ascii_of_string] in *; rewrite Hr; cbn [mbind option_bind]; by rewrite Hn.
  assert (u = Decimal.Nil) as ->.
  { unfold Decimal.unorm in Hnz. cbn in Hnz. destruct (Decimal.nzhead u) eqn:Z; try discriminate Hnz; [by injection Hnz|].
    exfalso. by apply (DecimalFacts.nzhead_nonzero u u0). }
  cbn. by rewrite <- Hn.
Qed.
Lemma write_nat_nonempty n : write_nat n ≠ [].
Proof. intros E. pose proof (read_write_nat n) as H. by rewrite E in H. Qed.
Lemma number_digit c : is_digit c = true → number_char c = true.
Proof. intros H. unfold number_char. by rewrite H. Qed.
Lemma digits_number s : forallb is_digit s = true → forallb number_char s = true.
Proof. rewrite !forallb_forall. intros H x Hx. by apply number_digit, H. Qed.
Lemma write_int_number z : forallb number_char (write_int z) = true.
Proof. unfold write_int. destruct (z <? 0)%Z; cbn; apply digits_number, digits_nat. Qed.
Lemma unsigned c s : c ≠ "-" → read_number (c :: s) =
  (let '(a, b) := span is_digit (c :: s) in
   n ← read_nat a;
   match b with [] => Some (if fits (Z.of_N n) && true then JInt (Z.of_N n) else JDec (c :: s)) | _ => if decimal_tail b then Some (JDec (c :: s)) else None end).
Proof. intros H. destruct c as [[] [] [] [] [] [] [] []]; try reflexivity. by destruct H. Qed.
Lemma read_write_int z : (- 2 ^ 63 ≤ z < 2 ^ 64)%Z → read_number (write_int z) = Some (JInt z).
Proof.
  intros Hz. assert (Hf : fits z = true) by (unfold fits; apply andb_true_iff; split; [apply Z.leb_le|apply Z.ltb_lt]; lia).
  unfold write_int. destruct (z <? 0)%Z eqn:E.
  - apply Z.ltb_lt in E. unfold read_number. rewrite (span_all _ _ (digits_nat _)), read_write_nat. cbn [mbind option_bind].
    replace (- Z.of_N (Z.abs_N z))%Z with z by lia. rewrite Hf. replace (Z.abs_N z =? 0)%N with false; [done|]. symmetry. apply N.eqb_neq. lia.
  - apply Z.ltb_ge in E. pose proof (digits_nat (Z.abs_N z)) as D. pose proof (read_write_nat (Z.abs_N z)) as R. pose proof (write_nat_nonempty (Z.abs_N z)) as Nn.
    destruct (write_nat (Z.abs_N z)) as [|c s] eqn:W; [done|]. rewrite <- W in *.
    assert (Hc : c ≠ "-") by (intros ->; rewrite W in D; discriminate D).
    rewrite W, unsigned by done. rewrite <- W, (span_all _ _ D), R. cbn [mbind option_bind]. replace (Z.of_N (Z.abs_N z)) with z by lia. by rewrite Hf.
Qed.
Lemma write_int_head z : ∃ c s, write_int z = c :: s ∧ (is_digit c || Ascii.eqb c "-") = true.
Proof.
  unfold write_int. destruct (z <? 0)%Z; [by eexists _, _|]. pose proof (digits_nat (Z.abs_N z)) as D. pose proof (write_nat_nonempty (Z.abs_N z)) as Nn.
  destruct (write_nat _) as [|c s]; [done|]. exists c, s. split; [done|]. cbn in D. apply andb_true_iff in D as [-> _]. done.
Qed.
Lemma decimal_head t : decimal_text t → ∃ c s, t = c :: s ∧ (is_digit c || Ascii.eqb c "-") = true.
Proof.
  intros [_ H]. destruct t as [|c s]; [done|]. exists c, s. split; [done|]. destruct (is_digit c) eqn:E; [done|]. cbn.
  destruct (Ascii.eqb_spec c "-") as [|Hc]; [done|]. exfalso.
  rewrite unsigned in H by done. cbn [span] in H. rewrite E in H. done.
Qed.
(** What begins a number is neither a quote nor a bracket nor a space. *)
Lemma number_begins c : (is_digit c || Ascii.eqb c "-") = true →
  is_space c = false ∧ Ascii.eqb c quote = false ∧ Ascii.eqb c "[" = false ∧ Ascii.eqb c "{" = false.
Proof. destruct c as [[] [] [] [] [] [] [] []]; vm_compute; intros; repeat split; congruence. Qed.

(** ** Spaces *)
Definition spaces (s : list ascii) : Prop := forallb is_space s = true.
Lemma skip_spaces s r : spaces s → skip (s ++ r) = skip r.
Proof. unfold spaces. induction s as [|c s IH]; cbn; [done|]. intros [-> H]%andb_true_iff. by apply IH. Qed.
Lemma gap_spaces p n : spaces (gap p n).
Proof. destruct p; [|done]. unfold spaces. cbn. induction (n + (n + 0)) as [|m IH]; [done|]. cbn. done. Qed.

(** ** Values *)
Fixpoint write_elements (pretty : bool) (n : nat) (l : list json) : list ascii :=
  match l with [] => gap pretty n ++ ["]"] | y :: l => "," :: gap pretty (S n) ++ write pretty (S n) y ++ write_elements pretty n l end.
Fixpoint write_fields (pretty : bool) (n : nat) (l : list (string * json)) : list ascii :=
  match l with
  | [] => gap pretty n ++ ["}"]
  | (k, y) :: l => "," :: gap pretty (S n) ++ write_string k ++ after_key pretty ++ write pretty (S n) y ++ write_fields pretty n l
  end.
Lemma write_array p n x l : write p n (JArray (x :: l)) = "[" :: gap p (S n) ++ write p (S n) x ++ write_elements p n l.
Proof. cbn [write]. do 3 f_equal. induction l as [|y l IH]; [done|]. cbn [write_elements]. by rewrite <- IH. Qed.
Lemma write_object p n k x l : write p n (JObject ((k, x) :: l)) = "{" :: gap p (S n) ++ write_string k ++ after_key p ++ write p (S n) x ++ write_fields p n l.
Proof. cbn [write]. do 5 f_equal. induction l as [|[k' y] l IH]; [done|]. cbn [write_fields]. by rewrite <- IH. Qed.
Definition ends (rest : list ascii) : Prop := match rest with [] => True | c :: _ => number_char c = false end.
Lemma spaces_ends s r : spaces s → ends r → ends (s ++ r).
Proof. intros H Hr. destruct s as [|c s]; [done|]. unfold spaces in H. cbn in *. apply andb_true_iff in H as [H _]. destruct c as [[] [] [] [] [] [] [] []]; done. Qed.
Lemma elements_end p n l rest : ends (write_elements p n l ++ rest).
Proof. destruct l as [|y l]; [|done]. cbn. rewrite <- app_assoc. by apply spaces_ends; [apply gap_spaces|]. Qed.
Lemma fields_end p n l rest : ends (write_fields p n l ++ rest).
Proof. destruct l as [|[k y] l]; [|done]. cbn. rewrite <- app_assoc. by apply spaces_ends; [apply gap_spaces|]. Qed.

Definition result {A : Type} (r : parsed A) (ok : bool) (a : A) (rest : list ascii) : Prop := r = NoFuel ∨ r = if ok then Parsed a rest else Malformed.
Definition reads (j : json) : Prop := ∀ p n fuel d ws rest, spaces ws → ends rest →
  result (read_value fuel (S d) (ws ++ write p n j ++ rest)) (depth j <? S d)%nat j rest.

(** The first character of a value is no space. *)
Lemma skip_word w r : match w with c :: _ => is_space c = false | [] => False end → skip (w ++ r) = w ++ r.
Proof. destruct w as [|c w]; [done|]. cbn. by intros ->. Qed.
Lemma write_begins j p n : json_ok j → ∃ c s, write p n j = c :: s ∧ is_space c = false ∧ c ≠ "]" ∧ c ≠ "}".
Proof.
  intros H. destruct j as [|[]|z|t|s|[|x l]|[|[k x] l]]; cbn [write]; try (eexists _, _; split; [reflexivity|]; done).
  - destruct (write_int_head z) as (c & s & -> & Hc). exists c, s. split; [done|]. split; [by apply number_begins|]. destruct c as [[] [] [] [] [] [] [] []]; done.
  - destruct (decimal_head t H) as (c & s & -> & Hc). exists c, s. split; [done|]. split; [by apply number_begins|]. destruct c as [[] [] [] [] [] [] [] []]; done.
Qed.
Lemma elements_read fuel p n d l rest x ws : Forall reads (x :: l) → spaces ws →
  result (read_elements fuel (S d) (ws ++ write p (S n) x ++ write_elements p n l ++ rest)) (depths (S d) (x :: l)) (x :: l) rest.
Proof.
  revert fuel x ws. induction l as [|y l IH]; intros fuel x ws Hl Hw; (destruct fuel as [|fuel]; [by left|]); cbn [read_elements];
    apply Forall_cons in Hl as [Hx Hl].
  - destruct (Hx p (S n) fuel d ws (write_elements p n [] ++ rest) Hw (elements_end p n [] rest)) as [->| ->]; [by left|].
    unfold depths. cbn [forallb]. rewrite andb_true_r. destruct (depth x <? S d)%nat; [|by right]. right.
    cbn [write_elements]. rewrite <- app_assoc, skip_spaces by apply gap_spaces. done.
  - destruct (Hx p (S n) fuel d ws (write_elements p n (y :: l) ++ rest) Hw (elements_end p n (y :: l) rest)) as [->| ->]; [by left|].
    unfold depths. cbn [forallb]. destruct (depth x <? S d)%nat; [|by right].
    cbn [write_elements]. rewrite <- app_comm_cons, <- !app_assoc. cbn [skip is_space Ascii.eqb]. 
    change (is_space ",") with false. cbn iota. change (Ascii.eqb "," ",") with true. cbn iota.
    destruct (IH fuel y (gap p (S n)) Hl (gap_spaces _ _)) as [->| ->]; [by left|]. right. cbn [andb]. unfold depths. cbn [forallb].
    by destruct ((depth y <? S d)%nat && _).
Qed.
Lemma fields_read fuel p n d l rest k x ws : Forall (λ x, reads x.2) ((k, x) :: l) → spaces ws →
  result (read_fields fuel (S d) (ws ++ write_string k ++ after_key p ++ write p (S n) x ++ write_fields p n l ++ rest)) (depths (S d) ((k, x) :: l).*2) ((k, x) :: l) rest.
Proof.
  revert fuel k x ws. induction l as [|[k' y] l IH]; intros fuel k x ws Hl Hw; (destruct fuel as [|fuel]; [by left|]); cbn [read_fields];
    apply Forall_cons in Hl as [Hx Hl]; cbn [snd] in Hx.
  all: rewrite (skip_spaces ws) by done; cbn [write_string app skip]; change (is_space quote) with false; cbn iota; change (Ascii.eqb quote quote) with true; cbn iota.
  all: rewrite <- (app_assoc _ [quote]); cbn [app]; rewrite read_string.
  all: assert (Ek : ∀ r, skip (after_key p ++ r) = ":" :: (if p then [" "] else []) ++ r) by (intros r; by destruct p); rewrite Ek.
  all: change (Ascii.eqb ":" ":") with true; cbn iota; rewrite string_of_list_ascii_of_string.
  - destruct (Hx p (S n) fuel d (if p then [" "] else []) (write_fields p n [] ++ rest)) as [->| ->]; [by destruct p|apply fields_end|by left|].
    unfold depths. cbn [fmap list_fmap forallb snd]. rewrite andb_true_r. destruct (depth x <? S d)%nat; [|by right]. right.
    cbn [write_fields]. rewrite <- app_assoc, skip_spaces by apply gap_spaces. done.
  - destruct (Hx p (S n) fuel d (if p then [" "] else []) (write_fields p n ((k', y) :: l) ++ rest)) as [->| ->]; [by destruct p|apply (fields_end p n ((k', y) :: l))|by left|].
    unfold depths. cbn [fmap list_fmap forallb snd]. destruct (depth x <? S d)%nat; [|by right].
    cbn [write_fields]. rewrite <- app_comm_cons, <- !app_assoc. cbn [skip]. change (is_space ",") with false. cbn iota. change (Ascii.eqb "," ",") with true. cbn iota.
    destruct (IH fuel k' y (gap p (S n)) Hl (gap_spaces _ _)) as [->| ->]; [by left|]. right. cbn [andb]. unfold depths. cbn [fmap list_fmap forallb snd].
    by destruct ((depth y <? S d)%nat && _).
Qed.
Lemma number_reads j t : (∀ p n, write p n j = t) → forallb number_char t = true → read_number t = Some j → depth j = 0 →
  (∃ c s, t = c :: s ∧ (is_digit c || Ascii.eqb c "-") = true) → reads j.
Proof.
  intros Hw Hn Hr Hd (c & s & E & Hc) p n fuel d ws rest Hs He. rewrite Hw, Hd. destruct fuel as [|fuel]; [by left|]. right. cbn [read_value].
  rewrite skip_spaces by done. destruct (number_begins c Hc) as (B1 & B2 & B3 & B4). rewrite E. cbn [app skip]. rewrite B1, B2, B3, B4, Hc.
  rewrite app_comm_cons, <- E, (span_app _ _ _ Hn) by done. by rewrite Hr.
Qed.
Lemma all_read j : json_ok j → reads j.
Proof.
  induction j as [|b|z|t|s|l IH|l IH] using json_rec'; intros Hok.
  - intros p n fuel d ws rest Hw He. destruct fuel as [|fuel]; [by left|]. right. cbn [read_value]. rewrite skip_spaces by done. reflexivity.
  - intros p n fuel d ws rest Hw He. destruct fuel as [|fuel]; [by left|]. right. cbn [read_value]. rewrite skip_spaces by done. by destruct b.
  - apply (number_reads _ (write_int z)); [done|apply write_int_number|by apply read_write_int|done|apply write_int_head].
  - destruct Hok as [H1 H2] eqn:E. clear E. apply (number_reads _ t); [done..|by apply decimal_head].
  - intros p n fuel d ws rest Hw He. destruct fuel as [|fuel]; [by left|]. right. cbn [read_value write]. rewrite skip_spaces by done.
    cbn [write_string app skip]. change (is_space quote) with false. cbn iota. change (Ascii.eqb quote quote) with true. cbn iota.
    rewrite <- (app_assoc _ [quote]). cbn [app]. rewrite read_string. by rewrite string_of_list_ascii_of_string.
  - apply ok_array in Hok. intros p n fuel d ws rest Hw He. destruct fuel as [|fuel]; [by left|]. cbn [read_value]. rewrite skip_spaces by done.
    destruct l as [|x l]; [right; by destruct d|]. rewrite write_array.
    assert (Hl : Forall reads (x :: l)).
    { rewrite Forall_forall in IH, Hok |- *. intros y Hy. by apply IH, Hok. }
    rewrite <- app_comm_cons, <- !app_assoc. cbn [skip]. change (is_space "[") with false. cbn iota.
    change (Ascii.eqb "[" quote) with false. change (Ascii.eqb "[" "[") with true. cbn iota.
    destruct d as [|d]; [by right|]. rewrite depth_array.
    rewrite (skip_spaces (gap p (S n))) by apply gap_spaces. apply Forall_cons in Hok as [Hx _].
    destruct (write_begins x p (S n) Hx) as (c & s & Ec & Sc & N1 & _).
    replace (skip (write p (S n) x ++ write_elements p n l ++ rest)) with (c :: s ++ write_elements p n l ++ rest) by (rewrite Ec; cbn; by rewrite Sc).
    replace (match c :: s ++ write_elements p n l ++ rest with "]" :: r => Parsed (JArray []) r | _ => match read_elements fuel (S d) (gap p (S n) ++ write p (S n) x ++ write_elements p n l ++ rest) with Parsed l0 r => Parsed (JArray l0) r | Malformed => Malformed | NoFuel => NoFuel end end)
      with (match read_elements fuel (S d) (gap p (S n) ++ write p (S n) x ++ write_elements p n l ++ rest) with Parsed l0 r => Parsed (JArray l0) r | Malformed => Malformed | NoFuel => NoFuel end).
    2:{ clear - N1. destruct c as [[] [] [] [] [] [] [] []]; done. }
    destruct (elements_read fuel p n d l rest x (gap p (S n)) Hl (gap_spaces _ _)) as [->| ->]; [by left|]. right. by destruct (depths (S d) (x :: l)).
  - apply ok_object in Hok. intros p n fuel d ws rest Hw He. destruct fuel as [|fuel]; [by left|]. cbn [read_value]. rewrite skip_spaces by done.
    destruct l as [|[k x] l]; [right; by destruct d|]. rewrite write_object.
    assert (Hl : Forall (λ x, reads x.2) ((k, x) :: l)).
    { rewrite Forall_forall in IH, Hok |- *. intros y Hy. by apply IH, Hok. }
    rewrite <- app_comm_cons, <- !app_assoc. cbn [skip]. change (is_space "{") with false. cbn iota.
    change (Ascii.eqb "{" quote) with false. change (Ascii.eqb "{" "[") with false. change (Ascii.eqb "{" "{") with true. cbn iota.
    destruct d as [|d]; [by right|]. rewrite depth_object.
    rewrite (skip_spaces (gap p (S n))) by apply gap_spaces.
    destruct (fields_read fuel p n d l rest k x (gap p (S n)) Hl (gap_spaces _ _)) as [E|E]; [left|right]; cbn [write_string app] in E |- *; cbn [skip]; change (is_space quote) with false; cbn iota.
    + change (match quote :: ?s with "}" :: r => Parsed (JObject []) r | _ => ?m end) with m. by rewrite E.
    + change (match quote :: ?s with "}" :: r => Parsed (JObject []) r | _ => ?m end) with m. rewrite E. by destruct (depths (S d) _).
Qed.

(** ** Fuel *)
Lemma skip_length s : length (skip s) ≤ length s.
Proof. induction s as [|c s IH]; cbn; [done|]. destruct (is_space c); cbn; lia. Qed.
Lemma put_some x r a b : put x r = Some (a, b) → ∃ a', r = Some (a', b).
Proof. unfold put. destruct r as [[a' b']|]; [|done]. cbn. intros [= _ <-]. by exists a'. Qed.
Lemma chars_length s x r : read_chars s = Some (x, r) → length r < length s.
Proof.
  remember (length s) as n eqn:E. revert s x r E. induction n as [n IH] using lt_wf_ind. intros s x r -> H.
  assert (G : ∀ s', length s' < length s → ∀ y, put y (read_chars s') = Some (x, r) → length r < length s).
  { intros s' Hl y Hp. apply put_some in Hp as [a Hp]. specialize (IH _ Hl s' a r eq_refl Hp). lia. }
  destruct s as [|c s]; [done|]. cbn [read_chars] in H. destruct (Ascii.eqb c quote). { simplify_eq. cbn. lia. }
  destruct (Ascii.eqb c backslash).
  - destruct s as [|e s]; [done|]. destruct (short_escape e); [eapply G; [|exact H]; cbn; lia|].
    destruct (Ascii.eqb e "u"); [|done]. destruct s as [|h1 [|h2 [|h3 [|h4 s]]]]; try done. destruct (hex4 h1 h2 h3 h4) as [n|]; [|done].
    destruct (_ && _).
    + destruct s as [|b [|u [|g1 [|g2 [|g3 [|g4 s]]]]]]; try done. destruct (_ && _); [|done]. destruct (hex4 g1 g2 g3 g4) as [m|]; [|done].
      destruct (_ && _); [|done]. eapply G; [|exact H]. cbn. lia.
    + destruct (_ && _); [done|]. eapply G; [|exact H]. cbn. lia.
  - destruct (N_of_ascii c <? 32)%N; [done|]. eapply G; [|exact H]. cbn. lia.
Qed.
Lemma span_length p s a b : span p s = (a, b) → length a + length b = length s.
Proof.
  revert a b. induction s as [|c s IH]; cbn; intros a b; [intros [= <- <-]; done|]. destruct (p c).
  - destruct (span p s) as [a' b'] eqn:E. intros [= <- <-]. cbn. by rewrite (IH _ _ eq_refl).
  - intros [= <- <-]. done.
Qed.
Lemma keyword_length s j r : keyword s = Parsed j r → length r < length s.
Proof.
  assert (W : ∀ w s r, w ≠ [] → starts_with w s = Some r → length r < length s).
  { intros w s' r' Hw. unfold starts_with. destruct (decide _) as [E|]; [|done]. intros [= <-]. rewrite drop_length.
    assert (0 < length w ≤ length s'); [|lia]. split; [by destruct w; [|cbn; lia]|]. apply (f_equal length) in E. rewrite take_length in E. lia. }
  unfold keyword. destruct (starts_with ["n"; _; _; _] s) as [x|] eqn:E1; [intros H; injection H as H1 H2; rewrite <- H2; eapply W; [|exact E1]; done|].
  destruct (starts_with ["t"; _; _; _] s) as [x|] eqn:E2; [intros H; injection H as H1 H2; rewrite <- H2; eapply W; [|exact E2]; done|].
  destruct (starts_with ["f"; _; _; _; _] s) as [x|] eqn:E3; [intros H; injection H as H1 H2; rewrite <- H2; eapply W; [|exact E3]; done|done].
Qed.
Lemma keyword_fuel s : keyword s ≠ NoFuel.
Proof. unfold keyword. by repeat destruct (starts_with _ _). Qed.
Definition consumes {A : Type} (extra : nat) (s : list ascii) (r : parsed A) : Prop :=
  match r with Parsed _ rest => length rest + extra ≤ length s | Malformed => True | NoFuel => False end.
Lemma fuel_enough fuel :
  (∀ d s, 2 * length s < fuel → consumes 1 s (read_value fuel d s)) ∧
  (∀ d s, 2 * length s + 1 < fuel → consumes 1 s (read_elements fuel d s)) ∧
  (∀ d s, 2 * length s + 1 < fuel → consumes 1 s (read_fields fuel d s)).
Proof.
  induction fuel as [|fuel (IV & IE & IF)]; [split; [|split]; intros; lia|].
  split; [|split]; intros d s Hf.
  - cbn [read_value]. pose proof (skip_length s) as Ls. destruct (skip s) as [|c r]; [done|]. cbn [length] in Ls.
    destruct (Ascii.eqb c quote).
    { destruct (read_chars r) as [[x r']|] eqn:E; [|done]. apply chars_length in E. cbn. lia. }
    destruct (Ascii.eqb c "[").
    { destruct d as [|[|d]]; [done..|]. specialize (IE (S d) r ltac:(lia)). pose proof (skip_length r) as Lr.
      assert (G : consumes 1 s (match read_elements fuel (S d) r with Parsed l r => Parsed (JArray l) r | Malformed => Malformed | NoFuel => NoFuel end)).
      { destruct (read_elements fuel (S d) r); [cbn in *; lia|done|done]. }
      destruct (skip r) as [|c' r']; [exact G|]. cbn [length] in Lr.
      destruct c' as [[] [] [] [] [] [] [] []]; try exact G. cbn. lia. }
    destruct (Ascii.eqb c "{").
    { destruct d as [|[|d]]; [done..|]. specialize (IF (S d) r ltac:(lia)). pose proof (skip_length r) as Lr.
      assert (G : consumes 1 s (match read_fields fuel (S d) r with Parsed l r => Parsed (JObject l) r | Malformed => Malformed | NoFuel => NoFuel end)).
      { destruct (read_fields fuel (S d) r); [cbn in *; lia|done|done]. }
      destruct (skip r) as [|c' r']; [exact G|]. cbn [length] in Lr.
      destruct c' as [[] [] [] [] [] [] [] []]; try exact G. cbn. lia. }
    destruct (is_digit c || Ascii.eqb c "-").
    { destruct (span number_char (c :: r)) as [t r'] eqn:E. destruct (read_number t) as [j|] eqn:En; [|done].
      apply span_length in E. cbn [length] in E. destruct t as [|c' t]; [done|]. cbn [length] in E. cbn. lia. }
    destruct (keyword (c :: r)) as [j r'| |] eqn:E; [|done|by apply keyword_fuel in E]. apply keyword_length in E. cbn [length] in E. cbn. lia.
  - cbn [read_elements]. specialize (IV d s ltac:(lia)). destruct (read_value fuel d s) as [x r| |]; [|done|done]. cbn in IV.
    pose proof (skip_length r) as Lr. destruct (skip r) as [|c r']; [done|]. cbn [length] in Lr. destruct (Ascii.eqb c ",").
    + specialize (IE d r' ltac:(lia)). destruct (read_elements fuel d r') as [l r''| |]; [cbn in *; lia|done|done].
    + destruct (Ascii.eqb c "]"); [cbn; lia|done].
  - cbn [read_fields]. pose proof (skip_length s) as Ls. destruct (skip s) as [|c r]; [done|]. cbn [length] in Ls.
    destruct (Ascii.eqb c quote); [|done]. destruct (read_chars r) as [[k r1]|] eqn:E; [|done]. apply chars_length in E.
    pose proof (skip_length r1) as L1. destruct (skip r1) as [|c1 r2]; [done|]. cbn [length] in L1. destruct (Ascii.eqb c1 ":"); [|done].
    specialize (IV d r2 ltac:(lia)). destruct (read_value fuel d r2) as [x r3| |]; [|done|done]. cbn in IV.
    pose proof (skip_length r3) as L3. destruct (skip r3) as [|c3 r4]; [done|]. cbn [length] in L3. destruct (Ascii.eqb c3 ",").
    + specialize (IF d r4 ltac:(lia)). destruct (read_fields fuel d r4) as [l r''| |]; [cbn in *; lia|done|done].
    + destruct (Ascii.eqb c3 "}"); [cbn; lia|done].
Qed.
Theorem text_fuel text : of_text text ≠ TextOutOfFuel.
Proof.
  unfold of_text. set (s := list_ascii_of_string text). destruct (fuel_enough (2 + 2 * length s)) as (H & _). specialize (H 128 s ltac:(lia)).
  destruct (read_value _ _ _) as [j r| |]; [by destruct (skip r)|done|done].
Qed.
Lemma chars_app s t : list_ascii_of_string (s +:+ t) = list_ascii_of_string s ++ list_ascii_of_string t.
Proof. induction s as [|c s IH]; [done|]. cbn. by rewrite <- IH. Qed.
Theorem text_round_trip p j trail : json_ok j → spaces (list_ascii_of_string trail) →
  of_text (to_text p j +:+ trail) = if (depth j <? 128)%nat then Value j else NotJson.
Proof.
  intros Hok Ht. unfold of_text. rewrite chars_app. unfold to_text. rewrite list_ascii_of_string_of_list_ascii. set (w := list_ascii_of_string trail) in *.
  set (s := write p 0 j ++ w). destruct (fuel_enough (2 + 2 * length s)) as (H & _). specialize (H 128 s ltac:(lia)).
  destruct (all_read j Hok p 0 (2 + 2 * length s) 127 [] w) as [E|E]; [done|destruct w as [|c w']; [done|]; apply andb_true_iff in Ht as [Ht _]; by destruct c as [[] [] [] [] [] [] [] []]| |].
  - cbn [app] in E. fold s in E. by rewrite E in H.
  - cbn [app] in E. fold s in E. rewrite E. destruct (depth j <? 128)%nat; [|done].
    replace (skip w) with (@nil ascii); [done|]. symmetry. rewrite <- (List.app_nil_r w). by rewrite skip_spaces.
Qed.
