(** What is read from a JSON text does not depend on what follows it; texts that were cut off. *)
From stdpp Require Import strings list.
From Coq Require Import ZArith Ascii.
From Verif Require Import Json JsonSpec JsonProofs.
Local Open Scope bool_scope.
Local Open Scope char_scope.
Local Open Scope list_scope.

Lemma skip_more s c r t : skip s = c :: r → skip (s ++ t) = c :: r ++ t.
Proof. induction s as [|c' s IH]; cbn; [done|]. destruct (is_space c') eqn:E; [auto|]. intros [= -> ->]. done. Qed.
Lemma chars_more s x r t : read_chars s = Some (x, r) → read_chars (s ++ t) = Some (x, r ++ t).
Proof.
  remember (length s) as n eqn:E. revert s x r E. induction n as [n IH] using lt_wf_ind. intros s x r -> H.
  assert (G : ∀ s', length s' < length s → ∀ y, put y (read_chars s') = Some (x, r) → put y (read_chars (s' ++ t)) = Some (x, r ++ t)).
  { intros s' Hl y Hp. unfold put in Hp |- *. destruct (read_chars s') as [[a b]|] eqn:Es; [|done]. cbn in Hp. injection Hp as <- <-.
    rewrite (IH _ Hl s' a b eq_refl Es). done. }
  destruct s as [|c s]; [done|]. cbn [app]. cbn [read_chars] in H |- *. destruct (Ascii.eqb c quote). { by injection H as <- <-. }
  destruct (Ascii.eqb c backslash).
  - destruct s as [|e s]; [done|]. cbn [app]. destruct (short_escape e); [eapply G; [|exact H]; cbn; lia|].
    destruct (Ascii.eqb e "u"); [|done]. destruct s as [|h1 [|h2 [|h3 [|h4 s]]]]; try done. cbn [app]. destruct (hex4 h1 h2 h3 h4) as [n|]; [|done].
    destruct (_ && _).
    + destruct s as [|b [|u [|g1 [|g2 [|g3 [|g4 s]]]]]]; try done. cbn [app]. destruct (_ && _); [|done]. destruct (hex4 g1 g2 g3 g4) as [m|]; [|done].
      destruct (_ && _); [|done]. eapply G; [|exact H]. cbn. lia.
    + destruct (_ && _); [done|]. eapply G; [|exact H]. cbn. lia.
  - destruct (N_of_ascii c <? 32)%N; [done|]. eapply G; [|exact H]. cbn. lia.
Qed.
Lemma span_more p s a b t : span p s = (a, b) → b ≠ [] → span p (s ++ t) = (a, b ++ t).
Proof.
  revert a b. induction s as [|c s IH]; cbn; intros a b; [intros [= <- <-]; done|]. destruct (p c).
  - destruct (span p s) as [a' b'] eqn:E. intros [= <- <-] Hb. by rewrite (IH _ _ eq_refl Hb).
  - intros [= <- <-] _. done.
Qed.
Lemma starts_more w s r t : starts_with w s = Some r → starts_with w (s ++ t) = Some (r ++ t).
Proof.
  unfold starts_with. destruct (decide (take (length w) s = w)) as [E|]; [|done]. intros [= <-].
  assert (length w ≤ length s). { apply (f_equal length) in E. rewrite take_length in E. lia. }
  rewrite take_app_le, drop_app_le by done. by rewrite decide_True.
Qed.
Lemma keyword_head s : keyword s ≠ Malformed → match s with c :: _ => c = "n" ∨ c = "t" ∨ c = "f" | [] => False end.
Proof.
  destruct s as [|c s]; [done|].
  assert (K : ∀ c' w, c ≠ c' → starts_with (c' :: w) (c :: s) = None) by (intros c' w Hc; unfold starts_with; cbn [length take]; rewrite decide_False; [done|congruence]).
  intros H. destruct (decide (c = "n")); [auto|]. destruct (decide (c = "t")); [auto|]. destruct (decide (c = "f")); [auto|]. destruct H. unfold keyword. by rewrite !K.
Qed.
Lemma keyword_more s j r t : keyword s = Parsed j r → keyword (s ++ t) = Parsed j (r ++ t).
Proof.
  intros H. pose proof (keyword_head s) as Hh. destruct s as [|c s]; [by destruct Hh; rewrite H|]. specialize (Hh ltac:(by rewrite H)). cbn [app].
  unfold keyword in *. 
  assert (K : ∀ c' w, c ≠ c' → ∀ s', starts_with (c' :: w) (c :: s') = None) by (intros c' w Hc s'; unfold starts_with; cbn [length take]; rewrite decide_False; [done|congruence]).
  destruct Hh as [->|[->| ->]].
  - destruct (starts_with ["n"; "u"; "l"; "l"] ("n" :: s)) as [x|] eqn:E; [injection H as <- <-|by rewrite !K in H by done]. by rewrite (starts_more _ _ _ t E : starts_with _ ("n" :: s ++ t) = _).
  - rewrite (K "n") in H |- * by done. destruct (starts_with ["t"; "r"; "u"; "e"] ("t" :: s)) as [x|] eqn:E; [injection H as <- <-|by rewrite !K in H by done].
    by rewrite (starts_more _ _ _ t E : starts_with _ ("t" :: s ++ t) = _).
  - rewrite (K "n"), (K "t") in H |- * by done. destruct (starts_with ["f"; "a"; "l"; "s"; "e"] ("f" :: s)) as [x|] eqn:E; [injection H as <- <-|done].
    by rewrite (starts_more _ _ _ t E : starts_with _ ("f" :: s ++ t) = _).
Qed.
Definition is_number (j : json) : bool := match j with JInt _ | JDec _ => true | _ => false end.
Lemma stable fuel :
  (∀ d s j r, read_value fuel d s = Parsed j r → r ≠ [] ∨ is_number j = false → ∀ t, read_value fuel d (s ++ t) = Parsed j (r ++ t)) ∧
  (∀ d s l r, read_elements fuel d s = Parsed l r → ∀ t, read_elements fuel d (s ++ t) = Parsed l (r ++ t)) ∧
  (∀ d s l r, read_fields fuel d s = Parsed l r → ∀ t, read_fields fuel d (s ++ t) = Parsed l (r ++ t)).
Proof.
  induction fuel as [|fuel (IV & IE & IF)]; [done|].
  assert (HE : ∀ d s, skip s = [] → ∀ l r, read_elements fuel d s ≠ Parsed l r).
  { intros d s E l r. destruct fuel as [|[|f]]; [done..|]. cbn [read_elements read_value]. by rewrite E. }
  assert (HF : ∀ d s, skip s = [] → ∀ l r, read_fields fuel d s ≠ Parsed l r).
  { intros d s E l r. destruct fuel as [|f]; [done..|]. cbn [read_fields]. by rewrite E. }
  split; [|split].
  - intros d s j r H Hc t. cbn [read_value] in H |- *. destruct (skip s) as [|c r0] eqn:Es; [done|]. rewrite (skip_more _ _ _ t Es).
    destruct (Ascii.eqb c quote).
    { destruct (read_chars r0) as [[x r']|] eqn:E; [|done]. injection H as <- <-. by rewrite (chars_more _ _ _ t E). }
    destruct (Ascii.eqb c "[").
    { destruct d as [|[|d]]; [done..|]. destruct (skip r0) as [|c' r'] eqn:E.
      - destruct (read_elements fuel (S d) r0) as [l r1| |] eqn:El; [|done|done]. by apply HE in El.
      - rewrite (skip_more _ _ _ t E). 
        assert (G : match read_elements fuel (S d) r0 with Parsed l r => Parsed (JArray l) r | Malformed => Malformed | NoFuel => NoFuel end = Parsed j r →
          match read_elements fuel (S d) (r0 ++ t) with Parsed l r => Parsed (JArray l) r | Malformed => Malformed | NoFuel => NoFuel end = Parsed j (r ++ t)).
        { destruct (read_elements fuel (S d) r0) as [l r1| |] eqn:El; [|done|done]. intros [= <- <-]. by rewrite (IE _ _ _ _ El). }
        destruct c' as [[] [] [] [] [] [] [] []]; try exact (G H). by injection H as <- <-. }
    destruct (Ascii.eqb c "{").
    { destruct d as [|[|d]]; [done..|]. destruct (skip r0) as [|c' r'] eqn:E.
      - destruct (read_fields fuel (S d) r0) as [l r1| |] eqn:El; [|done|done]. by apply HF in El.
      - rewrite (skip_more _ _ _ t E). 
        assert (G : match read_fields fuel (S d) r0 with Parsed l r => Parsed (JObject l) r | Malformed => Malformed | NoFuel => NoFuel end = Parsed j r →
          match read_fields fuel (S d) (r0 ++ t) with Parsed l r => Parsed (JObject l) r | Malformed => Malformed | NoFuel => NoFuel end = Parsed j (r ++ t)).
        { destruct (read_fields fuel (S d) r0) as [l r1| |] eqn:El; [|done|done]. intros [= <- <-]. by rewrite (IF _ _ _ _ El). }
        destruct c' as [[] [] [] [] [] [] [] []]; try exact (G H). by injection H as <- <-. }
    destruct (is_digit c || Ascii.eqb c "-").
    { destruct (span number_char (c :: r0)) as [w r'] eqn:E. destruct (read_number w) as [j'|] eqn:En; [|done]. injection H as <- <-.
      destruct Hc as [Hc|Hc].
      - rewrite (span_more _ _ _ _ t E Hc : span number_char (c :: r0 ++ t) = _). by rewrite En.
      - unfold read_number in En. destruct (match w with "-" :: s => (true, s) | _ => (false, w) end) as [neg s']. destruct (span is_digit s') as [a b].
        destruct (read_nat a) as [n|]; [|done]. cbn in En. destruct b as [|b0 b]; [|by destruct (decimal_tail _); [injection En as <-|]].
        injection En as <-. by destruct (_ && _). }
    exact (keyword_more _ _ _ t H).
  - intros d s l r H t. cbn [read_elements] in H |- *. destruct (read_value fuel d s) as [x r0| |] eqn:Ev; [|done|done].
    destruct (skip r0) as [|c r1] eqn:Es; [done|]. rewrite (IV _ _ _ _ Ev) by (left; by intros ->). rewrite (skip_more _ _ _ t Es). destruct (Ascii.eqb c ",").
    + destruct (read_elements fuel d r1) as [l' r'| |] eqn:E; [|done|done]. injection H as <- <-. by rewrite (IE _ _ _ _ E).
    + destruct (Ascii.eqb c "]"); [|done]. by injection H as <- <-.
  - intros d s l r H t. cbn [read_fields] in H |- *. destruct (skip s) as [|c r0] eqn:Es; [done|]. rewrite (skip_more _ _ _ t Es).
    destruct (Ascii.eqb c quote); [|done]. destruct (read_chars r0) as [[k r1]|] eqn:E; [|done]. rewrite (chars_more _ _ _ t E).
    destruct (skip r1) as [|c1 r2] eqn:E1; [done|]. rewrite (skip_more _ _ _ t E1). destruct (Ascii.eqb c1 ":"); [|done].
    destruct (read_value fuel d r2) as [x r3| |] eqn:Ev; [|done|done]. destruct (skip r3) as [|c3 r4] eqn:E3; [done|].
    rewrite (IV _ _ _ _ Ev) by (left; by intros ->). rewrite (skip_more _ _ _ t E3). destruct (Ascii.eqb c3 ",").
    + destruct (read_fields fuel d r4) as [l' r'| |] eqn:E4; [|done|done]. injection H as <- <-. by rewrite (IF _ _ _ _ E4).
    + destruct (Ascii.eqb c3 "}"); [|done]. by injection H as <- <-.
Qed.
(** The start of the text of an object reads as that object or not at all. *)
Theorem cut_text p l s u trail : json_ok (JObject l) → spaces (list_ascii_of_string trail) → s +:+ u = to_text p (JObject l) +:+ trail →
  of_text s = NotJson ∨ (of_text s = Value (JObject l) ∧ spaces (list_ascii_of_string u)).
Proof.
  intros Hok Ht E. apply (f_equal list_ascii_of_string) in E. rewrite !chars_app in E. unfold to_text in E. rewrite list_ascii_of_string_of_list_ascii in E.
  unfold of_text. set (s' := list_ascii_of_string s) in *. set (u' := list_ascii_of_string u) in *. set (w := list_ascii_of_string trail) in *.
  destruct (fuel_enough (2 + 2 * length s')) as (H & _). specialize (H 128 s' ltac:(lia)).
  destruct (read_value (2 + 2 * length s') 128 s') as [j r| |] eqn:Ev; [|by left|done].
  destruct (skip r) eqn:Er; [|by left]. right.
  assert (Hnum : is_number j = false).
  { destruct s' as [|c s'']; [done|]. cbn [app] in E. assert (c = "{") as ->. { cbn [write] in E. destruct l as [|[k x] l]; injection E as E _; done. }
    cbn [Nat.add read_value skip] in Ev. change (is_space "{") with false in Ev. cbn iota in Ev. change (Ascii.eqb "{" quote) with false in Ev. change (Ascii.eqb "{" "[") with false in Ev.
    change (Ascii.eqb "{" "{") with true in Ev. cbn iota in Ev.
    assert (G : ∀ q : parsed (list (string * json)), match q with Parsed l r => Parsed (JObject l) r | Malformed => Malformed | NoFuel => NoFuel end = Parsed j r → is_number j = false).
    { intros [l' r'| |]; [|done|done]. by intros [= <- _]. }
    destruct (skip s'') as [|c' r']; [exact (G _ Ev)|]. destruct c' as [[] [] [] [] [] [] [] []]; try exact (G _ Ev). by injection Ev as <- _. }
  destruct (stable (2 + 2 * length s')) as (St & _). specialize (St _ _ _ _ Ev (or_intror Hnum) u'). rewrite E in St.
  assert (He : ends w). { destruct w as [|c w']; [done|]. apply andb_true_iff in Ht as [Ht _]. by destruct c as [[] [] [] [] [] [] [] []]. }
  destruct (all_read (JObject l) Hok p 0 (2 + 2 * length s') 127 [] w ltac:(done) He) as [E2|E2].
  - cbn [app] in E2. rewrite E2 in St. done.
  - cbn [app] in E2. rewrite E2 in St. destruct (depth (JObject l) <? 128)%nat; [|done]. injection St as <- Ew. split; [done|].
    rewrite Ew in Ht. unfold spaces in *. rewrite forallb_app in Ht. by apply andb_true_iff in Ht as [_ Ht].
Qed.
