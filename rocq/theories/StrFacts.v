(** Facts about strings that are built from components. *)
From Coq Require Import Ascii.
From stdpp Require Import gmap strings list pretty.
From Verif Require Import Graph Library Generators GenSpec.
Local Open Scope string_scope.
Local Open Scope list_scope.
Local Arguments String.append !_ _ /.


Lemma sapp_assoc (a b c : string) : (a +:+ b) +:+ c = a +:+ (b +:+ c).
Proof. induction a as [|x a IH]; [done|]. cbn. by f_equal. Qed.
Lemma sapp_nil (a : string) : a +:+ "" = a.
Proof. induction a as [|x a IH]; [done|]. cbn. by f_equal. Qed.
Lemma slen_app (a b : string) : String.length (a +:+ b) = String.length a + String.length b.
Proof. induction a as [|x a IH]; [done|]. cbn. by f_equal. Qed.
Lemma sapp_inv_l (a b c : string) : a +:+ b = a +:+ c → b = c.
Proof. induction a as [|x a IH]; [done|]. cbn. intros [= H]. auto. Qed.
Lemma sapp_split (a a' b b' : string) : String.length a = String.length a' → a +:+ b = a' +:+ b' → a = a' ∧ b = b'.
Proof.
  revert a'. induction a as [|x a IH]; intros [|y a']; cbn; try done. intros [= Hl] [= -> H].
  destruct (IH a' Hl H) as [-> ->]. done.
Qed.
Lemma sapp_inv_r (a b c : string) : a +:+ c = b +:+ c → a = b.
Proof.
  intros H. apply (sapp_split a b c c); [|done]. pose proof (f_equal String.length H) as Hl. rewrite !slen_app in Hl. lia.
Qed.
Lemma sapp_split_r (a a' b b' : string) : String.length b = String.length b' → a +:+ b = a' +:+ b' → a = a' ∧ b = b'.
Proof.
  intros Hl H. apply sapp_split; [|done]. pose proof (f_equal String.length H) as Hl'. rewrite !slen_app in Hl'. lia.
Qed.

(** ** Suffixes *)
Lemma strip_suffix_spec suf s p : strip_suffix suf s = Some p ↔ s = p +:+ suf.
Proof.
  revert p. induction s as [|a s IH]; intros p; cbn [strip_suffix].
  - case_bool_decide as E.
    + subst suf. rewrite sapp_nil. naive_solver.
    + split; [done|]. destruct p; cbn; [done|]. done.
  - case_bool_decide as E.
    + subst suf. split; [by intros [= <-]|]. intros H. f_equal.
      apply (sapp_inv_r "" p (String a s)). exact H.
    + rewrite fmap_Some. split.
      * intros (q & Hq & ->). apply IH in Hq as ->. done.
      * destruct p as [|b p]; cbn; intros H; [by subst|]. injection H as -> H. exists p. split; [by apply IH|done].
Qed.
Lemma strip_suffix_app suf p : strip_suffix suf (p +:+ suf) = Some p.
Proof. by apply strip_suffix_spec. Qed.
Lemma strip_suffix_none suf s : strip_suffix suf s = None ↔ ∀ p, s ≠ p +:+ suf.
Proof.
  split.
  - intros H p ->. by rewrite strip_suffix_app in H.
  - intros H. destruct (strip_suffix suf s) as [p|] eqn:E; [|done]. apply strip_suffix_spec in E. by destruct (H p).
Qed.
(** The end of a string, to tell suffixes apart. *)
Definition rev_string (s : string) : list ascii := rev (list_ascii_of_string s).
Lemma chars_app a b : list_ascii_of_string (a +:+ b) = list_ascii_of_string a ++ list_ascii_of_string b.
Proof. induction a as [|x a IH]; [done|]. cbn. by f_equal. Qed.
Lemma rev_string_app a b : rev_string (a +:+ b) = rev_string b ++ rev_string a.
Proof. unfold rev_string. by rewrite chars_app, rev_app_distr. Qed.
(** Two ends neither of which is an end of the other. *)
Fixpoint clash (a b : list ascii) : bool :=
  match a, b with
  | x :: a, y :: b => if Ascii.eqb x y then clash a b else true
  | _, _ => false
  end.
Lemma clash_prefix a b x y : clash a b = true → a ++ x ≠ b ++ y.
Proof.
  revert b. induction a as [|c a IH]; intros [|d b]; cbn; try done.
  destruct (Ascii.eqb_spec c d) as [->|Hne]; [|by intros _ [= ? _]]. intros H [= E]. by eapply IH.
Qed.
Lemma ends_differ (p q a b : string) : clash (rev_string a) (rev_string b) = true → p +:+ a ≠ q +:+ b.
Proof. intros H E. apply (f_equal rev_string) in E. rewrite !rev_string_app in E. by eapply clash_prefix. Qed.
Lemma strip_other suf suf' p : clash (rev_string suf') (rev_string suf) = true → strip_suffix suf (p +:+ suf') = None.
Proof. intros H. apply strip_suffix_none. intros q. by apply ends_differ. Qed.

(** ** Components *)
Fixpoint has_no_colon (s : string) : bool :=
  match s with
  | EmptyString => true
  | String a s => negb (Ascii.eqb a colon) && has_no_colon s
  end.
Lemma colon_free_cons a s : colon_free (String a s) ↔ a ≠ colon ∧ colon_free s.
Proof. unfold colon_free. cbn [list_ascii_of_string]. rewrite elem_of_cons. naive_solver. Qed.
Lemma has_no_colon_spec s : has_no_colon s = true ↔ colon_free s.
Proof.
  induction s as [|a s IH]; cbn [has_no_colon].
  - split; [|done]. intros _. unfold colon_free. cbn [list_ascii_of_string]. apply not_elem_of_nil.
  - rewrite andb_true_iff, IH, colon_free_cons, negb_true_iff, Ascii.eqb_neq. done.
Qed.
Lemma comps_app l l' : comps (l ++ l') = comps l +:+ comps l'.
Proof. induction l as [|x l IH]; [done|]. cbn [app comps]. rewrite IH. by rewrite !sapp_assoc. Qed.
Lemma id_of_app c l l' : id_of c (l ++ l') = id_of (id_of c l) l'.
Proof. unfold id_of. by rewrite comps_app, sapp_assoc. Qed.
Lemma under_id c x : under c x = id_of c [x].
Proof. unfold under, id_of. cbn [comps]. by rewrite sapp_nil. Qed.
Lemma id_of_nil c : id_of c [] = c.
Proof. apply sapp_nil. Qed.
Lemma id_of_under c l x : under (id_of c l) x = id_of c (l ++ [x]).
Proof. by rewrite under_id, id_of_app. Qed.
Lemma comps_head l : comps l = "" ∨ ∃ s, comps l = String colon s.
Proof. destruct l; [by left|right; cbn; eauto]. Qed.
Lemma comps_first x y s t : colon_free x → colon_free y → s = "" ∨ (∃ s', s = String colon s') → t = "" ∨ (∃ t', t = String colon t') →
  x +:+ s = y +:+ t → x = y ∧ s = t.
Proof.
  intros Hx Hy Hs Ht. revert y Hy. induction x as [|a x IH]; intros [|b y] Hy; cbn.
  - done.
  - intros ->. exfalso. apply colon_free_cons in Hy as [Hb _]. destruct Hs as [?|[s' Hs]]; [done|]. by injection Hs as -> _.
  - intros <-. exfalso. apply colon_free_cons in Hx as [Ha _]. destruct Ht as [?|[t' Ht]]; [done|]. by injection Ht as -> _.
  - intros [= -> E]. apply colon_free_cons in Hx as [_ Hx]. apply colon_free_cons in Hy as [_ Hy].
    destruct (IH Hx y Hy E) as [-> ->]. done.
Qed.
Lemma comps_inj l l' : Forall colon_free l → Forall colon_free l' → comps l = comps l' → l = l'.
Proof.
  intros Hl. revert l'. induction Hl as [|x l Hx Hl IH]; intros l' Hl'; destruct Hl' as [|y l' Hy Hl']; cbn [comps]; try done.
  intros E. apply (sapp_inv_l "::") in E. apply comps_first in E as [-> E]; [|done|done|apply comps_head|apply comps_head].
  f_equal. auto.
Qed.
Lemma id_of_inj c l l' : Forall colon_free l → Forall colon_free l' → id_of c l = id_of c l' → l = l'.
Proof. intros Hl Hl'. unfold id_of. intros E. apply sapp_inv_l in E. by apply comps_inj. Qed.
Lemma under_inj_l a b x : under a x = under b x → a = b.
Proof. unfold under. apply sapp_inv_r. Qed.
Lemma under_inj_r a x y : under a x = under a y → x = y.
Proof. unfold under. intros E. apply sapp_inv_l in E. by apply (sapp_inv_l "::") in E. Qed.
Lemma under_longer a x : String.length a < String.length (under a x).
Proof. unfold under. rewrite !slen_app. cbn. lia. Qed.
Lemma under_ne a x : under a x ≠ a.
Proof. intros E. pose proof (under_longer a x) as H. rewrite E in H. lia. Qed.

(** ** Numbers *)
Lemma digit_colon x : pretty_N_char x ≠ colon.
Proof. unfold pretty_N_char, colon. by repeat case_match. Qed.
Lemma pretty_go_colon x s : colon_free s → colon_free (pretty_N_go x s).
Proof.
  revert s. induction (N.lt_wf_0 x) as [x _ IH]; intros s Hs.
  assert (x = 0 ∨ 0 < x)%N as [->|Hx] by lia; [by rewrite pretty_N_go_0|].
  rewrite pretty_N_go_step by done. apply IH; [by apply N.div_lt|]. apply colon_free_cons. split; [apply digit_colon|done].
Qed.
Lemma pretty_colon (x : N) : colon_free (pretty x).
Proof.
  unfold pretty, pretty_N. destruct (decide (x = 0)%N); [by apply has_no_colon_spec|]. apply pretty_go_colon. by apply has_no_colon_spec.
Qed.
(** A number is not a word without digits. *)
Fixpoint no_digit (s : string) : bool :=
  match s with
  | EmptyString => true
  | String a s => negb (existsb (Ascii.eqb a) ["0"; "1"; "2"; "3"; "4"; "5"; "6"; "7"; "8"; "9"]%char) && no_digit s
  end.
Lemma pretty_go_digits x s : ∃ d, pretty_N_go x s = d +:+ s.
Proof.
  revert s. induction (N.lt_wf_0 x) as [x _ IH]; intros s.
  assert (x = 0 ∨ 0 < x)%N as [->|Hx] by lia; [by exists ""|].
  rewrite pretty_N_go_step by done. destruct (IH _ (N.div_lt x 10 Hx eq_refl) (String (pretty_N_char (x `mod` 10)) s)) as [d ->].
  exists (d +:+ String (pretty_N_char (x `mod` 10)) ""). rewrite sapp_assoc. done.
Qed.
Lemma no_digit_app a b : no_digit (a +:+ b) = no_digit a && no_digit b.
Proof. induction a as [|x a IH]; [done|]. cbn [String.append no_digit]. rewrite IH. by rewrite andb_assoc. Qed.
Lemma digit_digit x : no_digit (String (pretty_N_char x) "") = false.
Proof. unfold pretty_N_char. by repeat case_match. Qed.
Lemma pretty_word (x : N) w : no_digit w = true → pretty x ≠ w.
Proof.
  intros Hw <-. revert Hw. unfold pretty, pretty_N. destruct (decide (x = 0)%N) as [|Hx]; [done|].
  rewrite pretty_N_go_step by lia. destruct (pretty_go_digits (x `div` 10) (String (pretty_N_char (x `mod` 10)) "")) as [d ->].
  rewrite no_digit_app, digit_digit, andb_false_r. done.
Qed.

(** ** The order of identifiers *)
Global Instance uid_le_antisymm : AntiSymm (=) uid_le.
Proof. intros a b. apply String.leb_antisym. Qed.
Global Instance uid_le_total' : Total uid_le.
Proof. intros a b. apply String.leb_total. Qed.
Global Instance uid_le_trans : Transitive uid_le.
Proof.
  intros a. unfold uid_le, String.leb. induction a as [|x a IH]; intros [|y b] [|z c]; cbn; try done.
  unfold Ascii.compare. intros H1 H2.
  destruct (N.compare_spec (Ascii.N_of_ascii x) (Ascii.N_of_ascii y)) as [E1|E1|E1]; [|  |done];
  destruct (N.compare_spec (Ascii.N_of_ascii y) (Ascii.N_of_ascii z)) as [E2|E2|E2]; try done;
  destruct (N.compare_spec (Ascii.N_of_ascii x) (Ascii.N_of_ascii z)) as [E3|E3|E3]; try done; try lia.
  by apply (IH b c).
Qed.
