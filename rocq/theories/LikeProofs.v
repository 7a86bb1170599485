(** The matching of prefixes is that of LikeSpec.v; proofs for C15. *)
From stdpp Require Import list strings.
From Coq Require Import ZArith Ascii.
From Verif Require Import Compute Sql Stores StoresSpec StoresProofs StoresMore StoresSample LikeSpec.
Local Open Scope string_scope.
Local Open Scope list_scope.

Definition one (a : ascii) : string := String a EmptyString.
Definition ascii_list : list ascii := ascii_of_nat <$> seq 0 256.
Lemma every_ascii a : a ∈ ascii_list.
Proof.
  apply elem_of_list_fmap. exists (nat_of_ascii a). split; [by rewrite ascii_nat_embedding|].
  apply elem_of_list_In, in_seq. pose proof (nat_ascii_bounded a). lia.
Qed.
Definition in_alphabet (x c : string) : bool := existsb (λ p, String.eqb p.1 x && String.eqb p.2 c) alphabet.
Lemma in_alphabet_true x c : in_alphabet x c = true ↔ (x, c) ∈ alphabet.
Proof.
  unfold in_alphabet. rewrite existsb_exists, elem_of_list_In. split.
  - intros ([x' c'] & Hi & [E1 E2]%andb_prop). apply String.eqb_eq in E1, E2. simpl in *. by subst.
  - intros H. exists (x, c). split; [done|]. simpl. by rewrite !String.eqb_refl.
Qed.
Lemma lower_cases a : lower a = a ∨ (one (lower a), one a) ∈ alphabet.
Proof.
  assert (C : forallb (λ a, Ascii.eqb (lower a) a || in_alphabet (one (lower a)) (one a)) ascii_list = true) by (vm_compute; reflexivity).
  rewrite forallb_forall in C. specialize (C a (proj1 (elem_of_list_In _ _) (every_ascii a))). apply orb_prop in C as [C|C].
  - left. by apply Ascii.eqb_eq.
  - right. by apply in_alphabet_true.
Qed.
(** Whether a pair of letters is folded to the small one. *)
Definition folded (p : string * string) : bool :=
  match p with (String a EmptyString, String b EmptyString) => Ascii.eqb (lower a) a && Ascii.eqb (lower b) a | _ => false end.
Lemma alphabet_folded x c : (x, c) ∈ alphabet → ∃ a b, x = one a ∧ c = one b ∧ lower a = a ∧ lower b = a.
Proof.
  assert (C : forallb folded alphabet = true) by (vm_compute; reflexivity).
  rewrite forallb_forall in C. intros H%elem_of_list_In. specialize (C _ H). unfold folded in C.
  destruct x as [|a [|? ?]]; [done| |done]. destruct c as [|b [|? ?]]; [done| |done]. apply andb_prop in C as [C1 C2].
  apply Ascii.eqb_eq in C1, C2. by exists a, b.
Qed.
Lemma alphabet_inj x c c' : (x, c) ∈ alphabet → (x, c') ∈ alphabet → c = c'.
Proof.
  assert (C : forallb (λ p, forallb (λ q, negb (String.eqb p.1 q.1) || String.eqb p.2 q.2) alphabet) alphabet = true) by (vm_compute; reflexivity).
  rewrite forallb_forall in C. intros H%elem_of_list_In H'%elem_of_list_In. specialize (C _ H). rewrite forallb_forall in C.
  specialize (C _ H'). simpl in C. rewrite String.eqb_refl in C. by apply String.eqb_eq.
Qed.
Lemma same_char_iff x c : same_char x c = true ↔ same_letter x c.
Proof.
  unfold same_char, same_letter. rewrite orb_true_iff, String.eqb_eq. split.
  - intros [->|H]; [by left|]. destruct x as [|a [|? ?]]; [done| |by destruct c as [|? [|? ?]]]. destruct c as [|b [|? ?]]; [done| |done].
    apply Ascii.eqb_eq in H. destruct (lower_cases a) as [Ea|Ia], (lower_cases b) as [Eb|Ib].
    + left. congruence.
    + right. left. rewrite <-H, Ea in Ib. exact Ib.
    + right. right. rewrite H, Eb in Ia. exact Ia.
    + left. rewrite <-H in Ib. exact (alphabet_inj _ _ _ Ia Ib).
  - intros [->|[H|H]]; [by left| |]; right; apply alphabet_folded in H as (a & b & -> & -> & E1 & E2); cbn; rewrite E1, E2; apply Ascii.eqb_eq; done.
Qed.

Lemma like_chars_iff p s : like_chars p s = true ↔ matches p s.
Proof.
  revert s. induction p as [|x p IH]; intros s.
  - destruct s; simpl; split; intros H; try done; [constructor|by inversion H].
  - destruct (decide (x = "%")) as [->|N1].
    + split.
      * induction s as [|c s IHs]; rewrite like_percent; intros [H|H]%orb_prop; [|done| |].
        -- apply (matches_any p []). by apply IH.
        -- apply (matches_any p []). by apply IH.
        -- specialize (IHs H). inversion IHs; subst; [|done..]. by apply (matches_any p (c :: some) rest).
      * intros H. inversion H; subst; [|done..].
        induction some as [|c some IHs]; rewrite like_percent; apply orb_true_iff; [left; by apply IH|right]. apply IHs. by constructor.
    + destruct (decide (x = "_")) as [->|N2].
      * destruct s as [|c s]; simpl; [split; [done|by inversion 1]|]. rewrite IH. split; [by constructor|]. intros H. by inversion H; subst.
      * simpl. destruct (String.eqb_spec x "%"); [done|]. destruct (String.eqb_spec x "_"); [done|].
        destruct s as [|c s]; [split; [done|by inversion 1]|]. rewrite andb_true_iff, same_char_iff, IH. split.
        -- intros [? ?]. by constructor.
        -- intros H. by inversion H; subst.
Qed.
Lemma matches_prefix p s : matches (p ++ ["%"]) s ↔ ∃ start rest, s = start ++ rest ∧ matches p start.
Proof.
  split.
  - revert s. induction p as [|x p IH]; intros s H; [exists [], s; split; [done|constructor]|]. cbn [app] in H.
    inversion H; subst.
    + destruct (IH _ H3) as (st & r & -> & M). exists (some ++ st), r. split; [by rewrite <-app_assoc|]. by constructor.
    + destruct (IH _ H3) as (st & r & -> & M). exists (c :: st), r. split; [done|]. by constructor.
    + destruct (IH _ H6) as (st & r & -> & M). exists (c :: st), r. split; [done|]. by constructor.
  - intros (st & r & -> & M). induction M; cbn [app].
    + rewrite <-(app_nil_r r). apply matches_any. constructor.
    + rewrite <-app_assoc. by constructor.
    + by constructor.
    + by constructor.
Qed.
Lemma like_prefix_iff p u : like_prefix p u = true ↔ begins_like p u.
Proof.
  unfold like_prefix, like, begins_like. rewrite (chars_app p "%") by done. rewrite like_chars_iff. change (chars "%") with ["%"]. apply matches_prefix.
Qed.

Lemma prefix_scores {A} (bind : A → option A) ops p : Forall op_ok ops → ∀ u,
  let before := stored (store_run bind ops) u in
  let after := stored (store_run bind (ops ++ [SRemovePrefix None p])) u in
  (begins_like p u → after = []) ∧ (¬ begins_like p u → after = before).
Proof.
  intros Hok u. cbv zeta. destruct (store_run_spec bind ops Hok) as [Hg _]. rewrite !store_run_snoc. cbn [store_step].
  destruct (remove_prefix_spec None p (store_run bind ops) Hg) as [_ H]. specialize (H u). rewrite <-like_prefix_iff.
  destruct (like_prefix p u) eqn:E; [|done]. destruct H as [H|[? _]]; done.
Qed.
Lemma prefix_rewards ops p : Forall reward_op_ok ops → ∀ u,
  let before := stored (rs_table (reward_run ops)) u in
  let after := stored (rs_table (reward_step (reward_run ops) (RRemovePrefix None p))) u in
  (begins_like p u → after = []) ∧ (¬ begins_like p u → after = before).
Proof.
  intros Hok u. cbv zeta. rewrite (prefix_rewards_call ops p Hok u). rewrite <-like_prefix_iff. by destruct (like_prefix p u).
Qed.
Lemma prefix_blacklist ops p : let b := blacklist_run ops in
  let b' := fst (blacklist_step b (BRemovePrefix None p)) in
  ∀ u, u ∈ get_blacklist_entries b' ↔ u ∈ get_blacklist_entries b ∧ ¬ begins_like p u.
Proof.
  cbv zeta. intros u. destruct (blacklist_coherent ops) as (_ & _ & _ & H).
  destruct (H (BRemovePrefix None p)) as [He _]. unfold bl_effect in He. rewrite He, <-like_prefix_iff. by rewrite not_true_iff_false.
Qed.
Lemma like_samples : begins_like "theory_1" "Theory-1::x" ∧ ¬ begins_like "theory_1" "theory1::x" ∧ begins_like "%::x" "a::x::y".
Proof.
  split; [|split].
  - apply like_prefix_iff. vm_compute. reflexivity.
  - rewrite <-like_prefix_iff. apply not_true_iff_false. vm_compute. reflexivity.
  - apply like_prefix_iff. vm_compute. reflexivity.
Qed.
