(** Propagated rewards: the results, full weights, and dependence on the order. *)
From stdpp Require Import gmap strings list.
From Coq Require Import ZArith Reals Lra Lia.
From Flocq Require Import Core.Core IEEE754.BinarySingleNaN.
From Verif Require Import F32 Graph GraphSpec GraphProofs Stores Options Scorer ScorerSpec F32Real F32More ScorerProofs ScoreProofs
  PropagateSpec PropagateProofs.
Local Open Scope R_scope.

Section results.
  Context (ops : list gop) (ord : uid → list (uid * f32) → list (uid * f32)) (Hord : any_order ord)
    (s : mastery_score) (e : uid) (ts : Z).

  Lemma propagate_returns : ∃ n r, ∀ fuel, (n <= fuel)%nat → propagate_rewards (grun ops) ord fuel e s ts = Some r.
  Proof using Hord.
    unfold propagate_rewards. destruct (resolve_roots (grun ops) e) as [[l c]|]; [|by exists 0%nat, ∅].
    unfold propagate_helper. destruct (_ || _); [by exists 0%nat, ∅|].
    destruct (ends_good ops ord Hord s l c ts (first_stack (grun ops) ord l c (initial_reward s) ts)) as [n Hn].
    { intros r. by apply first_good. }
    destruct (Hn ∅ n (le_n n)) as [r Hr]. exists n, r. intros fuel Hf.
    replace fuel with (n + (fuel - n))%nat by lia. by apply loop_more.
  Qed.

  Lemma final_inv l c fuel r : resolve_roots (grun ops) e = Some (l, c) → l ≠ ""%string → c ≠ ""%string →
    propagate_rewards (grun ops) ord fuel e s ts = Some r → loop_inv ops ord s l c ts [] r.
  Proof using Hord.
    intros Hr Hl Hc. unfold propagate_rewards. rewrite Hr. unfold propagate_helper.
    rewrite !bool_decide_eq_false_2 by done. cbn [orb]. apply inv_loop; [done|]. by apply inv_start.
  Qed.
  Lemma no_roots fuel r : propagate_rewards (grun ops) ord fuel e s ts = Some r →
    (resolve_roots (grun ops) e = None ∨ ∃ l c, resolve_roots (grun ops) e = Some (l, c) ∧ (l = ""%string ∨ c = ""%string)) → r = ∅.
  Proof using.
    intros H [E|(l & c & E & Hlc)]; unfold propagate_rewards in H; rewrite E in H; [by simplify_eq|].
    unfold propagate_helper in H. assert (EB : (bool_decide (l = ""%string) || bool_decide (c = ""%string)) = true).
    { destruct Hlc as [-> | ->]; [done|by rewrite orb_comm]. }
    rewrite EB in H. by simplify_eq.
  Qed.

  Lemma result_ok fuel r u x : propagate_rewards (grun ops) ord fuel e s ts = Some r → r !! u = Some x →
    e_unit x = u ∧ e_ts x = ts ∧
    (∃ l c n, resolve_roots (grun ops) e = Some (l, c) ∧ (n <= 8)%nat ∧ carried (grun ops) s l c n u (e_val x).1 (e_val x).2) ∧
    fgt (e_val x).1 fzero = good_score s ∧
    between f_0_2 (fabs (e_val x).1) (fabs (documented_reward s)) ∧ between f_0_2 (e_val x).2 f_1.
  Proof using Hord.
    intros H Hx. destruct (resolve_roots (grun ops) e) as [[l c]|] eqn:E.
    2:{ rewrite (no_roots _ _ H (or_introl E)), lookup_empty in Hx. done. }
    destruct (decide (l = ""%string)) as [Hl|Hl].
    { rewrite (no_roots _ _ H), lookup_empty in Hx; [done|]. right. eauto. }
    destruct (decide (c = ""%string)) as [Hc|Hc].
    { rewrite (no_roots _ _ H), lookup_empty in Hx; [done|]. right. eauto. }
    destruct (final_inv l c fuel r E Hl Hc H) as (_ & HR & _). destruct (HR u x Hx) as (Eu & Et & n & Hn).
    clear Hx HR. destruct x as [xu [xv xw] xt]. cbn [e_unit e_ts e_val fst snd] in *.
    destruct (carried_ok _ _ _ _ _ _ _ _ Hn) as (Hv & Hw & _ & Hb).
    split; [done|]. split; [done|]. split; [rewrite Eu in Hn; exists l, c, n; split; [done|]; split; [lia|done]|].
    split; [by apply value_ok_sign|]. destruct Hv as [Fv Hv]. pose proof v_0_2'. pose proof (documented_sign s) as D.
    split.
    - apply between_btw; [done|apply fabs_fin, documented_fin|]. split; [by apply fabs_fin|]. rewrite !fabs_val.
      destruct (good_score s).
      + rewrite !Rabs_pos_eq by lra. lra.
      + rewrite !Rabs_left1 by lra. lra.
    - apply between_btw; [done|done|]. rewrite v_1. done.
  Qed.

  (** What is sent on from a recorded reward is recorded, with at least that strength. *)
  Lemma result_closed l c fuel r : resolve_roots (grun ops) e = Some (l, c) → l ≠ ""%string → c ≠ ""%string →
    propagate_rewards (grun ops) ord fuel e s ts = Some r →
    (∀ root u w, root = l ∨ root = c → leads (grun ops) s root u w → strong (fmul w (documented_reward s)) w →
      ∃ x, r !! u = Some x ∧ fle (fabs (fmul w (documented_reward s))) (fabs (e_val x).1) = true) ∧
    (∀ u x u' w, r !! u = Some x → leads (grun ops) s u u' w →
      strong (fmul (fmul w f_0_9) (e_val x).1) (fmul (fmul w f_0_8) (e_val x).2) →
      ∃ x', r !! u' = Some x' ∧ fle (fabs (fmul (fmul w f_0_9) (e_val x).1)) (fabs (e_val x').1) = true).
  Proof using Hord.
    intros E Hl Hc H. destruct (final_inv l c fuel r E Hl Hc H) as (_ & HR & HF & HN). split.
    - intros root u w Hroot Hlead Hs. destruct (HF (Entry u (fmul w (documented_reward s), w) ts)) as [(x & Hx & Sx)|(x & Hx & _)].
      + apply first_items; [done|]. split; [done|]. exists root. done.
      + exists x. split; [done|]. pose proof (leads_weight _ _ _ _ _ Hlead) as Hw. cbn [e_val fst] in Sx.
        apply fle_true; [apply fabs_fin, (proj1 (first_step s w Hw))| |].
        * apply fabs_fin. destruct (HR _ _ Hx) as [_ HG]. by apply good_fin in HG.
        * by rewrite !fabs_val.
      + by apply elem_of_nil in Hx.
    - intros u x u' w Hx Hlead Hs. destruct (HN u x u' w Hx Hlead Hs) as [(x' & Hx' & Sx)|(x' & Hx' & _)].
      + exists x'. split; [done|]. destruct (HR _ _ Hx') as [_ HG]. destruct (HR _ _ Hx) as [_ (_ & n & Hn)].
        destruct (carried_ok _ _ _ _ _ _ _ _ Hn) as (Hv & Hw & Hlim & Hb). destruct n as [|n]; [lia|].
        destruct (next_step s w _ _ n (leads_weight _ _ _ _ _ Hlead) Hv Hw Hlim) as (F1 & _); [apply limit_fin; lia|].
        apply fle_true; [by apply fabs_fin|apply fabs_fin; by apply good_fin in HG|]. by rewrite !fabs_val.
      + by apply elem_of_nil in Hx'.
  Qed.
End results.

(** ** Full weights *)
Lemma fade_next s n : (1 <= n)%nat → fade s (S n) = (fmul (fmul f_1 f_0_9) (fade s n).1, fmul (fmul f_1 f_0_8) (fade s n).2).
Proof. destruct n; [lia|done]. Qed.

Definition fades_b (s : mastery_score) (n : nat) : bool :=
  flt (fabs (fade s (S n)).1) (fabs (fade s n).1) && is_finite (fade s n).1 && is_finite (fade s (S n)).1.
Lemma fades_checked : forallb (λ s, forallb (fades_b s) (seq 1 8) && stop_propagation (fade s 9).1 (fade s 9).2)
  [One; Two; Three; Four; Five] = true.
Proof. vm_compute. reflexivity. Qed.
Lemma in_scores (s : mastery_score) : In s [One; Two; Three; Four; Five].
Proof. destruct s; cbn; tauto. Qed.
Lemma fade_strict s n : (1 <= n <= 8)%nat → fin (fade s n).1 ∧ fin (fade s (S n)).1 ∧ Rabs (val (fade s (S n)).1) < Rabs (val (fade s n).1).
Proof.
  intros H. pose proof fades_checked as C. rewrite forallb_forall in C. specialize (C s (in_scores s)).
  apply andb_true_iff in C as [C _]. rewrite forallb_forall in C. specialize (C n). rewrite in_seq in C. specialize (C ltac:(lia)).
  unfold fades_b in C. apply andb_true_iff in C as [C C3]. apply andb_true_iff in C as [C1 C2].
  split; [exact C2|]. split; [exact C3|]. rewrite <- !fabs_val. apply (flt_true (fabs (fade s (S n)).1) (fabs (fade s n).1));
    [by apply fabs_fin|by apply fabs_fin|done].
Qed.
Lemma fade_decreasing s n m : (1 <= n)%nat → (n < m <= 9)%nat → Rabs (val (fade s m).1) < Rabs (val (fade s n).1).
Proof.
  intros Hn [Hnm Hm]. induction Hnm as [|m Hnm IH].
  - apply (fade_strict s n). lia.
  - destruct (fade_strict s m) as (_ & _ & ?); [lia|]. specialize (IH ltac:(lia)). lra.
Qed.
Lemma fade_weight s n : (1 <= n)%nat → fin (fade s n).2 ∧ 0 <= val (fade s n).2 <= 1 ∧
  (fin (fade s (S n)).2 ∧ val (fade s (S n)).2 <= val (fade s n).2).
Proof.
  intros H. induction n as [|n IH]; [lia|].
  assert (B : fin (fade s (S n)).2 ∧ 0 <= val (fade s (S n)).2 <= 1).
  { destruct n as [|n]; [cbn [fade snd]; rewrite v_1; split; [done|lra]|].
    destruct IH as (F & B & F' & B'); [lia|]. split; [done|]. split; [|lra].
    rewrite fade_next by lia. cbn [snd].
    assert (B8 : btw 0 1 (fmul f_1 f_0_8)).
    { apply (between_f fzero _ f_1); [done|done|apply v_0|apply v_1|]. split; vm_compute; reflexivity. }
    destruct B8 as [F8 B8].
    destruct (fmul_btw (fmul f_1 f_0_8) (fade s (S n)).2 0 1) as [[_ G] _]; [done|done|rp|rp|split; nra|]. lra. }
  split; [apply B|]. split; [apply B|]. destruct B as [F B]. rewrite (fade_next s (S n)) by lia. cbn [snd].
  assert (B8 : btw 0 1 (fmul f_1 f_0_8)).
  { apply (between_f fzero _ f_1); [done|done|apply v_0|apply v_1|]. split; vm_compute; reflexivity. }
  destruct B8 as [F8 B8].
  destruct (fmul_btw (fmul f_1 f_0_8) (fade s (S n)).2 0 (val (fade s (S n)).2)) as [[G1 G2] _]; [done|done|rp|by apply repr_val|split; nra|].
  split; [done|lra].
Qed.
Lemma strong_weight s n : strong (fade s n).1 (fade s n).2 → (1 <= n)%nat → val f_0_2 <= val (fade s n).2.
Proof. intros [_ H] Hn. apply fle_true in H; [done|done|apply (fade_weight s n Hn)]. Qed.
Lemma weight_mono s n m : (1 <= n <= m)%nat → val (fade s m).2 <= val (fade s n).2.
Proof.
  intros [Hn H]. induction H as [|m H IH]; [lra|]. destruct (fade_weight s m) as (_ & _ & _ & ?); [lia|]. lra.
Qed.
Lemma strong_small s n : (1 <= n)%nat → strong (fade s n).1 (fade s n).2 → (n <= 8)%nat.
Proof.
  intros Hn H. apply strong_weight in H; [|done]. apply Nat.nlt_ge. intros Hlt.
  pose proof (weight_mono s 9 n ltac:(lia)) as M.
  assert (L : flt (fade s 9).2 f_0_2 = true) by (destruct s; vm_compute; reflexivity).
  assert (L' : val (fade s 9).2 < val f_0_2).
  { apply (flt_true (fade s 9).2 f_0_2); [apply fade_weight; lia|done|exact L]. }
  exact (Rlt_not_le _ _ L' (Rle_trans _ _ _ H M)).
Qed.
Lemma strong_mono s n m : (1 <= n <= m)%nat → strong (fade s m).1 (fade s m).2 → strong (fade s n).1 (fade s n).2.
Proof.
  intros Hn H. assert (Hm := strong_small s m ltac:(lia) H). assert (Hw := weight_mono s n m Hn).
  destruct (fade_strict s n) as (Fn & _ & _); [lia|]. destruct (fade_strict s m) as (Fm & _ & _); [lia|].
  destruct (fade_weight s n) as (Gn & _ & _); [lia|]. destruct (fade_weight s m) as (Gm & _ & _); [lia|].
  apply (strong_abs (fade s m).1 (fade s m).2) in H as [H1 H2]; [|done|done].
  apply (strong_abs (fade s n).1 (fade s n).2); [done|done|]. split; [|lra].
  destruct (decide (n = m)) as [-> | Hne]; [done|]. pose proof (fade_decreasing s n m ltac:(lia) ltac:(lia)). lra.
Qed.

Section full.
  Context (ops : list gop) (ord : uid → list (uid * f32) → list (uid * f32)) (Hord : any_order ord)
    (s : mastery_score) (e : uid) (ts : Z) (l c : uid) (Hroots : resolve_roots (grun ops) e = Some (l, c))
    (Hl : l ≠ ""%string) (Hc : c ≠ ""%string) (Hfull : ∀ u v w, leads (grun ops) s u v w → w = f_1).

  Lemma carried_full n u v w : carried (grun ops) s l c n u v w → steps (grun ops) s l c n u ∧ (v, w) = fade s n.
  Proof using Hfull.
    induction 1 as [root u e' Hr He Hs|n u v w u' e' Hcar [IH1 IH2] He Hs].
    - split; [by apply steps_first with root e'|]. by rewrite (Hfull _ _ _ He).
    - split; [by apply steps_next with u e'|]. rewrite (Hfull _ _ _ He).
      assert (1 <= n)%nat by (destruct Hcar; lia). rewrite fade_next by done. by rewrite <- IH2.
  Qed.
  Lemma steps_pos n u : steps (grun ops) s l c n u → (1 <= n)%nat.
  Proof using. destruct 1; lia. Qed.

  Lemma full_reached fuel r m u : propagate_rewards (grun ops) ord fuel e s ts = Some r →
    steps (grun ops) s l c m u → strong (fade s m).1 (fade s m).2 →
    ∃ x n, r !! u = Some x ∧ carried (grun ops) s l c n u (e_val x).1 (e_val x).2 ∧ (n <= m)%nat.
  Proof using Hord Hroots Hl Hc Hfull.
    intros H Hst. destruct (result_closed ops ord Hord s e ts l c fuel r Hroots Hl Hc H) as [C1 C2].
    assert (Hbound : ∀ m u x, (1 <= m)%nat → r !! u = Some x → strong (fade s m).1 (fade s m).2 →
      fle (fabs (fade s m).1) (fabs (e_val x).1) = true →
      ∃ n, carried (grun ops) s l c n u (e_val x).1 (e_val x).2 ∧ (n <= m)%nat).
    { intros m' u' x Hm Hx Hs Hle. destruct (result_ok ops ord Hord s e ts fuel r u' x H Hx) as (_ & _ & (l' & c' & n & E & Hn & Hcar) & _).
      assert (l' = l) by congruence. assert (c' = c) by congruence. subst l' c'. exists n. split; [done|].
      destruct (carried_full _ _ _ _ Hcar) as [Hsteps Ef]. assert (E1 : (e_val x).1 = (fade s n).1) by (rewrite <- Ef; done).
      apply Nat.nlt_ge. intros Hlt. pose proof (strong_small s m' Hm Hs) as Hm8.
      destruct (fade_strict s m') as (F1 & _ & _); [lia|]. destruct (fade_strict s n) as (F2 & _ & _); [lia|].
      rewrite E1 in Hle. apply (fle_true (fabs (fade s m').1) (fabs (fade s n).1)) in Hle; [|by apply fabs_fin|by apply fabs_fin].
      rewrite !fabs_val in Hle. pose proof (fade_decreasing s m' n ltac:(lia) ltac:(lia)). lra. }
    induction Hst as [root u w Hr He|m u u' w Hst IH He]; intros Hs.
    - pose proof (Hfull _ _ _ He) as ->. destruct (C1 root u f_1 Hr He Hs) as (x & Hx & Hle).
      destruct (Hbound 1%nat u x) as (n & Hn & Hle'); [lia|done|done|done|]. eauto.
    - pose proof (steps_pos _ _ Hst) as Hm. destruct IH as (x & n & Hx & Hcar & Hn).
      { apply strong_mono with (S m); [lia|done]. }
      pose proof (Hfull _ _ _ He) as ->. destruct (carried_full _ _ _ _ Hcar) as [Hsn Ef]. pose proof (steps_pos _ _ Hsn) as Hn1.
      assert (E1 : (e_val x).1 = (fade s n).1) by (rewrite <- Ef; done).
      assert (E2 : (e_val x).2 = (fade s n).2) by (rewrite <- Ef; done).
      assert (Hs' : strong (fade s (S n)).1 (fade s (S n)).2) by (apply strong_mono with (S m); [lia|done]).
      rewrite fade_next in Hs' by lia. cbn [fst snd] in Hs'.
      destruct (C2 u x u' f_1 Hx He) as (x' & Hx' & Hle); [by rewrite E1, E2|].
      destruct (Hbound (S n) u' x') as (n' & Hn' & Hle'); [lia|done| | |].
      + by rewrite fade_next by lia.
      + rewrite fade_next by lia. cbn [fst]. by rewrite E1 in Hle.
      + exists x', n'. split; [done|]. split; [done|lia].
  Qed.

  Lemma full_weights fuel r : propagate_rewards (grun ops) ord fuel e s ts = Some r →
    ∀ u x, r !! u = Some x ↔ ∃ n, distance (grun ops) s l c n u ∧ strong (fade s n).1 (fade s n).2 ∧ x = Entry u (fade s n) ts.
  Proof using Hord Hroots Hl Hc Hfull.
    intros H u x. split.
    - intros Hx. destruct (result_ok ops ord Hord s e ts fuel r u x H Hx) as (Eu & Et & (l' & c' & n & E & Hn & Hcar) & _).
      assert (l' = l) by congruence. assert (c' = c) by congruence. subst l' c'. destruct (carried_full _ _ _ _ Hcar) as [Hst Ef]. pose proof (steps_pos _ _ Hst) as Hn1.
      assert (Hs : strong (fade s n).1 (fade s n).2).
      { rewrite <- Ef. cbn [fst snd]. destruct Hcar; done. }
      exists n. split; [split; [done|]|split; [done|]].
      + intros m Hm. apply Nat.nlt_ge. intros Hlt. pose proof (steps_pos _ _ Hm).
        destruct (full_reached fuel r m u H Hm) as (x' & n' & Hx' & Hcar' & Hle); [apply strong_mono with n; [lia|done]|].
        assert (x' = x) by congruence. subst x'. destruct (carried_full _ _ _ _ Hcar') as [Hst' Ef'].
        assert (EV : (fade s n).1 = (fade s n').1) by (rewrite <- Ef, <- Ef'; done).
        pose proof (steps_pos _ _ Hst'). pose proof (fade_decreasing s n' n ltac:(lia) ltac:(lia)) as D. rewrite EV in D. lra.
      + destruct x as [xu [xv xw] xt]. cbn [e_unit e_ts e_val fst snd] in *. by rewrite Ef, Eu, Et.
    - intros (n & [Hst Hmin] & Hs & ->). destruct (full_reached fuel r n u H Hst Hs) as (x & n' & Hx & Hcar & Hle).
      destruct (result_ok ops ord Hord s e ts fuel r u x H Hx) as (Eu & Et & _).
      destruct (carried_full _ _ _ _ Hcar) as [Hst' Ef]. specialize (Hmin _ Hst').
      assert (n' = n) as -> by lia. rewrite Hx. f_equal.
      destruct x as [xu [xv xw] xt]. cbn [e_unit e_ts e_val fst snd] in *. by rewrite Ef, Eu, Et.
  Qed.
End full.
