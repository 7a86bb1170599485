(** Proofs about propagated rewards (C34, C59). *)
From stdpp Require Import gmap strings list.
From Coq Require Import ZArith Reals Lra Lia.
From Flocq Require Import Core.Core IEEE754.BinarySingleNaN.
From Verif Require Import F32 Graph GraphSpec GraphProofs Stores Options Scorer ScorerSpec F32Real F32More ScorerProofs ScoreProofs PropagateSpec.
Local Open Scope R_scope.

Lemma leads_weight ops s u v w : leads (grun ops) s u v w → btw 0 1 w.
Proof.
  intros H. rewrite <- v_0, <- v_1. apply between_btw; [done|done|].
  apply (weights_in_unit ops u v). unfold leads in H. destruct (good_score s); [by left|by right].
Qed.

Lemma next_units g ord s u r v w : any_order ord → fgt r fzero = good_score s →
  (v, w) ∈ get_next_units g ord u r ↔ leads g s u v w.
Proof.
  intros Ho Hr. unfold get_next_units, leads, encompasses, is_encompassed_by, lists. rewrite Hr, (Ho u _).
  destruct (good_score s).
  - destruct (get_encompasses g u); [done|]. cbn. split; [intros H; by apply elem_of_nil in H|done].
  - destruct (get_encompassed_by g u); [done|]. cbn. split; [intros H; by apply elem_of_nil in H|done].
Qed.

(** ** Ranges along a path *)
Fixpoint limit (n : nat) : f32 := match n with O | 1%nat => f_1 | S n => fmul f_0_8 (limit n) end.

Lemma v_0_2' : val f_0_2 = 13421773 / 67108864. Proof. unfold f_0_2. litv. Qed.
Lemma v_0_3 : / 4 <= val f_0_3 <= / 2. Proof. unfold f_0_3. litv. Qed.

Lemma documented_fin s : fin (documented_reward s).
Proof. destruct s; done. Qed.
Lemma documented_sign s : if good_score s then 0 < val (documented_reward s) <= 1 else -1 <= val (documented_reward s) < 0.
Proof.
  pose proof v_0_8. pose proof v_0_4. pose proof v_0_5. pose proof v_0_3. pose proof v_1.
  destruct s; cbn [good_score documented_reward]; rewrite ?fneg_val; lra.
Qed.
Lemma documented_initial s : initial_reward s = documented_reward s.
Proof. destruct s; reflexivity. Qed.
Lemma initial_sign s : fgt (initial_reward s) fzero = good_score s.
Proof. destruct s; vm_compute; reflexivity. Qed.

Lemma doc_sign s : fgt (documented_reward s) fzero = good_score s.
Proof. rewrite <- documented_initial. apply initial_sign. Qed.

Definition value_ok (s : mastery_score) (v : f32) : Prop :=
  fin v ∧ if good_score s then val f_0_2 <= val v <= val (documented_reward s)
          else val (documented_reward s) <= val v <= - val f_0_2.
Lemma value_ok_sign s v : value_ok s v → fgt v fzero = good_score s.
Proof.
  intros [F H]. pose proof v_0_2'. change (fgt v fzero) with (flt fzero v). destruct (good_score s).
  - apply flt_true; [done|done|]. rewrite v_0. lra.
  - apply flt_false; [done|done|]. rewrite v_0. lra.
Qed.
Lemma strong_abs v w : fin v → fin w → strong v w ↔ val f_0_2 <= Rabs (val v) ∧ val f_0_2 <= val w.
Proof.
  intros Fv Fw. unfold strong. rewrite (fle_true f_0_2 (fabs v)) by (done || by apply fabs_fin).
  rewrite (fle_true f_0_2 w) by done. by rewrite fabs_val.
Qed.
Lemma not_stopped v w : fin v → fin w → stop_propagation v w = false ↔ strong v w.
Proof.
  intros Fv Fw. unfold stop_propagation, strong. rewrite orb_false_iff.
  rewrite !flt_false by (done || by apply fabs_fin). rewrite !fle_true by (done || by apply fabs_fin). done.
Qed.

(** One edge: the value and the weight before the thresholds. *)
Lemma first_step s e : btw 0 1 e → fin (fmul e (documented_reward s)) ∧
  (strong (fmul e (documented_reward s)) e → value_ok s (fmul e (documented_reward s))).
Proof.
  intros [Fe He]. pose proof (documented_sign s) as D. pose proof (documented_fin s) as FD.
  pose proof v_0_2' as V2. set (d := documented_reward s) in *.
  destruct (fmul_btw e d (-1) 1) as [[F B] E]; [done|done|rp|rp|destruct (good_score s); split; nra|].
  split; [done|]. intros Hs. apply strong_abs in Hs as [H1 H2]; [|done|done].
  split; [done|]. fold d. destruct (good_score s).
  - assert (0 <= val (fmul e d) <= val d).
    { rewrite E. split; [apply rnd_ge; [rp|nra]|apply rnd_le_repr; [by apply repr_val|nra]]. }
    rewrite Rabs_pos_eq in H1 by lra. lra.
  - assert (val d <= val (fmul e d) <= 0).
    { rewrite E. split; [apply rnd_ge; [by apply repr_val|nra]|apply rnd_le_repr; [rp|nra]]. }
    rewrite Rabs_left1 in H1 by lra. lra.
Qed.
Lemma next_step s e v w n : btw 0 1 e → value_ok s v → btw (val f_0_2) 1 w → val w <= val (limit (S n)) → fin (limit (S n)) →
  fin (fmul (fmul e f_0_9) v) ∧ fin (fmul (fmul e f_0_8) w) ∧
  val (fmul (fmul e f_0_8) w) <= 1 ∧ val (fmul (fmul e f_0_8) w) <= val (fmul f_0_8 (limit (S n))) ∧
  (strong (fmul (fmul e f_0_9) v) (fmul (fmul e f_0_8) w) → value_ok s (fmul (fmul e f_0_9) v)).
Proof.
  intros [Fe He] [Fv Hv] [Fw Hw] Hl Fl. pose proof (documented_sign s) as D.
  pose proof v_0_2' as V2. pose proof v_0_9 as V9. pose proof v_0_8 as V8.
  destruct (fmul_btw e f_0_9 0 (val f_0_9)) as [[F1 B1] E1]; [done|done|rp|by apply repr_val|split; nra|].
  destruct (fmul_btw e f_0_8 0 (val f_0_8)) as [[F2 B2] E2]; [done|done|rp|by apply repr_val|split; nra|].
  set (a := fmul e f_0_9) in *. set (b := fmul e f_0_8) in *.
  set (d := documented_reward s) in *.
  assert (Av : -1 <= val v <= 1) by (destruct (good_score s); lra).
  destruct (fmul_btw a v (-1) 1) as [[F3 B3] E3]; [done|done|rp|rp|split; nra|].
  destruct (fmul_btw b w 0 1) as [[F4 B4] E4]; [done|done|rp|rp|split; nra|].
  split; [done|]. split; [done|]. split; [lra|]. split.
  { rewrite E4. destruct (Rle_or_lt (val (limit (S n))) 1) as [L|L].
    - destruct (fmul_btw f_0_8 (limit (S n)) 0 1) as [_ E5]; [done|done|rp|rp|split; nra|].
      rewrite E5. apply rnd_le. nra.
    - exfalso. assert (val (limit (S n)) <= 1); [|lra]. clear - Fl. destruct n as [|n]; [change (limit 1) with f_1; rewrite v_1; lra|].
      revert Fl. induction n as [|n IH].
      + intros _. assert (fle (limit 2) f_1 = true) as H by (vm_compute; reflexivity).
        apply fle_true in H; [|vm_compute; reflexivity|done]. by rewrite v_1 in H.
      + intros Fl. change (limit (S (S (S n)))) with (fmul f_0_8 (limit (S (S n)))) in *.
        assert (Fl' : fin (limit (S (S n)))). { destruct (limit (S (S n))); done. }
        specialize (IH Fl'). pose proof v_0_8.
        assert (P : 0 <= val (limit (S (S n)))).
        { clear - Fl'. induction n as [|n IH].
          - assert (fle fzero (limit 2) = true) as H by (vm_compute; reflexivity).
            apply fle_true in H; [|done|vm_compute; reflexivity]. by rewrite v_0 in H.
          - change (limit (S (S (S n)))) with (fmul f_0_8 (limit (S (S n)))) in *.
            assert (Fl : fin (limit (S (S n)))). { destruct (limit (S (S n))); done. }
            specialize (IH Fl). pose proof v_0_8.
            destruct (fmul_between f_0_8 (limit (S (S n))) fzero (limit (S (S n)))) as (_ & _ & B); [done|done|rewrite v_0; split; nra|].
            rewrite v_0 in B. lra. }
        destruct (fmul_btw f_0_8 (limit (S (S n))) 0 1) as [[_ B] _]; [done|done|rp|rp|split; nra|]. lra. }
  intros Hs. apply strong_abs in Hs as [H1 H2]; [|done|done]. split; [done|]. fold d. destruct (good_score s).
  - assert (0 <= val (fmul a v) <= val v).
    { rewrite E3. split; [apply rnd_ge; [rp|nra]|apply rnd_le_repr; [by apply repr_val|nra]]. }
    rewrite Rabs_pos_eq in H1 by lra. lra.
  - assert (val v <= val (fmul a v) <= 0).
    { rewrite E3. split; [apply rnd_ge; [by apply repr_val|nra]|apply rnd_le_repr; [rp|nra]]. }
    rewrite Rabs_left1 in H1 by lra. lra.
Qed.

Lemma limit_8 : flt (limit 9) f_0_2 = true ∧ forallb (λ n, is_finite (limit n)) (seq 0 10) = true.
Proof. split; vm_compute; reflexivity. Qed.
Lemma limit_fin n : (n <= 9)%nat → fin (limit n).
Proof.
  intros H. destruct limit_8 as [_ E]. rewrite forallb_forall in E. apply (E n). apply in_seq. lia.
Qed.

Lemma limit_9 : val (fmul f_0_8 (limit 8)) < val f_0_2.
Proof.
  apply (flt_true (fmul f_0_8 (limit 8)) f_0_2); [exact (limit_fin 9 (le_n 9))|done|exact (proj1 limit_8)].
Qed.

Lemma carried_ok ops s l c n u v w : carried (grun ops) s l c n u v w →
  value_ok s v ∧ btw (val f_0_2) 1 w ∧ val w <= val (limit n) ∧ (1 <= n <= 8)%nat.
Proof.
  induction 1 as [root u e Hr Hl Hs|n u v w u' e Hc (IHv & IHw & IHl & IHn) Hl Hs].
  - pose proof (leads_weight _ _ _ _ _ Hl) as He. destruct (first_step s e He) as [F Hv].
    split; [auto|]. destruct He as [Fe He]. apply strong_abs in Hs as [_ Hs]; [|done|done].
    split; [split; [done|lra]|]. split; [change (limit 1) with f_1; rewrite v_1; lra|lia].
  - pose proof (leads_weight _ _ _ _ _ Hl) as He. destruct n as [|n]; [lia|].
    destruct (next_step s e v w n He IHv IHw IHl) as (F1 & F2 & L1 & L2 & Hv); [apply limit_fin; lia|].
    split; [auto|]. assert (Hs' := Hs). apply strong_abs in Hs' as [_ Hs']; [|done|done].
    split; [split; [done|lra]|]. split; [done|]. split; [lia|].
    assert (S n ≠ 8%nat); [|lia]. intros En. injection En as ->.
    pose proof limit_9. lra.
Qed.

(** ** Both stacks and results hold carried rewards *)
Section loop.
  Context (ops : list gop) (ord : uid → list (uid * f32) → list (uid * f32)) (Hord : any_order ord)
    (s : mastery_score) (lesson course : uid) (ts : Z).
  Let g : graph := grun ops.
  Definition good_item (r : entry reward) : Prop :=
    e_ts r = ts ∧ ∃ n, carried g s lesson course n (e_unit r) (e_val r).1 (e_val r).2.

  Lemma push_all l stack : Forall (λ r : entry reward, fin (e_val r).1 ∧ fin (e_val r).2) l →
    ∀ r : entry reward, r ∈ fold_left push_reward l stack ↔ (r ∈ l ∧ strong (e_val r).1 (e_val r).2) ∨ r ∈ stack.
  Proof using.
    intros H. revert stack. induction H as [|x l [F1 F2] _ IH]; intros stack r.
    { cbn. rewrite elem_of_nil. tauto. }
    cbn [fold_left]. rewrite IH. unfold push_reward. rewrite elem_of_cons.
    destruct (stop_propagation _ _) eqn:E.
    - assert (¬ strong (e_val x).1 (e_val x).2). { intros S. apply not_stopped in S; [congruence|done|done]. }
      split; [intros [[? ?]|?]; auto|]. intros [[[-> | ?] ?]|?]; auto. by destruct H.
    - apply not_stopped in E; [|done|done]. rewrite elem_of_cons. split; [|intros [[[-> | ?] ?]|?]; auto].
      intros [[? ?]|[-> | ?]]; auto.
  Qed.
  (** Pushing puts new items on top. *)
  Lemma push_shape (l stack : list (entry reward)) : ∃ new, fold_left push_reward l stack = new ++ stack ∧
    ∀ r : entry reward, r ∈ new → r ∈ l ∧ stop_propagation (e_val r).1 (e_val r).2 = false.
  Proof using.
    revert stack. induction l as [|x l IH]; intros stack.
    { exists []. split; [done|]. intros r H. by apply elem_of_nil in H. }
    cbn [fold_left]. destruct (IH (push_reward stack x)) as (new & -> & Hn). unfold push_reward.
    destruct (stop_propagation (e_val x).1 (e_val x).2) eqn:E.
    - exists new. split; [done|]. intros r Hr. destruct (Hn r Hr). split; [by right|done].
    - exists (new ++ [x]). split; [by rewrite <- app_assoc|]. intros r.
      rewrite elem_of_app, elem_of_list_singleton, elem_of_cons. intros [H| ->]; [|auto]. destruct (Hn r H). auto.
  Qed.

  Lemma first_items : let l := first_reward (initial_reward s) ts <$>
      get_next_units g ord lesson (initial_reward s) ++ get_next_units g ord course (initial_reward s) in
    Forall (λ r : entry reward, fin (e_val r).1 ∧ fin (e_val r).2) l ∧
    ∀ r, r ∈ first_stack g ord lesson course (initial_reward s) ts ↔
      e_ts r = ts ∧ ∃ root, (root = lesson ∨ root = course) ∧ leads g s root (e_unit r) (e_val r).2 ∧
        (e_val r).1 = fmul (e_val r).2 (documented_reward s) ∧ strong (e_val r).1 (e_val r).2.
  Proof using Hord.
    intros l. assert (HF : Forall (λ r : entry reward, fin (e_val r).1 ∧ fin (e_val r).2) l).
    { apply Forall_fmap, Forall_forall. intros [v w] H. cbn [first_reward e_val fst snd]. rewrite documented_initial.
      assert (btw 0 1 w) as Hw.
      { apply elem_of_app in H as [H|H]; apply (next_units g ord s) in H; try done; try apply initial_sign;
          by apply leads_weight in H. }
      split; [exact (proj1 (first_step s w Hw))|apply Hw]. }
    split; [done|]. intros r. unfold first_stack. rewrite push_all by done. rewrite elem_of_nil. unfold l. rewrite elem_of_list_fmap.
    split.
    - intros [[([v w] & -> & Hin) Hs]|[]]. cbn [e_ts e_unit e_val first_reward fst snd] in *. split; [done|].
      rewrite documented_initial in *.
      apply elem_of_app in Hin as [H|H]; apply (next_units g ord s _ _ _ _ Hord (doc_sign s)) in H; eauto 10.
    - intros (Ht & root & Hr & Hl & Hv & Hs). left. split; [|done]. destruct r as [u [v w] t]. cbn [e_ts e_unit e_val fst snd] in *. subst.
      exists (u, w). unfold first_reward. cbn [fst snd]. change (initial_reward s) with (documented_reward s). split; [done|].
      apply elem_of_app. destruct Hr as [-> | ->]; [left|right]; by apply (next_units g ord s _ _ _ _ Hord (doc_sign s)).
  Qed.
  Lemma next_items item : good_item item →
    Forall (λ r : entry reward, fin (e_val r).1 ∧ fin (e_val r).2) (next_reward item ts <$> get_next_units g ord (e_unit item) (e_val item).1) ∧
    ∀ stack r, r ∈ push_next g ord item ts stack ↔ r ∈ stack ∨
      (e_ts r = ts ∧ ∃ e, leads g s (e_unit item) (e_unit r) e ∧ (e_val r).1 = fmul (fmul e f_0_9) (e_val item).1 ∧
        (e_val r).2 = fmul (fmul e f_0_8) (e_val item).2 ∧ strong (e_val r).1 (e_val r).2).
  Proof using Hord.
    intros (Ht & n & Hc). destruct (carried_ok _ _ _ _ _ _ _ _ Hc) as (Hv & Hw & Hl & Hn).
    pose proof (value_ok_sign _ _ Hv) as Hsign. destruct n as [|n]; [lia|].
    assert (HF : Forall (λ r : entry reward, fin (e_val r).1 ∧ fin (e_val r).2)
      (next_reward item ts <$> get_next_units g ord (e_unit item) (e_val item).1)).
    { apply Forall_fmap, Forall_forall. intros [u e] H. cbn. apply (next_units g ord s) in H; [|done|done].
      apply leads_weight in H. destruct (next_step s e _ _ n H Hv Hw Hl) as (F1 & F2 & _); [apply limit_fin; lia|]. done. }
    split; [done|]. intros stack r. unfold push_next. rewrite push_all by done. rewrite elem_of_list_fmap. split.
    - intros [[([u e] & -> & Hin) Hs]|?]; [|by left]. right. cbn [e_ts e_unit e_val next_reward fst snd] in *. split; [done|].
      apply (next_units g ord s) in Hin; [|done|done]. eauto 10.
    - intros [?|(Et & e & He & E1 & E2 & Hs)]; [by right|]. left. split; [|done].
      destruct r as [u [v w] t]. cbn [e_ts e_unit e_val fst snd] in *. subst. exists (u, e). split; [done|].
      by apply (next_units g ord s).
  Qed.

  Lemma first_good r : r ∈ first_stack g ord lesson course (initial_reward s) ts → good_item r.
  Proof using Hord.
    intros H. apply first_items in H as (Et & root & Hr & Hl & Hv & Hs). split; [done|].
    exists 1%nat. destruct r as [u [v w] t]. cbn [e_ts e_unit e_val fst snd] in *. subst v. by apply carried_first with root.
  Qed.
  Lemma next_good item stack r : good_item item → (∀ r, r ∈ stack → good_item r) → r ∈ push_next g ord item ts stack → good_item r.
  Proof using Hord.
    intros Hi Hst H. apply next_items in H; [|done]. destruct H as [H|(Et & e & He & E1 & E2 & Hs)]; [auto|].
    split; [done|]. destruct Hi as (_ & n & Hc). exists (S n).
    destruct r as [u [v w] t]. cbn [e_ts e_unit e_val fst snd] in *. subst v w. by apply carried_next with (e_unit item).
  Qed.

  (** ** Termination *)
  Definition ends (stack : list (entry reward)) : Prop :=
    ∃ n, ∀ results fuel, (n <= fuel)%nat → is_Some (propagate_loop g ord fuel ts stack results).
  Lemma ends_nil : ends [].
  Proof using. exists 1%nat. intros results [|fuel] H; [lia|]. by eexists. Qed.
  Lemma ends_items : ∀ d item stack, e_ts item = ts →
    (∃ n, carried g s lesson course n (e_unit item) (e_val item).1 (e_val item).2 ∧ (9 - n <= d)%nat) →
    ends stack → ends (item :: stack).
  Proof using Hord.
    induction d as [|d IH]; intros item stack Ht (n & Hc & Hd) [m Hm].
    { apply carried_ok in Hc as (_ & _ & _ & ?). lia. }
    assert (Hi : good_item item) by (split; [done|by exists n]).
    assert (Hpush : ends (push_next g ord item ts stack)).
    { unfold push_next. match goal with |- ends (fold_left _ ?l _) => destruct (push_shape l stack) as (new & E & Hn) end.
      rewrite E. clear E. destruct (next_items item Hi) as [HF HN].
      assert (HN' : ∀ r : entry reward, r ∈ new → e_ts r = ts ∧
        carried g s lesson course (S n) (e_unit r) (e_val r).1 (e_val r).2).
      { intros r Hr. destruct (Hn r Hr) as [Hin Hs]. rewrite Forall_forall in HF. destruct (HF r Hin) as [F1 F2].
        apply not_stopped in Hs; [|done|done]. apply elem_of_list_fmap in Hin as ([u e] & -> & Hin). split; [done|].
        cbn [e_ts e_unit e_val next_reward fst snd] in *. apply carried_next with (e_unit item); [done| |done].
        apply (next_units g ord s) in Hin; [done|done|]. apply carried_ok in Hc as (Hv & _). by apply value_ok_sign. }
      clear Hn. induction new as [|x new IHn]; [by exists m|]. cbn [app].
      destruct (HN' x) as [Ex Cx]; [left|].
      apply IH; [done| |apply IHn; intros r Hr; apply HN'; by right].
      exists (S n). split; [done|lia]. }
    destruct Hpush as [k Hk]. exists (S (m `max` k))%nat. intros results [|fuel] Hf; [lia|]. cbn [propagate_loop].
    destruct (weaker results item); [apply Hm; lia|apply Hk; lia].
  Qed.
  Lemma ends_good stack : (∀ r, r ∈ stack → good_item r) → ends stack.
  Proof using Hord.
    induction stack as [|r stack IH]; intros H; [apply ends_nil|].
    destruct (H r) as (Et & n & Hc); [left|].
    apply ends_items with (d := 9%nat); [done| |apply IH; intros x Hx; apply H; by right].
    exists n. split; [done|lia].
  Qed.
  Lemma loop_more fuel stack results r : propagate_loop g ord fuel ts stack results = Some r →
    ∀ k, propagate_loop g ord (fuel + k) ts stack results = Some r.
  Proof using.
    revert stack results. induction fuel as [|fuel IH]; intros stack results H k; [done|].
    cbn [propagate_loop Nat.add] in *. destruct stack as [|item stack]; [done|].
    destruct (weaker results item); auto.
  Qed.

  (** ** The loop invariant *)
  Definition stronger (a b : f32) : Prop := Rabs (val b) <= Rabs (val a).
  Definition covered (stack : list (entry reward)) (results : gmap uid (entry reward)) (u : uid) (v : f32) : Prop :=
    (∃ r, results !! u = Some r ∧ stronger (e_val r).1 v) ∨ (∃ r, r ∈ stack ∧ e_unit r = u ∧ stronger (e_val r).1 v).
  Definition loop_inv (stack : list (entry reward)) (results : gmap uid (entry reward)) : Prop :=
    (∀ r, r ∈ stack → good_item r) ∧
    (∀ u r, results !! u = Some r → e_unit r = u ∧ good_item r) ∧
    (* everything sent on is covered *)
    (∀ r, r ∈ first_stack g ord lesson course (initial_reward s) ts → covered stack results (e_unit r) (e_val r).1) ∧
    (∀ u r u' e, results !! u = Some r → leads g s u u' e →
      strong (fmul (fmul e f_0_9) (e_val r).1) (fmul (fmul e f_0_8) (e_val r).2) →
      covered stack results u' (fmul (fmul e f_0_9) (e_val r).1)).

  Lemma good_fin r : good_item r → fin (e_val r).1.
  Proof using. intros (_ & n & H). by apply carried_ok in H as ([? _] & _). Qed.
  Lemma weaker_spec results item : (∀ u r, results !! u = Some r → e_unit r = u ∧ good_item r) → good_item item →
    weaker results item = true ↔ ∃ r, results !! e_unit item = Some r ∧ stronger (e_val r).1 (e_val item).1.
  Proof using.
    intros HR HI. unfold weaker, stronger. destruct (results !! e_unit item) as [r|] eqn:E.
    - destruct (HR _ _ E) as [_ HG]. change (fge (fabs (e_val r).1) (fabs (e_val item).1)) with (fle (fabs (e_val item).1) (fabs (e_val r).1)).
      rewrite fle_true by (by apply fabs_fin, good_fin). rewrite !fabs_val. split; [eauto|]. intros (r' & ? & ?). by simplify_eq.
    - split; [done|]. intros (r' & ? & ?). done.
  Qed.

  Lemma inv_start : loop_inv (first_stack g ord lesson course (initial_reward s) ts) ∅.
  Proof using Hord.
    split; [apply first_good|]. split; [intros u r H; by rewrite lookup_empty in H|]. split.
    - intros r Hr. right. exists r. split; [done|]. split; [done|]. unfold stronger. lra.
    - intros u r u' e H. by rewrite lookup_empty in H.
  Qed.
  Lemma inv_loop fuel stack results r : loop_inv stack results → propagate_loop g ord fuel ts stack results = Some r → loop_inv [] r.
  Proof using Hord.
    revert stack results. induction fuel as [|fuel IH]; intros stack results HI H; [done|].
    cbn [propagate_loop] in H. destruct stack as [|item stack]; [by simplify_eq|].
    destruct HI as (H1 & H2 & H3 & H4).
    assert (Hit : good_item item) by (apply H1; left).
    assert (Hst : ∀ x, x ∈ stack → good_item x) by (intros x Hx; apply H1; by right).
    destruct (weaker results item) eqn:E.
    - apply IH in H; [done|]. apply weaker_spec in E as (r0 & Er & Sr); [|done|done].
      assert (HC : ∀ u v, covered (item :: stack) results u v → covered stack results u v).
      { intros u v [?|(x & Hx & Eu & Sx)]; [by left|]. apply elem_of_cons in Hx as [-> | Hx]; [|right; eauto].
        left. exists r0. rewrite <- Eu. split; [done|]. unfold stronger in *. eapply Rle_trans; eassumption. }
      split; [done|]. split; [done|]. split; [auto|]. eauto.
    - apply IH in H; [done|].
      assert (HC : ∀ u v, covered (item :: stack) results u v →
        covered (push_next g ord item ts stack) (<[e_unit item := item]> results) u v).
      { intros u v [(x & Hx & Sx)|(x & Hx & Eu & Sx)].
        - left. destruct (decide (u = e_unit item)) as [-> | Hne].
          + exists item. rewrite lookup_insert. split; [done|].
            assert (¬ stronger (e_val x).1 (e_val item).1).
            { intros HS. assert (weaker results item = true); [|congruence]. apply weaker_spec; eauto. }
            unfold stronger in *. eapply Rle_trans; [exact Sx|]. apply Rlt_le, Rnot_le_lt. done.
          + exists x. by rewrite lookup_insert_ne.
        - apply elem_of_cons in Hx as [-> | Hx].
          + left. exists item. rewrite <- Eu, lookup_insert. done.
          + right. exists x. split; [|done]. apply next_items; [done|]. by left. }
      split; [intros x Hx; by eapply next_good|]. split; [|split].
      + intros u x Hx. destruct (decide (u = e_unit item)) as [-> | Hne].
        * rewrite lookup_insert in Hx. by simplify_eq.
        * rewrite lookup_insert_ne in Hx by done. auto.
      + auto.
      + intros u x u' e Hx Hl Hs. destruct (decide (u = e_unit item)) as [-> | Hne].
        * rewrite lookup_insert in Hx. simplify_eq. right.
          exists (Entry u' (fmul (fmul e f_0_9) (e_val x).1, fmul (fmul e f_0_8) (e_val x).2) ts).
          split; [|split; [done|]; unfold stronger; cbn; lra].
          apply next_items; [done|]. right. split; [done|]. exists e. done.
        * rewrite lookup_insert_ne in Hx by done. eauto.
  Qed.
End loop.
