(** Proofs about the review knocker. *)
From stdpp Require Import gmap strings list.
From Coq Require Import ZArith Reals Lra.
From Verif Require Import F32 F32Real Graph Options OptionsSpec OptionsProofs Batch BatchSpec.

Lemma List_filter_filter {A} (P : A → bool) (l : list A) : List.filter P l = filter (λ x, P x = true) l.
Proof.
  induction l as [|x l IH]; simpl; [done|]. rewrite filter_cons, IH.
  destruct (P x) eqn:E; [by rewrite decide_True|by rewrite decide_False].
Qed.

(** ** The traversal ends *)
Section walk.
  Context (nexts : uid → option (list (uid * f32))) (course_of : uid → option uid) (units : list uid).
  Definition degree (u : uid) : nat := length (default [] (nexts u)).
  Definition pending (visited : gset uid) (us : list uid) : nat :=
    sum_list_with (λ u, if decide (u ∈ visited) then 0 else degree u) us.

  Lemma pending_visit u visited us : u ∉ visited →
    pending ({[u]} ∪ visited) us + (if decide (u ∈ us) then degree u else 0) ≤ pending visited us.
  Proof.
    intros Hu. induction us as [|x us IH]; [done|]. unfold pending in *. cbn [sum_list_with].
    destruct (decide (u ∈ x :: us)) as [Hin|Hin].
    - destruct (decide (x = u)) as [->|Hne].
      + rewrite (decide_True (P := u ∈ {[u]} ∪ visited)) by set_solver.
        rewrite (decide_False (P := u ∈ visited)) by done.
        destruct (decide (u ∈ us)); lia.
      + assert (u ∈ us) by set_solver. rewrite (decide_True (P := u ∈ us)) in IH by done.
        destruct (decide (x ∈ visited)) as [H1|H1].
        * rewrite (decide_True (P := x ∈ {[u]} ∪ visited)) by set_solver. lia.
        * rewrite (decide_False (P := x ∈ {[u]} ∪ visited)) by set_solver. lia.
    - destruct (decide (u ∈ us)) as [|_]; [set_solver|].
      assert (x ≠ u) by set_solver.
      destruct (decide (x ∈ visited)) as [H1|H1].
      + rewrite (decide_True (P := x ∈ {[u]} ∪ visited)) by set_solver. lia.
      + rewrite (decide_False (P := x ∈ {[u]} ∪ visited)) by set_solver. lia.
  Qed.
  Lemma pending_empty us : pending ∅ us = sum_list_with degree us.
  Proof.
    induction us as [|x us IH]; [done|]. unfold pending in *. cbn [sum_list_with].
    rewrite decide_False by set_solver. lia.
  Qed.

  Lemma pushes_length r w es : length (mjoin (edge_pushes course_of r w <$> es)) ≤ 2 * length es.
  Proof.
    induction es as [|e es IH]; [done|]. rewrite fmap_cons.
    change (mjoin (?a :: ?l)) with (a ++ mjoin l). rewrite app_length. assert (length (edge_pushes course_of r w e) ≤ 2).
    { unfold edge_pushes. destruct (course_of e.1); simpl; lia. }
    cbn [length]. lia.
  Qed.
  Lemma filter_length_le {A} (P : A → bool) l : length (List.filter P l) ≤ length l.
  Proof. induction l as [|x l IH]; simpl; [done|]. destruct (P x); simpl; lia. Qed.

  Hypothesis Hunits : ∀ u, nexts u ≠ None → u ∈ units.
  Lemma walk_enough fuel : ∀ stack visited, length stack + 2 * pending visited units < fuel →
    ∃ out, walk nexts course_of fuel stack visited = Some out.
  Proof using Hunits.
    induction fuel as [|fuel IH]; [lia|]. intros [|it stack] visited Hf; simpl; [eauto|].
    case_bool_decide as Hv; [apply IH; simpl in Hf; lia|].
    set (live := List.filter _ _).
    destruct (IH (rev (mjoin (edge_pushes course_of (wi_reward it) (wi_weight it) <$> live)) ++ stack)
                 ({[wi_unit it]} ∪ visited)) as [out ->]; [|simpl; eauto].
    rewrite app_length, rev_length.
    pose proof (pushes_length (wi_reward it) (wi_weight it) live) as H1.
    assert (H2 : length live ≤ degree (wi_unit it)) by apply filter_length_le.
    pose proof (pending_visit (wi_unit it) visited units Hv) as H3.
    destruct (decide (wi_unit it ∈ units)) as [Hu|Hu]; [simpl in Hf; lia|].
    assert (degree (wi_unit it) = 0).
    { unfold degree. destruct (nexts (wi_unit it)) eqn:E; [|done]. exfalso. apply Hu, Hunits. by rewrite E. }
    simpl in Hf. lia.
  Qed.
  Lemma walk_all_enough starts : ∃ out, walk_all nexts course_of (walk_fuel nexts units) starts = Some out.
  Proof using Hunits.
    induction starts as [|s starts [b Hb]]; cbn [walk_all]; [eauto|].
    destruct (walk_enough (walk_fuel nexts units) [WItem s f_1 f_1] ∅) as [a Ha].
    { rewrite pending_empty. unfold walk_fuel. unfold degree. simpl. lia. }
    rewrite Ha. cbn [mbind option_bind]. rewrite Hb. simpl. eauto.
  Qed.
End walk.

Lemma knock_total g ord batch : edges_ok g → ∃ k, knock_out_reviews g ord batch = Some k.
Proof.
  intros [_ H]. unfold knock_out_reviews.
  destruct (walk_all_enough (ed_down g) (ed_course g) (ed_units g)) with (starts := batch_units ord batch)
    as [d ->]; [naive_solver|].
  destruct (walk_all_enough (ed_up g) (ed_course g) (ed_units g)) with (starts := batch_units ord batch)
    as [u ->]; [naive_solver|].
  simpl. eauto.
Qed.

(** ** What the traversal adds up *)
Section cover.
  Context (g : edges).
  Notation nexts := (ed_down g).
  Definition to (t : uid) (cs : list contribution) : nat := length (filter (λ c : contribution, c.1.2 = t) cs).
  Lemma to_app t a b : to t (a ++ b) = to t a + to t b.
  Proof. unfold to. rewrite filter_app, app_length. done. Qed.
  Lemma to_live u r w t :
    to t ((λ e : uid * f32, (u, e.1, e.2)) <$> List.filter (live_edge r w) (default [] (nexts u))) ≤ edge_count g u t.
  Proof.
    unfold edge_count. induction (default [] (nexts u)) as [|e l IH]; simpl; [done|].
    rewrite filter_cons.
    destruct (live_edge r w e) eqn:E; simpl.
    - unfold to in *. rewrite filter_cons. simpl.
      unfold live_edge in E. apply negb_true_iff, orb_false_iff in E as [E _].
      destruct (decide (e.1 = t)) as [Ht|Ht].
      + rewrite decide_True by done. apply le_n_S, IH.
      + rewrite decide_False by naive_solver. exact IH.
    - destruct (decide (e.1 = t ∧ feq e.2 fzero = false)); [by apply le_S|done].
  Qed.

  (** Every contribution comes from an edge of the graph that is not zero. *)
  Definition from_edges (cs : list contribution) : Prop :=
    ∀ u t w, (u, t, w) ∈ cs → ∃ l, nexts u = Some l ∧ (t, w) ∈ l.

  (** The weight of an item after [d] steps. *)
  Definition faded (d : nat) : f32 := Nat.iter d (λ x, fmul x f_0_8) f_1.
  Definition weak (d : nat) (w : f32) : Prop := fin w ∧ (0 <= val w <= val (faded d))%R ∧ d ≤ 8.
  Lemma faded_range d : fin (faded d) ∧ (0 <= val (faded d) <= 1)%R.
  Proof.
    assert (V1 : val f_1 = 1%R) by exact (float_score_val One).
    assert (V8 : (0 <= val f_0_8 <= 1)%R) by (unfold f_0_8; rewrite lit_val; simpl; lra).
    induction d as [|d [Hf Hv]]; [split; [done|]; change (faded 0) with f_1; lra|].
    change (faded (S d)) with (fmul (faded d) f_0_8).
    destruct (fmul_between (faded d) f_0_8 fzero f_1) as (F & _ & B); [done|done| |].
    - rewrite val_fzero, V1. clear - Hv V8. split; [apply Rmult_le_pos; lra|].
      replace 1%R with (1 * 1)%R by lra. apply Rmult_le_compat; lra.
    - rewrite val_fzero, V1 in B. done.
  Qed.
  Lemma weak_step d e w : fle fzero e = true → fle e f_1 = true → d ≤ 7 → weak d w → weak (S d) (fmul (fmul e w) f_0_8).
  Proof.
    assert (V1 : val f_1 = 1%R) by exact (float_score_val One).
    assert (V8 : (0 <= val f_0_8 <= 1)%R) by (unfold f_0_8; rewrite lit_val; simpl; lra).
    intros E0 E1 Hd (Fw & Vw & _). destruct (fle_between e fzero f_1) as [Fe Ve]; try done. rewrite val_fzero, V1 in Ve.
    destruct (faded_range d) as [Ff Vf].
    destruct (fmul_between e w fzero (faded d)) as (F1 & _ & B1); [done|done| |].
    { rewrite val_fzero. split; [apply Rmult_le_pos; lra|].
      replace (val (faded d)) with (1 * val (faded d))%R by lra. apply Rmult_le_compat; lra. }
    rewrite val_fzero in B1. set (x := fmul e w) in *. clearbody x.
    assert (H1 : (0 <= val x * val f_0_8 <= val f_1)%R).
    { rewrite V1. split; [apply Rmult_le_pos; lra|]. replace 1%R with (1 * 1)%R by lra. apply Rmult_le_compat; lra. }
    assert (H2 : (0 <= val (faded d) * val f_0_8 <= val f_1)%R).
    { rewrite V1. split; [apply Rmult_le_pos; lra|]. replace 1%R with (1 * 1)%R by lra. apply Rmult_le_compat; lra. }
    destruct (fmul_between x f_0_8 fzero f_1) as (F2 & R2 & B2); [done|done|by rewrite val_fzero|].
    destruct (fmul_between (faded d) f_0_8 fzero f_1) as (_ & R3 & _); [done|done|by rewrite val_fzero|].
    split; [done|]. split; [|lia]. rewrite val_fzero in B2. split; [lra|].
    change (faded (S d)) with (fmul (faded d) f_0_8). rewrite R2, R3. apply rnd_le. apply Rmult_le_compat_r; lra.
  Qed.
  Lemma weak_live d r w e : weak d w → live_edge r w e = true → d ≤ 7.
  Proof.
    intros (Fw & Vw & Hd) He. destruct (decide (d = 8)) as [->|]; [|lia]. exfalso.
    unfold live_edge, stop_propagation in He. apply negb_true_iff, orb_false_iff in He as [_ He].
    apply orb_false_iff in He as [_ He]. apply flt_false in He; [|done|done].
    assert (H8 : flt (faded 8) f_0_2 = true) by (vm_compute; reflexivity).
    apply flt_true in H8; [|apply faded_range|done]. lra.
  Qed.

  Context (Hw : weights_ok g).
  Lemma walk_cover fuel : ∀ stack visited out, (∀ it, it ∈ stack → ∃ d, weak d (wi_weight it)) →
    walk nexts (ed_course g) fuel stack visited = Some out →
    ∃ us : list uid, NoDup us ∧ (∀ u, u ∈ us → u ∉ visited ∧ ∃ it, it ∈ stack ∧
        ∀ d, weak d (wi_weight it) → ∃ n, n + d ≤ 7 ∧ nsteps (covers_step g) n (wi_unit it) u) ∧
      (∀ t, to t out ≤ sum_list_with (λ u, edge_count g u t) us) ∧ from_edges out.
  Proof using Hw.
    induction fuel as [|fuel IH]; [done|]. intros [|it stack] visited out Hst; simpl.
    { intros [= <-]. exists []. split; [constructor|]. split; [set_solver|]. split; [done|].
      intros u t w. set_solver. }
    assert (Hst' : ∀ it, it ∈ stack → ∃ d, weak d (wi_weight it)) by (intros i Hi; apply Hst; by right).
    case_bool_decide as Hv.
    - intros H. destruct (IH _ _ _ Hst' H) as (us & H1 & H2 & H3). exists us. split; [done|]. split; [|done].
      intros u Hu. destruct (H2 u Hu) as [? (i & ? & ?)]. split; [done|]. exists i. split; [by right|done].
    - set (live := List.filter _ _). set (pushed := rev _).
      destruct (walk _ _ _ _ _) as [out'|] eqn:E; simpl; [|done]. intros [= <-].
      destruct (Hst it) as [d0 Hd0]; [left|].
      assert (Hlive : ∀ e, e ∈ live → live_edge (wi_reward it) (wi_weight it) e = true ∧
        ∃ l, nexts (wi_unit it) = Some l ∧ e ∈ l ∧ feq e.2 fzero = false).
      { intros e He. unfold live in He. rewrite List_filter_filter in He. apply elem_of_list_filter in He as [He Hin].
        split; [done|]. destruct (nexts (wi_unit it)) as [l|] eqn:En; [|simpl in Hin; set_solver]. exists l. split; [done|].
        split; [done|]. unfold live_edge in He. apply negb_true_iff, orb_false_iff in He as [He _]. done. }
      assert (Hpush : ∀ i, i ∈ pushed → ∃ e, e ∈ live ∧ (wi_unit i = e.1 ∨ ed_course g e.1 = Some (wi_unit i)) ∧
        ∀ d, weak d (wi_weight it) → weak (S d) (wi_weight i)).
      { intros i Hi. unfold pushed in Hi. apply elem_of_list_In, in_rev, elem_of_list_In in Hi.
        apply elem_of_list_join in Hi as (l & Hi & Hl). apply elem_of_list_fmap in Hl as (e & -> & He).
        exists e. split; [done|]. destruct (Hlive e He) as (Hle & l & Hl & Hin & _).
        destruct (Hw (wi_unit it) l e.1 e.2 Hl) as [W0 W1]; [by destruct e|].
        assert (Hk : ∀ d, weak d (wi_weight it) → weak (S d) (fmul (fmul e.2 (wi_weight it)) f_0_8)).
        { intros d Hd. apply weak_step; [done|done|by eapply weak_live|done]. }
        unfold edge_pushes in Hi. apply elem_of_cons in Hi as [->|Hi]; [split; [by left|exact Hk]|].
        destruct (ed_course g e.1) as [c|] eqn:Ec; [|set_solver].
        apply elem_of_list_singleton in Hi as ->. split; [by right|exact Hk]. }
      destruct (IH (pushed ++ stack) ({[wi_unit it]} ∪ visited) out') as (us & H1 & H2 & H3 & H4); [|exact E|].
      { intros i [Hi|Hi]%elem_of_app; [|by apply Hst']. destruct (Hpush i Hi) as (e & _ & _ & Hk). eauto. }
      assert (Hrest : ∀ u, u ∈ us → u ∉ visited ∧ u ≠ wi_unit it ∧ ∃ i, i ∈ it :: stack ∧
        ∀ d, weak d (wi_weight i) → ∃ n, n + d ≤ 7 ∧ nsteps (covers_step g) n (wi_unit i) u).
      { intros u Hu. destruct (H2 u Hu) as [Hn (i & Hi & Hc)]. split; [set_solver|]. split; [set_solver|].
        apply elem_of_app in Hi as [Hi|Hi]; [|by exists i; split; [right|]].
        exists it. split; [left|]. intros d Hd. destruct (Hpush i Hi) as (e & He & Hu' & Hk).
        destruct (Hc (S d) (Hk d Hd)) as (n & Hn' & Hs). exists (S n). split; [lia|].
        eapply nsteps_l; [|exact Hs]. destruct (Hlive e He) as (_ & l & Hl & Hin & Hz).
        exists e.1. split; [|destruct Hu' as [->|Hu']; [by left|by right]]. exists l, e.2. split; [done|]. by destruct e. }
      assert (Hfrom : from_edges (((λ e : uid * f32, (wi_unit it, e.1, e.2)) <$> live) ++ out')).
      { intros u t w [Hin|Hin]%elem_of_app; [|by eapply H4].
        apply elem_of_list_fmap in Hin as (e & [= -> -> ->] & He). destruct (Hlive e He) as (_ & l & Hl & Hin & _).
        exists l. split; [done|]. by destruct e. }
      destruct live as [|e0 live'] eqn:El.
      { exists us. split; [done|]. split; [|split; [|done]].
        - intros u Hu. destruct (Hrest u Hu) as (? & _ & ?). done.
        - intros t. simpl. apply H3. }
      rewrite <-El in *. exists (wi_unit it :: us). split_and!.
      + constructor; [|done]. intros Hin. by destruct (Hrest _ Hin) as (_ & Hn & _).
      + intros u [->|Hu]%elem_of_cons; [|by destruct (Hrest u Hu) as (? & _ & ?)].
        split; [done|]. exists it. split; [left|]. intros d Hd. exists 0. split; [|constructor].
        destruct (Hlive e0) as (Hle & _); [rewrite El; left|]. simpl. by eapply weak_live.
      + intros t. rewrite to_app. cbn [sum_list_with]. pose proof (to_live (wi_unit it) (wi_reward it) (wi_weight it) t) as Ht.
        specialize (H3 t). fold live in Ht. lia.
      + exact Hfrom.
  Qed.

  Lemma walk_all_cover fuel starts out : NoDup starts → walk_all nexts (ed_course g) fuel starts = Some out →
    ∃ ps : list (uid * uid), NoDup ps ∧ (∀ s u, (s, u) ∈ ps → s ∈ starts ∧ covers g s u) ∧
      (∀ t, to t out ≤ sum_list_with (λ p, edge_count g p.2 t) ps) ∧ from_edges out.
  Proof.
    assert (Hone : weak 0 f_1) by (split; [done|]; split; [|lia]; destruct (faded_range 0) as [_ H]; change (faded 0) with f_1 in *; lra).
    assert (Hstart : ∀ s it, it ∈ [WItem s f_1 f_1] → ∃ d, weak d (wi_weight it)).
    { intros s it Hit. apply elem_of_list_singleton in Hit as ->. by exists 0. }
    revert out. induction starts as [|s starts IH]; intros out Hnd; simpl.
    { intros [= <-]. exists []. split; [constructor|]. split; [set_solver|]. split; [done|]. intros ? ? ?; set_solver. }
    destruct (walk _ _ _ _ _) as [a|] eqn:Ea; simpl; [|done].
    destruct (walk_all _ _ _ _) as [b|] eqn:Eb; simpl; [|done]. intros [= <-].
    apply NoDup_cons in Hnd as [Hs Hnd].
    destruct (IH b Hnd eq_refl) as (ps & P1 & P2 & P3 & P4).
    destruct (walk_cover _ _ _ _ (Hstart s) Ea) as (us & U1 & U2 & U3 & U4).
    exists (((λ u, (s, u)) <$> us) ++ ps). split_and!.
    - apply NoDup_app. split_and!; [by apply NoDup_fmap_2; [intros ? ? [=]|]| |done].
      intros x Hx Hps. apply elem_of_list_fmap in Hx as (u & -> & _). destruct (P2 _ _ Hps) as [? _]. done.
    - intros s' u [Hin|Hin]%elem_of_app.
      + apply elem_of_list_fmap in Hin as (u' & [= -> ->] & Hu'). destruct (U2 u' Hu') as [_ (it & Hit & Hc)].
        apply elem_of_list_singleton in Hit as ->. split; [left|]. destruct (Hc 0 Hone) as (n & Hn & Hs'). exists n. split; [lia|done].
      + destruct (P2 _ _ Hin). split; [by right|done].
    - intros t. rewrite to_app, sum_list_with_app. specialize (P3 t). specialize (U3 t).
      assert (E : sum_list_with (λ p : uid * uid, edge_count g p.2 t) ((λ u, (s, u)) <$> us) =
        sum_list_with (λ u, edge_count g u t) us); [|lia].
      clear. induction us as [|u us IH]; [done|]. rewrite fmap_cons. cbn [sum_list_with]. rewrite IH. done.
    - intros u t w [Hin|Hin]%elem_of_app; [by eapply U4|by eapply P4].
  Qed.
End cover.

(** ** Weights *)
Definition unit_weight (cs : list contribution) (t : uid) : f32 := default fzero (weight_map cs !! t).
Lemma weight_map_snoc cs c : weight_map (cs ++ [c]) = add_contribution (weight_map cs) c.
Proof. unfold weight_map. rewrite fold_left_app. done. Qed.
Lemma unit_weight_snoc cs u t' w t : unit_weight (cs ++ [(u, t', w)]) t =
  if decide (t' = t) then fadd (unit_weight cs t) w else unit_weight cs t.
Proof.
  unfold unit_weight. rewrite weight_map_snoc. unfold add_contribution. simpl.
  destruct (decide (t' = t)) as [->|Hne]; [by rewrite lookup_insert|by rewrite lookup_insert_ne].
Qed.
Lemma to_snoc cs u t' w t : to t (cs ++ [(u, t', w)]) = to t cs + if decide (t' = t) then 1 else 0.
Proof.
  rewrite to_app. f_equal. unfold to. rewrite filter_cons. simpl.
  destruct (decide (t' = t)); done.
Qed.

Local Open Scope R_scope.
Lemma val_f_1 : val f_1 = 1.
Proof. exact (float_score_val One). Qed.
Lemma unit_weight_bound cs t : (∀ c, c ∈ cs → fle fzero c.2 = true ∧ fle c.2 f_1 = true) → (to t cs ≤ 1000)%nat →
  fin (unit_weight cs t) ∧ 0 <= val (unit_weight cs t) <= INR (to t cs).
Proof.
  induction cs as [|[[u t'] w] cs IH] using rev_ind; intros Hw Hn.
  { split; [done|]. change (0 <= 0 <= INR 0). simpl. lra. }
  rewrite unit_weight_snoc. rewrite to_snoc in Hn |- *.
  assert (Hin : ∀ c, c ∈ cs → fle fzero c.2 = true ∧ fle c.2 f_1 = true).
  { intros c Hc. apply Hw. apply elem_of_app. by left. }
  destruct (decide (t' = t)) as [->|Hne].
  - destruct (IH Hin ltac:(lia)) as [Hf Hv].
    destruct (Hw (u, t, w)) as [W1 W2]; [apply elem_of_app; right; by left|].
    destruct (fle_between w fzero f_1) as [Wf Wv]; try done. rewrite val_fzero, val_f_1 in Wv.
    destruct (f_of_nat_val (to t cs + 1)) as [Nf Nv]; [lia|].
    destruct (fadd_between (unit_weight cs t) w fzero (f_of_nat (to t cs + 1))) as (Af & _ & Av); try done.
    { rewrite val_fzero, Nv, plus_INR. simpl. lra. }
    rewrite val_fzero, Nv in Av. done.
  - rewrite Nat.add_0_r. apply IH; [done|lia].
Qed.
Lemma exercise_weight_bound cs c n : (∀ c, c ∈ cs → fle fzero c.2 = true ∧ fle c.2 f_1 = true) →
  (to (lesson_id c) cs + to (course_id c) cs ≤ n ≤ 1000)%nat →
  fin (exercise_weight (weight_map cs) c) ∧ val (exercise_weight (weight_map cs) c) <= INR n.
Proof.
  intros Hw Hn. unfold exercise_weight.
  destruct (unit_weight_bound cs (lesson_id c) Hw) as [F1 V1]; [lia|].
  destruct (unit_weight_bound cs (course_id c) Hw) as [F2 V2]; [lia|].
  unfold unit_weight in *.
  destruct (f_of_nat_val n) as [Nf Nv]; [lia|].
  edestruct (fadd_between _ _ fzero (f_of_nat n) F1 F2) as (Af & _ & Av).
  { rewrite val_fzero, Nv. assert (INR (to (lesson_id c) cs) + INR (to (course_id c) cs) <= INR n); [|lra].
    rewrite <-plus_INR. apply le_INR. lia. }
  split; [done|]. rewrite Nv in Av. lra.
Qed.
(** A weight of at least [n] needs [n] contributions. *)
Lemma exercise_weight_needs cs c x n : (∀ c, c ∈ cs → fle fzero c.2 = true ∧ fle c.2 f_1 = true) →
  fin x → val x = INR n → (n ≤ 1000)%nat → fge (exercise_weight (weight_map cs) c) x = true →
  (n ≤ to (lesson_id c) cs + to (course_id c) cs)%nat.
Proof.
  intros Hw Fx Vx Hn Hge.
  destruct (decide (n ≤ to (lesson_id c) cs + to (course_id c) cs)%nat) as [|Hlt]; [done|].
  exfalso. destruct (exercise_weight_bound cs c (n - 1) Hw) as [F V]; [lia|].
  change (fle x (exercise_weight (weight_map cs) c) = true) in Hge. apply fle_true in Hge; try done.
  assert (INR (n - 1) < INR n) by (apply lt_INR; lia). lra.
Qed.
Local Close Scope R_scope.

(** ** C37 *)
Lemma exercise_weights_lookup m batch c : NoDup (exercise_id <$> batch) → c ∈ batch →
  exercise_weights m batch !! exercise_id c = Some (exercise_weight m c).
Proof.
  unfold exercise_weights. generalize (∅ : gmap uid f32). 
  induction batch as [|d batch IH]; intros w Hnd Hin; [set_solver|].
  rewrite fmap_cons in Hnd. apply NoDup_cons in Hnd as [Hd Hnd]. simpl.
  apply elem_of_cons in Hin as [->|Hin]; [|by apply IH].
  assert (Hk : ∀ (l : list candidate) (w : gmap uid f32), exercise_id d ∉ exercise_id <$> l →
    fold_left (λ w c, <[exercise_id c := exercise_weight m c]> w) l w !! exercise_id d = w !! exercise_id d).
  { clear. induction l as [|x l IH]; intros w Hl; [done|]. rewrite fmap_cons in Hl. simpl.
    rewrite IH by set_solver. apply lookup_insert_ne. set_solver. }
  rewrite Hk by done. apply lookup_insert.
Qed.
Lemma set_weights_same a b c : same_candidate c (set_weights a b c).
Proof. by unfold same_candidate. Qed.
Lemma sublist_List_filter {A} (P : A → bool) (l : list A) : List.filter P l `sublist_of` l.
Proof. induction l as [|x l IH]; simpl; [constructor|]. destruct (P x); by constructor. Qed.

Lemma elem_of_batch_units ord batch u : (∀ s, NoDup (ord s) ∧ ∀ u, u ∈ ord s ↔ u ∈ s) →
  u ∈ batch_units ord batch ↔ unit_of_batch batch u.
Proof.
  intros Ho. unfold batch_units. rewrite (proj2 (Ho _)), elem_of_list_to_set.
  rewrite elem_of_list_join. unfold unit_of_batch. split.
  - intros (l & Hu & Hl). apply elem_of_list_fmap in Hl as (c & -> & Hc). exists c. split; [done|]. set_solver.
  - intros (c & Hc & Hu). eexists. split; [|apply elem_of_list_fmap; exists c; split; [reflexivity|done]]. set_solver.
Qed.

Lemma knock_cover g ord batch down n : weights_ok g → (∀ s, NoDup (ord s) ∧ ∀ u, u ∈ ord s ↔ u ∈ s) →
  ∀ fuel, walk_all (ed_down g) (ed_course g) fuel (batch_units ord batch) = Some down →
  ∀ c x, fin x → val x = INR n → n ≤ 1000 → fge (exercise_weight (weight_map down) c) x = true →
  covered_times g batch c n.
Proof.
  intros Hw Ho fuel Hd c x Fx Vx Hn Hge.
  edestruct (walk_all_cover g Hw) as (ps & P1 & P2 & P3 & P4); [|exact Hd|].
  { apply Ho. }
  exists ps. split; [done|]. split.
  { intros s u Hin. destruct (P2 s u Hin) as [Hs Hc]. split; [|done]. by eapply elem_of_batch_units. }
  etrans; [eapply exercise_weight_needs; try done|].
  { intros [[u t] w] Hin. destruct (P4 _ _ _ Hin) as (l & Hl & He). by eapply Hw. }
  pose proof (P3 (lesson_id c)) as H1. pose proof (P3 (course_id c)) as H2.
  assert (E : sum_list_with (λ p, edge_count g p.2 (lesson_id c) + edge_count g p.2 (course_id c)) ps =
    sum_list_with (λ p, edge_count g p.2 (lesson_id c)) ps + sum_list_with (λ p, edge_count g p.2 (course_id c)) ps); [|lia].
  clear. induction ps as [|p ps IH]; [done|]. cbn [sum_list_with]. lia.
Qed.

Lemma fge_num x n : (n = 5 ∧ x = f_5) ∨ (n = 10 ∧ x = f_10) → fin x ∧ val x = INR n.
Proof.
  intros [[-> ->]|[-> ->]]; (split; [done|]).
  - unfold f_5. rewrite lit_val. simpl. lra.
  - unfold f_10. rewrite lit_val. simpl. lra.
Qed.

Lemma knock_spec g ord batch k : weights_ok g → (∀ s, NoDup (ord s) ∧ ∀ u, u ∈ ord s ↔ u ∈ s) →
  NoDup (exercise_id <$> batch) → knock_out_reviews g ord batch = Some k → knocked_as_stated g batch k.
Proof.
  intros Hw Ho Hnd. unfold knock_out_reviews.
  destruct (walk_all (ed_down g) _ _ _) as [down|] eqn:Ed; simpl; [|done].
  destruct (walk_all (ed_up g) _ _ _) as [up|] eqn:Eu; simpl; [|done]. intros [= <-].
  set (under := exercise_weights (weight_map down) batch). set (over := exercise_weights (weight_map up) batch).
  assert (Hl : ∀ c, c ∈ batch → under !! exercise_id c = Some (exercise_weight (weight_map down) c)).
  { intros c Hc. by apply exercise_weights_lookup. }
  unfold knocked_as_stated. cbn [ko_candidates ko_highly]. split_and!.
  - exists (set_weights over under <$> batch). split; [|split; apply sublist_List_filter].
    apply Forall2_fmap_r. apply Forall_Forall2_diag. apply Forall_true. intros c. apply set_weights_same.
  - intros c Hc Hout. pose proof (Hl c Hc) as E.
    assert (Hv : very_highly (exercise_weight (weight_map down) c) c = true).
    { destruct (very_highly _ c) eqn:Ev; [done|]. exfalso. apply Hout.
      apply elem_of_list_fmap. exists (set_weights over under c). split; [done|].
      unfold remove_very_highly. rewrite List_filter_filter. apply elem_of_list_filter. split.
      - apply negb_true_iff. cbn [exercise_id set_weights]. rewrite E. simpl.
        change (very_highly (exercise_weight (weight_map down) c) c = false). done.
      - apply elem_of_list_fmap. eauto. }
    unfold very_highly in Hv. apply andb_true_iff in Hv as [Hv1 Hv2]. split; [done|].
    destruct (fge_num f_10 10) as [F V]; [by right|].
    eapply knock_cover; try done; lia.
  - intros c Hc. unfold get_highly in Hc. rewrite List_filter_filter in Hc.
    apply elem_of_list_filter in Hc as [Hc Hin].
    unfold remove_very_highly in Hin. rewrite List_filter_filter in Hin. apply elem_of_list_filter in Hin as [_ Hin].
    apply elem_of_list_fmap in Hin as (d & -> & Hd). cbn [exercise_id set_weights] in Hc. rewrite (Hl d Hd) in Hc.
    apply andb_true_iff in Hc as [_ Hc]. unfold highly in Hc. apply andb_true_iff in Hc as [H1 H2].
    split; [done|]. destruct (fge_num f_5 5) as [F V]; [by left|].
    assert (H : covered_times g batch d 5) by (eapply knock_cover; try done; lia). exact H.
Qed.
