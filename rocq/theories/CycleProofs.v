(** Correctness and termination of the cycle check of the unit graph. *)
From stdpp Require Import gmap strings list relations.
From Verif Require Import F32 Graph GraphSpec GraphProofs.

Section check.
  Context (neighbors : uid → option (list uid)) (check_reverse : uid → uid → bool).

  Definition edge (u v : uid) : Prop := v ∈ default [] (neighbors u).
  (** All paths from [v] are finite. *)
  Definition Fin (v : uid) : Prop := Acc (λ w v, edge v w) v.

  Lemma Fin_no_cycle v : Fin v → ¬ tc edge v v.
  Proof.
    induction 1 as [v _ IH]. intros Hc.
    assert (∀ x y, tc edge x y → ∃ z, edge x z ∧ rtc edge z y) as Hsplit.
    { intros x y Hxy. destruct Hxy as [x y Hxy|x y z Hxy Hyz].
      - exists y. split; [done|]. apply rtc_refl.
      - exists y. split; [done|]. by apply tc_rtc. }
    destruct (Hsplit v v Hc) as (z & Hz & Hzv).
    apply (IH z Hz). eapply tc_rtc_l; [exact Hzv|]. apply tc_once. done.
  Qed.

  Lemma Fin_intro v : (∀ w, edge v w → Fin w) → Fin v.
  Proof. intros H. by constructor. Qed.
  Opaque Fin.

  Lemma push_neighbors_inl path cur ns st st' :
    push_neighbors check_reverse path cur ns st = inl st' →
    st' = ((λ w, path ++ [w]) <$> reverse ns) ++ st ∧ ∀ n, n ∈ ns → n ∉ path.
  Proof.
    revert st. induction ns as [|n ns IH]; intros st; simpl.
    - intros [= <-]. split; [done|]. intros ? []%elem_of_nil.
    - destruct (check_reverse cur n); simpl; [|done]. case_bool_decide as Hn; [done|].
      intros [-> Hns]%IH. split.
      + rewrite reverse_cons, fmap_app, <- app_assoc. done.
      + intros m [->|?]%elem_of_cons; auto.
  Qed.
  Lemma push_neighbors_inr path cur ns st r :
    push_neighbors check_reverse path cur ns st = inr r →
    (∃ n, n ∈ ns ∧ check_reverse cur n = false ∧ r = Inconsistent cur n) ∨
    (∃ n, n ∈ ns ∧ n ∈ path ∧ r = Cycle (path ++ [n])).
  Proof.
    revert st. induction ns as [|n ns IH]; intros st; simpl; [done|].
    destruct (check_reverse cur n) eqn:Hc; simpl.
    - case_bool_decide as Hn.
      + intros [= <-]. right. exists n. split_and!; [left|done|done].
      + intros [(m & ? & ? & ->)|(m & ? & ? & ->)]%IH; [left|right]; exists m; split_and!; try done; by right.
    - intros [= <-]. left. exists n. split_and!; [left|done|done].
  Qed.

  (** ** The work list during the search *)
  (** [SS c r st]: [r] is the current path (last unit first); the work list [st] holds,
      for every unit of the path from last to first, extensions of the path up to
      that unit by some of its neighbours. Every neighbour of a unit of the path has
      only finite paths, is still pending, or is the next unit [c] of the path. *)
  Inductive SS : option uid → list uid → list (list uid) → Prop :=
    | SS_nil c : SS c [] []
    | SS_root u : SS None [] [[u]]
    | SS_cons c x r pend st :
        (∀ w, edge x w → Fin w ∨ w ∈ pend ∨ c = Some w) →
        (∀ w, w ∈ pend → w ∉ x :: r) →
        SS (Some x) r st →
        SS c (x :: r) (((λ w, reverse (x :: r) ++ [w]) <$> pend) ++ st).

  Inductive NF : list uid → list (list uid) → Prop :=
    | NF_nil : NF [] []
    | NF_root u : NF [] [[u]]
    | NF_cons x r w pend st :
        (∀ v, edge x v → Fin v ∨ v ∈ w :: pend) →
        (∀ v, v ∈ w :: pend → v ∉ x :: r) →
        SS (Some x) r st →
        NF (x :: r) (((λ w, reverse (x :: r) ++ [w]) <$> w :: pend) ++ st).

  Lemma SS_NF c r st :
    SS c r st → (∀ w, c = Some w → Fin w) → ∃ r0, NF r0 st ∧ ∀ v, v ∈ r → Fin v ∨ v ∈ r0.
  Proof.
    induction 1 as [c|u|c x r pend st He Hp Hs IH]; intros Hc.
    - exists []. split; [constructor|]. set_solver.
    - exists []. split; [constructor|]. set_solver.
    - destruct pend as [|w pend].
      + assert (Fin x) as Hx.
        { apply Fin_intro. intros w Hw. destruct (He w Hw) as [H|[H%elem_of_nil|H]]; [exact H|destruct H|exact (Hc w H)]. }
        destruct IH as (r0 & Hn & Hr0); [intros w [= <-]; exact Hx|].
        exists r0. split; [done|]. intros v [->|?]%elem_of_cons; [left; exact Hx|auto].
      + exists (x :: r). split; [|intros v Hv; right; exact Hv]. constructor; [|done|done].
        intros v Hv. destruct (He v Hv) as [?|[?|?]]; auto.
  Qed.

  Lemma SS_done r : SS None r [] → ∀ v, v ∈ r → Fin v.
  Proof.
    intros Hs v Hv. destruct (SS_NF _ _ _ Hs) as (r0 & Hn & Hr0); [done|].
    destruct (Hr0 v Hv) as [?|Hv0]; [done|]. inversion Hn; subst. set_solver.
  Qed.

  Lemma SS_step (V : gset uid) r path st :
    SS None r (path :: st) → (∀ v, v ∈ V → Fin v ∨ v ∈ r) →
    let cur := default ""%string (last path) in
    if decide (cur ∈ V) then ∃ r', SS None r' st ∧ (∀ v, v ∈ V → Fin v ∨ v ∈ r')
    else
      match neighbors cur with
      | None => ∃ r', SS None r' st ∧ (∀ v, v ∈ V ∪ {[cur]} → Fin v ∨ v ∈ r')
      | Some ns => (∀ n, n ∈ ns → n ∉ path) →
          ∃ r', SS None r' (((λ w, path ++ [w]) <$> reverse ns) ++ st) ∧
                (∀ v, v ∈ V ∪ {[cur]} → Fin v ∨ v ∈ r')
      end.
  Proof.
    intros Hs HV cur. destruct (SS_NF _ _ _ Hs) as (r0 & Hn & Hr0); [done|].
    assert (∀ v, v ∈ V → Fin v ∨ v ∈ r0) as HV0.
    { intros v Hv. destruct (HV v Hv) as [?|?]; auto. }
    clear Hs HV Hr0 r.
    inversion Hn as [|u Hr Hst|x r w pend st0 He Hp Hs Hr Hst]; subst.
    - (* the root *)
      subst cur; simpl. case_decide as Hu.
      + exists []. split; [constructor|done].
      + destruct (neighbors u) as [ns|] eqn:Ens.
        * intros Hns. exists [u]. split.
          -- refine (SS_cons None u [] (reverse ns) [] _ _ _).
             ++ intros w. unfold edge. rewrite Ens. simpl. intros Hw. right; left.
                by apply elem_of_reverse.
             ++ intros w Hw. rewrite elem_of_reverse in Hw. exact (Hns w Hw).
             ++ constructor.
          -- intros v [Hv|Hv]%elem_of_union; [destruct (HV0 v Hv); set_solver|]. set_solver.
        * exists []. split; [constructor|].
          intros v [Hv|Hv%elem_of_singleton]%elem_of_union; [auto|]. subst v. left.
          apply Fin_intro. intros w. unfold edge. rewrite Ens. simpl. intros []%elem_of_nil.
    - assert (cur = w) as ->.
      { subst cur. rewrite last_snoc. done. }
      case_decide as Hu.
      + exists (x :: r). split; [|done]. refine (SS_cons _ x r pend st0 _ (λ v Hv, Hp v (elem_of_list_further _ _ _ Hv)) Hs).
        intros v Hv. destruct (He v Hv) as [?|[->|?]%elem_of_cons]; auto.
        destruct (HV0 w Hu) as [?|Hin]; [by auto|]. exfalso. apply (Hp w); [left|done].
      + destruct (neighbors w) as [ns|] eqn:Ens.
        * intros Hns. exists (w :: x :: r). split.
          -- assert (reverse (x :: r) ++ [w] = reverse (w :: x :: r)) as Hrev
               by (by rewrite (reverse_cons _ w)).
             rewrite Hrev. constructor.
             ++ intros v. unfold edge. rewrite Ens. simpl. intros Hv. right; left.
                by apply elem_of_reverse.
             ++ intros v Hv Hin. rewrite elem_of_reverse in Hv. apply (Hns v Hv).
                apply elem_of_app. rewrite elem_of_reverse. set_solver.
             ++ refine (SS_cons _ x r pend st0 _ (λ v Hv, Hp v (elem_of_list_further _ _ _ Hv)) Hs).
                intros v Hv. destruct (He v Hv) as [?|[->|?]%elem_of_cons]; auto.
          -- intros v [Hv|Hv]%elem_of_union; [destruct (HV0 v Hv) as [?|?]; [by left|right; by right]|].
             right. apply elem_of_singleton in Hv as ->. left.
        * exists (x :: r).
          assert (Fin w) as Hw.
          { apply Fin_intro. intros v. unfold edge. rewrite Ens. simpl. intros []%elem_of_nil. }
          split.
          -- refine (SS_cons _ x r pend st0 _ (λ v Hv, Hp v (elem_of_list_further _ _ _ Hv)) Hs).
             intros v Hv. destruct (He v Hv) as [?|[->|?]%elem_of_cons]; auto.
          -- intros v [Hv|Hv%elem_of_singleton]%elem_of_union; [auto|]. subst v; auto.
  Qed.

  Lemma check_from_complete fuel st (V : gset uid) r V' :
    SS None r st → (∀ v, v ∈ V → Fin v ∨ v ∈ r) →
    check_from neighbors check_reverse fuel st V = NoCycle V' →
    ∀ v, v ∈ V' → Fin v.
  Proof.
    revert st V r. induction fuel as [|fuel IH]; intros st V r Hs HV; simpl; [done|].
    destruct st as [|path st].
    - intros [= <-] v Hv. destruct (HV v Hv) as [?|?]; [done|]. by eapply SS_done.
    - pose proof (SS_step V r path st Hs HV) as Hstep. cbn zeta in Hstep.
      set (cur := default ""%string (last path)) in *.
      rewrite <- decide_bool_decide.
      case_decide as Hu.
      + destruct Hstep as (r' & Hs' & HV'). by eapply IH.
      + destruct (neighbors cur) as [ns|].
        * destruct (push_neighbors check_reverse path cur ns st) as [st'|res] eqn:Ep.
          -- apply push_neighbors_inl in Ep as [-> Hns].
             destruct (Hstep Hns) as (r' & Hs' & HV'). by eapply IH.
          -- intros ->. apply push_neighbors_inr in Ep as [(?&?&?&?)|(?&?&?&?)]; done.
        * destruct Hstep as (r' & Hs' & HV'). by eapply IH.
  Qed.

  (** Visited units stay visited and the start is visited. *)
  Lemma check_from_visited fuel st V V' :
    check_from neighbors check_reverse fuel st V = NoCycle V' →
    V ⊆ V' ∧ ∀ path, path ∈ st → default ""%string (last path) ∈ V'.
  Proof.
    revert st V. induction fuel as [|fuel IH]; intros st V; simpl; [done|].
    destruct st as [|path st].
    - intros [= <-]. split; [done|]. intros ? []%elem_of_nil.
    - set (cur := default ""%string (last path)) in *.
      case_bool_decide as Hu.
      + intros [HV Hst]%IH. split; [done|]. intros p [->|?]%elem_of_cons; auto.
      + destruct (neighbors cur) as [ns|].
        * destruct (push_neighbors check_reverse path cur ns st) as [st'|res] eqn:Ep.
          -- apply push_neighbors_inl in Ep as [-> Hns].
             intros [HV Hst]%IH. split; [set_solver|].
             intros p [->|?]%elem_of_cons; [set_solver|]. apply Hst. set_solver.
          -- intros ->. apply push_neighbors_inr in Ep as [(?&?&?&?)|(?&?&?&?)]; done.
        * intros [HV Hst]%IH. split; [set_solver|].
          intros p [->|?]%elem_of_cons; [set_solver|]. auto.
  Qed.

  Lemma check_graph_cycles_complete fuel keys V V' :
    (∀ v, v ∈ V → Fin v) →
    check_graph_cycles neighbors check_reverse fuel keys V = NoCycle V' →
    (∀ v, v ∈ V' → Fin v) ∧ V ⊆ V' ∧ (∀ k, k ∈ keys → k ∈ V').
  Proof.
    revert V. induction keys as [|k keys IH]; intros V HV; simpl.
    - intros [= <-]. split_and!; [done|done|]. intros ? []%elem_of_nil.
    - case_bool_decide as Hk.
      + intros (H1 & H2 & H3)%IH; [|done]. split_and!; [done|done|].
        intros k' [->|?]%elem_of_cons; auto.
      + destruct (check_from _ _ _ _ _) as [V1| | |] eqn:E; [|discriminate..].
        assert (∀ v, v ∈ V1 → Fin v) as HV1.
        { eapply check_from_complete; [apply (SS_root k)| |exact E]. auto. }
        apply check_from_visited in E as [Hsub Hp].
        intros (H1 & H2 & H3)%IH; [|done]. split_and!; [done|set_solver|].
        intros k' [->|?]%elem_of_cons; [|auto]. apply H2. apply (Hp [k]). left.
  Qed.

  (** If the check succeeds the graph has no cycle. *)
  Lemma check_ok_acyclic fuel keys V' :
    (∀ u ns, neighbors u = Some ns → ns ≠ [] → u ∈ keys) →
    check_graph_cycles neighbors check_reverse fuel keys ∅ = NoCycle V' →
    acyclic edge.
  Proof.
    intros Hkeys Hc u. apply check_graph_cycles_complete in Hc as (H1 & H2 & H3); [|set_solver].
    destruct (decide (u ∈ V')) as [Hu|Hu]; [by apply Fin_no_cycle, H1|].
    intros Ht. assert (∃ z, edge u z) as [z Hz] by (inversion Ht; subst; eauto).
    apply Hu, H3. unfold edge in Hz. destruct (neighbors u) as [ns|] eqn:E; [|by apply elem_of_nil in Hz].
    apply (Hkeys u ns E). intros ->. by apply elem_of_nil in Hz.
  Qed.

  (** ** Reported cycles are real *)
  (** Consecutive units of the path are connected. *)
  Fixpoint chain (p : list uid) : Prop :=
    match p with
    | [] => True
    | x :: p' => match p' with [] => True | y :: _ => edge x y ∧ chain p' end
    end.

  Lemma chain_snoc p x y : chain (p ++ [x]) → edge x y → chain ((p ++ [x]) ++ [y]).
  Proof.
    induction p as [|a p IH]; simpl; [done|].
    destruct (p ++ [x]) as [|b l] eqn:E; [by destruct p|]. simpl. naive_solver.
  Qed.
  Lemma chain_rtc p x y : chain (p ++ [y]) → x ∈ p ++ [y] → rtc edge x y.
  Proof.
    revert x. induction p as [|a p IH]; intros x; simpl.
    - intros _ ->%elem_of_list_singleton. apply rtc_refl.
    - destruct (p ++ [y]) as [|b l] eqn:E; [by destruct p|].
      intros [Hab Hch] [->|Hx]%elem_of_cons.
      + apply rtc_l with b; [done|]. apply IH; [done|left].
      + by apply IH.
  Qed.

  Lemma check_from_sound fuel st V r :
    (∀ p, p ∈ st → p ≠ [] ∧ chain p) →
    check_from neighbors check_reverse fuel st V = r →
    match r with
    | Cycle p => ∃ u, tc edge u u
    | Inconsistent u v => edge u v ∧ check_reverse u v = false
    | _ => True
    end.
  Proof.
    revert st V. induction fuel as [|fuel IH]; intros st V Hst; simpl; [by intros <-|].
    destruct st as [|path st]; [by intros <-|].
    set (cur := default ""%string (last path)) in *.
    assert (path ≠ [] ∧ chain path) as [Hne Hch] by (apply Hst; left).
    assert (∃ p0, path = p0 ++ [cur]) as [p0 Hp0].
    { destruct path as [|a l _] using rev_ind; [done|]. subst cur. rewrite last_snoc. by exists l. }
    case_bool_decide as Hu.
    - apply IH. set_solver.
    - destruct (neighbors cur) as [ns|] eqn:En; [|apply IH; set_solver].
      assert (∀ n, n ∈ ns → edge cur n) as Hed.
      { intros n Hn. unfold edge. by rewrite En. }
      destruct (push_neighbors check_reverse path cur ns st) as [st'|res] eqn:Ep.
      + apply push_neighbors_inl in Ep as [-> Hns]. apply IH.
        intros p [(n & -> & Hn)%elem_of_list_fmap|Hp]%elem_of_app; [|set_solver].
        rewrite elem_of_reverse in Hn.
        split; [by destruct path|]. rewrite Hp0 in Hch |- *. apply chain_snoc; auto.
      + intros <-. apply push_neighbors_inr in Ep as [(n & Hn & Hc & ->)|(n & Hn & Hin & ->)].
        * auto.
        * exists n. rewrite Hp0 in Hch, Hin. pose proof (chain_rtc _ _ _ Hch Hin) as Hr.
          eapply tc_rtc_l; [exact Hr|]. apply tc_once. auto.
  Qed.

  Lemma check_graph_cycles_sound fuel keys V r :
    check_graph_cycles neighbors check_reverse fuel keys V = r →
    match r with
    | Cycle p => ∃ u, tc edge u u
    | Inconsistent u v => edge u v ∧ check_reverse u v = false
    | _ => True
    end.
  Proof.
    revert V. induction keys as [|k keys IH]; intros V; simpl; [by intros <-|].
    case_bool_decide; [by apply IH|].
    destruct (check_from neighbors check_reverse fuel [[k]] V) eqn:E; [by apply IH| | |];
      (intros <-; apply check_from_sound in E; [exact E|]; intros p ->%elem_of_list_singleton; done).
  Qed.

  (** ** Termination *)
  Definition todo (keys : list uid) (V : gset uid) : nat :=
    sum_list_with (λ k, if decide (k ∈ V) then 0 else length (default [] (neighbors k))) keys.

  Lemma todo_mono keys V V' : V ⊆ V' → todo keys V' ≤ todo keys V.
  Proof.
    intros HV. induction keys as [|k keys IH]; simpl; [done|].
    unfold todo in *. simpl. repeat case_decide; try set_solver; lia.
  Qed.
  Lemma todo_visit keys V x :
    x ∉ V → (∀ ns, neighbors x = Some ns → ns ≠ [] → x ∈ keys) →
    todo keys (V ∪ {[x]}) + length (default [] (neighbors x)) ≤ todo keys V.
  Proof.
    intros Hx Hk. destruct (neighbors x) as [ns|] eqn:E; simpl.
    2: { rewrite Nat.add_0_r. apply todo_mono. set_solver. }
    destruct ns as [|n ns].
    { simpl. rewrite Nat.add_0_r. apply todo_mono. set_solver. }
    specialize (Hk _ eq_refl). assert (x ∈ keys) as Hin by (by apply Hk). clear Hk.
    induction keys as [|k keys IH]; [by apply elem_of_nil in Hin|].
    pose proof (todo_mono keys V (V ∪ {[x]}) ltac:(set_solver)) as Hm.
    unfold todo in *. cbn [sum_list_with]. apply elem_of_cons in Hin as [<-|Hin].
    - destruct (decide (x ∈ V ∪ {[x]})); [|set_solver]. destruct (decide (x ∈ V)); [done|].
      rewrite E. simpl. simpl in Hm. lia.
    - specialize (IH Hin). repeat case_decide; try set_solver; simpl in *; lia.
  Qed.

  Lemma todo_empty l : todo l ∅ = sum_list_with (λ k, length (default [] (neighbors k))) l.
  Proof.
    unfold todo. induction l as [|a l IHl]; cbn [sum_list_with]; [done|].
    case_decide as Ha; [by apply not_elem_of_empty in Ha|]. lia.
  Qed.
  Opaque todo.
  Lemma check_from_fuel keys fuel st V :
    (∀ u ns, neighbors u = Some ns → ns ≠ [] → u ∈ keys) →
    length st + todo keys V < fuel →
    check_from neighbors check_reverse fuel st V ≠ OutOfFuel.
  Proof.
    intros Hkeys. revert st V. induction fuel as [|fuel IH]; intros st V Hf; simpl; [lia|].
    destruct st as [|path st]; [done|].
    set (cur := default ""%string (last path)) in *.
    simpl in Hf. case_bool_decide as Hu; [apply IH; lia|].
    pose proof (todo_visit keys V cur Hu (Hkeys cur)) as Ht.
    destruct (neighbors cur) as [ns|] eqn:En; simpl in Ht; [|apply IH; lia].
    destruct (push_neighbors check_reverse path cur ns st) as [st'|res] eqn:Ep.
    - apply push_neighbors_inl in Ep as [-> Hns]. apply IH.
      rewrite app_length, fmap_length, reverse_length. lia.
    - apply push_neighbors_inr in Ep as [(n & Hn & Hc & ->)|(n & Hn & Hin & ->)]; done.
  Qed.

  Transparent todo.
  Lemma check_graph_cycles_fuel allkeys fuel keys V :
    (∀ u ns, neighbors u = Some ns → ns ≠ [] → u ∈ allkeys) →
    cycle_fuel neighbors allkeys ≤ fuel →
    check_graph_cycles neighbors check_reverse fuel keys V ≠ OutOfFuel.
  Proof.
    intros Hkeys Hf. revert V. induction keys as [|k keys IH]; intros V; simpl; [done|].
    case_bool_decide; [apply IH|].
    destruct (check_from neighbors check_reverse fuel [[k]] V) as [V1| | |] eqn:E; try done.
    exfalso. revert E. apply (check_from_fuel allkeys); [done|].
    pose proof (todo_mono allkeys ∅ V ltac:(set_solver)) as Hle.
    rewrite todo_empty in Hle. unfold cycle_fuel in Hf. cbn [length]. lia.
  Qed.

  Lemma check_one_ok keys :
    (∀ u ns, neighbors u = Some ns → ns ≠ [] → u ∈ keys) →
    (∀ u v, edge u v → check_reverse u v = true) →
    (∃ V, check_one neighbors check_reverse keys = NoCycle V) ↔ acyclic edge.
  Proof.
    intros Hkeys Hrev. unfold check_one. split.
    - intros [V HV]. by eapply check_ok_acyclic.
    - intros Hac. destruct (check_graph_cycles _ _ _ _ _) as [V|u v|p|] eqn:E.
      + eauto.
      + apply check_graph_cycles_sound in E as [He Hr]. rewrite Hrev in Hr; done.
      + apply check_graph_cycles_sound in E as [u Hu]. by apply Hac in Hu.
      + exfalso. revert E. by apply (check_graph_cycles_fuel keys).
  Qed.

  Lemma check_one_terminates keys :
    (∀ u ns, neighbors u = Some ns → ns ≠ [] → u ∈ keys) →
    check_one neighbors check_reverse keys ≠ OutOfFuel.
  Proof. intros Hkeys. by apply (check_graph_cycles_fuel keys). Qed.
End check.

(** * The check on the whole graph *)
Lemma acyclic_ext (R S : uid → uid → Prop) : (∀ u v, R u v ↔ S u v) → acyclic R ↔ acyclic S.
Proof.
  intros H. unfold acyclic.
  assert (∀ (R S : uid → uid → Prop), (∀ u v, R u v → S u v) → ∀ x y, tc R x y → tc S x y) as Hmono.
  { intros R' S' H' x y Hxy. induction Hxy as [x y Hxy|x y z Hxy _ IH]; [by apply tc_once, H'|].
    eapply tc_l; [by apply H'|done]. }
  split; intros Hx u Hu; apply (Hx u); eapply Hmono; try exact Hu; intros; by apply H.
Qed.

Lemma elem_ord (o : order) i u s x : order_ok o → x ∈ ord_set o i u s ↔ x ∈ s.
Proof. intros [_ H]. rewrite H. apply elem_of_elements. Qed.
Lemma elem_ord_keys (o : order) i s x : order_ok o → x ∈ ord_keys o i s ↔ x ∈ s.
Proof. intros [H _]. rewrite H. apply elem_of_elements. Qed.

Section whole.
  Context (o : order) (Ho : order_ok o) (g : graph) (Hg : GInv g).

  Lemma dep_edge u v : edge (dep_neighbors o g) u v ↔ depends_on g u v.
  Proof.
    unfold edge, dep_neighbors, depends_on, answers. destruct (get_dependencies g u); simpl.
    - by rewrite elem_ord. - apply elem_of_nil.
  Qed.
  Lemma sup_edge u v : edge (sup_neighbors o g) u v ↔ supersedes g u v.
  Proof.
    unfold edge, sup_neighbors, supersedes, answers. destruct (get_supersedes g u); simpl.
    - by rewrite elem_ord. - apply elem_of_nil.
  Qed.
  Lemma enc_edge u v : edge (enc_neighbors g) u v ↔ encompasses_some g u v.
  Proof.
    unfold edge, enc_neighbors, encompasses_some, encompasses, lists. destruct (get_encompasses g u) as [l|]; simpl.
    - rewrite elem_of_list_fmap. split.
      + intros ([e w] & -> & H). by exists w.
      + intros [w H]. by exists (v, w).
    - split; [intros []%elem_of_nil|naive_solver].
  Qed.

  Lemma dep_keys u ns : dep_neighbors o g u = Some ns → ns ≠ [] → u ∈ ord_keys o 0 (dom (dependency_graph g)).
  Proof.
    unfold dep_neighbors, get_dependencies. destruct (dependency_graph g !! u) eqn:E; [|done].
    intros _ _. rewrite elem_ord_keys by done. apply elem_of_dom. eauto.
  Qed.
  Lemma sup_keys u ns : sup_neighbors o g u = Some ns → ns ≠ [] → u ∈ ord_keys o 1 (dom (supersedes_graph g)).
  Proof.
    unfold sup_neighbors, get_supersedes. destruct (supersedes_graph g !! u) eqn:E; [|done].
    intros _ _. rewrite elem_ord_keys by done. apply elem_of_dom. eauto.
  Qed.

  Lemma dep_rev_ok u v : edge (dep_neighbors o g) u v → dep_reverse g u v = true.
  Proof.
    rewrite dep_edge. unfold depends_on, get_dependencies. rewrite answers_mget.
    rewrite (i_dep g Hg). unfold dep_reverse. by rewrite bool_decide_eq_true.
  Qed.
  Lemma sup_rev_ok u v : edge (sup_neighbors o g) u v → sup_reverse g u v = true.
  Proof.
    rewrite sup_edge. unfold supersedes, get_supersedes. rewrite answers_mget.
    rewrite (i_sup g Hg). unfold sup_reverse. by rewrite bool_decide_eq_true.
  Qed.

  (** When the encompassing map is empty its key list is empty and nothing is checked;
      the relation then equals the dependency relation. *)
  Lemma enc_part :
    acyclic (depends_on g) →
    (∃ V, check_one (enc_neighbors g) (enc_reverse g) (ord_keys o 2 (dom (encompasses_graph g))) = NoCycle V)
    ↔ acyclic (encompasses_some g).
  Proof.
    intros Hdep. destruct (decide (encompasses_graph g = ∅)) as [He|He].
    - assert (ord_keys o 2 (dom (encompasses_graph g)) = []) as ->.
      { destruct Ho as [H _]. apply Permutation_nil_r. rewrite H, He, dom_empty_L. by rewrite elements_empty. }
      split; [intros _|intros _; by eexists].
      assert (∀ u v, encompasses_some g u v ↔ depends_on g u v) as Heq.
      { intros u v. unfold encompasses_some, encompasses, get_encompasses, depends_on.
        destruct (decide _); [|done]. unfold lists, answers.
        destruct (get_dependencies g u); simpl; [|naive_solver]. split.
        - intros [w (d & [= <- _] & Hd)%elem_of_list_fmap]. by apply elem_of_elements in Hd.
        - intros Hd. exists f_1. apply elem_of_list_fmap. exists v. by rewrite elem_of_elements. }
      by rewrite (acyclic_ext _ _ Heq).
    - rewrite <- (acyclic_ext _ _ enc_edge). apply check_one_ok.
      + intros u ns. unfold enc_neighbors, get_encompasses. destruct (decide _); [done|].
        destruct (encompasses_graph g !! u) eqn:E; [|done]. intros _ _.
        rewrite elem_ord_keys by done. apply elem_of_dom. eauto.
      + intros u v. rewrite enc_edge. unfold encompasses_some, encompasses, get_encompasses.
        destruct (decide _); [done|]. intros [w Hw]. apply lists_vget in Hw.
        rewrite (i_enc g Hg) in Hw. unfold enc_reverse, get_encompassed_by.
        destruct (decide (encompassed_by g = ∅)) as [Hby|Hby].
        { rewrite Hby in Hw. unfold vget in Hw. rewrite lookup_empty in Hw. by apply elem_of_nil in Hw. }
        apply existsb_exists. exists (u, w). split; [by apply elem_of_list_In|].
        by rewrite bool_decide_eq_true.
  Qed.

  Lemma check_cycles_iff :
    check_cycles o g = true ↔
    acyclic (depends_on g) ∧ acyclic (supersedes g) ∧ acyclic (encompasses_some g).
  Proof.
    pose proof (check_one_ok (dep_neighbors o g) (dep_reverse g) _ dep_keys dep_rev_ok) as H1.
    pose proof (check_one_ok (sup_neighbors o g) (sup_reverse g) _ sup_keys sup_rev_ok) as H2.
    rewrite (acyclic_ext _ _ dep_edge) in H1. rewrite (acyclic_ext _ _ sup_edge) in H2.
    pose proof enc_part as H3. unfold check_cycles, check_cycles_result.
    destruct (check_one (dep_neighbors o g) _ _) as [V1| | |] eqn:E1.
    - assert (acyclic (depends_on g)) as Hd by (apply H1; eauto). specialize (H3 Hd).
      destruct (check_one (sup_neighbors o g) _ _) as [V2| | |] eqn:E2.
      + assert (acyclic (supersedes g)) as Hs by (apply H2; eauto).
        destruct (check_one (enc_neighbors g) _ _) as [V3| | |] eqn:E3.
        * assert (acyclic (encompasses_some g)) by (apply H3; eauto). naive_solver.
        * split; [done|]. intros (_ & _ & H). apply H3 in H as [? ?]. done.
        * split; [done|]. intros (_ & _ & H). apply H3 in H as [? ?]. done.
        * split; [done|]. intros (_ & _ & H). apply H3 in H as [? ?]. done.
      + split; [done|]. intros (_ & H & _). apply H2 in H as [? ?]. done.
      + split; [done|]. intros (_ & H & _). apply H2 in H as [? ?]. done.
      + split; [done|]. intros (_ & H & _). apply H2 in H as [? ?]. done.
    - split; [done|]. intros (H & _). apply H1 in H as [? ?]. done.
    - split; [done|]. intros (H & _). apply H1 in H as [? ?]. done.
    - split; [done|]. intros (H & _). apply H1 in H as [? ?]. done.
  Qed.

  (** A rejection is always because of a cycle. *)
  Lemma check_cycles_result_kind :
    match check_cycles_result o g with NoCycle _ | Cycle _ => True | _ => False end.
  Proof.
    pose proof (check_one_terminates (dep_neighbors o g) (dep_reverse g) _ dep_keys) as T1.
    pose proof (check_one_terminates (sup_neighbors o g) (sup_reverse g) _ sup_keys) as T2.
    unfold check_cycles_result.
    destruct (check_one (dep_neighbors o g) _ _) as [V1| | |] eqn:E1; try done.
    2: { apply check_graph_cycles_sound in E1 as [He Hr]. rewrite dep_rev_ok in Hr; done. }
    destruct (check_one (sup_neighbors o g) _ _) as [V2| | |] eqn:E2; try done.
    2: { apply check_graph_cycles_sound in E2 as [He Hr]. rewrite sup_rev_ok in Hr; done. }
    destruct (decide (encompasses_graph g = ∅)) as [He|He].
    { assert (ord_keys o 2 (dom (encompasses_graph g)) = []) as ->; [|done].
      destruct Ho as [H _]. apply Permutation_nil_r. rewrite H, He, dom_empty_L. by rewrite elements_empty. }
    assert (∀ u ns, enc_neighbors g u = Some ns → ns ≠ [] → u ∈ ord_keys o 2 (dom (encompasses_graph g))) as K3.
    { intros u ns. unfold enc_neighbors, get_encompasses. destruct (decide _); [done|].
      destruct (encompasses_graph g !! u) eqn:E; [|done]. intros _ _.
      rewrite elem_ord_keys by done. apply elem_of_dom. eauto. }
    pose proof (check_one_terminates (enc_neighbors g) (enc_reverse g) _ K3) as T3.
    destruct (check_one (enc_neighbors g) _ _) as [V3|u v| |] eqn:E3; try done.
    apply check_graph_cycles_sound in E3 as [Hed Hr].
    apply enc_edge in Hed as [w Hw]. unfold encompasses, get_encompasses in Hw.
    destruct (decide _); [done|]. apply lists_vget in Hw.
    rewrite (i_enc g Hg) in Hw. unfold enc_reverse, get_encompassed_by in Hr.
    destruct (decide (encompassed_by g = ∅)) as [Hby|Hby].
    { rewrite Hby in Hw. unfold vget in Hw. rewrite lookup_empty in Hw. by apply elem_of_nil in Hw. }
    apply not_true_iff_false in Hr. apply Hr.
    apply existsb_exists. exists (u, w). split; [by apply elem_of_list_In|].
    by rewrite bool_decide_eq_true.
  Qed.
End whole.
