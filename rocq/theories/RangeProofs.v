(** Scores stay in range in every history. *)
From stdpp Require Import gmap strings list.
From Coq Require Import ZArith Reals Lra Lia.
From Verif Require Import F32 F32Real F32More Graph GraphSpec Library SearchSpec Stores StoresSpec StoresProofs Options Scorer ScorerSpec ScorerProofs ScoreProofs
  RewardProofs Propagate PropagateSpec PropagateMore UnitScorer Practice RangeSpec.
Local Open Scope nat_scope.

(** ** Averages *)
Lemma in_range_btw x : in_range x ↔ btw 0 5 x.
Proof. apply between_f; [done|done|apply v_0|apply v_5]. Qed.
Lemma sum_range l : Forall in_range l → ∀ a k, btw 0 (IZR (5 * k)) a → (0 <= k)%Z → (k + Z.of_nat (length l) <= limit)%Z →
  btw 0 (IZR (5 * (k + Z.of_nat (length l)))) (fold_left fadd l a).
Proof.
  induction 1 as [|x l Hx Hl IH]; intros a k Ha Hk Hn; cbn [fold_left length] in *.
  { by rewrite Z.add_0_r. }
  apply in_range_btw in Hx as [Fx Hx]. destruct Ha as [Fa Ha]. unfold limit in *.
  replace (k + Z.of_nat (S (length l)))%Z with ((k + 1) + Z.of_nat (length l))%Z by lia.
  apply IH; [|lia|lia].
  apply fadd_btw; [done|done|rp|apply repr_Z; lia|]. rewrite mult_IZR, plus_IZR. rewrite mult_IZR in Ha. lra.
Qed.
Lemma average_range l : Forall in_range l → l ≠ [] → (Z.of_nat (length l) <= limit)%Z → in_range (average l).
Proof.
  intros Hl Hn Hlen. apply in_range_btw. unfold average, fsum.
  destruct (sum_range l Hl (BinarySingleNaN.B754_zero true) 0) as [Fs Hs]; [|lia|lia|].
  { split; [done|]. assert (V : val (BinarySingleNaN.B754_zero true) = 0%R) by reflexivity. rewrite V. change (5 * 0)%Z with 0%Z. lra. }
  rewrite Z.add_0_l in Hs. set (n := Z.of_nat (length l)) in *.
  assert (1 <= n)%Z. { destruct l; [done|]. cbn in n. lia. }
  unfold f_of_nat. fold n. destruct (f_of_Z_val n) as [Fn Vn]; [unfold limit in *; lia|].
  assert (1 <= IZR n)%R by (apply IZR_le; lia).
  apply fdiv_btw; [done|done|lra|rp|rp|]. rewrite Vn. rewrite mult_IZR in Hs. split.
  - apply Rmult_le_pos; [lra|]. apply Rlt_le, Rinv_0_lt_compat. lra.
  - apply Rmult_le_reg_r with (IZR n); [lra|]. unfold Rdiv. rewrite Rmult_assoc, Rinv_l by lra. lra.
Qed.

(** ** Programs *)
Definition rng (c : caches) : Prop :=
  map_Forall (λ _ x, entry_ok x) (c_exercise c) ∧
  map_Forall (λ _ (o : option f32), ∀ x, o = Some x → in_range x) (c_lesson c) ∧
  map_Forall (λ _ (o : option f32), ∀ x, o = Some x → in_range x) (c_course c).
Definition ok_prog {A} (Q : A → Prop) (m : prog A) : Prop := ∀ c, rng c → rng (snd (m c)) ∧ ∀ a, fst (m c) = Val a → Q a.
Definition opt_range (o : option f32) : Prop := ∀ x, o = Some x → in_range x.

Lemma ok_done {A} (Q : A → Prop) a : Q a → ok_prog Q (done_with a).
Proof. intros H c Hc. split; [done|]. by intros b [= <-]. Qed.
Lemma ok_then {A B} (P : A → Prop) (Q : B → Prop) m k : ok_prog P m → (∀ a, P a → ok_prog Q (k a)) → ok_prog Q (then_do m k).
Proof.
  intros Hm Hk c Hc. unfold then_do. destruct (Hm c Hc) as [H1 H2]. destruct (m c) as [[a| | |] c']; cbn [fst snd] in *; try done.
  by apply Hk; [apply H2|].
Qed.
Lemma ok_default {A} (Q : A → Prop) d m : Q d → ok_prog Q m → ok_prog Q (or_default d m).
Proof.
  intros Hd Hm c Hc. unfold or_default. destruct (Hm c Hc) as [H1 H2]. destruct (m c) as [[a| | |] c']; cbn [fst snd] in *; try done.
  split; [done|]. by intros b [= <-].
Qed.
Lemma ok_each {A B} (Q : B → Prop) (f : A → prog B) l : (∀ x, x ∈ l → ok_prog Q (f x)) →
  ok_prog (λ ys, Forall Q ys ∧ length ys = length l) (each f l).
Proof.
  induction l as [|x l IH]; intros H; cbn [each]; [by apply ok_done|].
  eapply ok_then; [apply H; left|]. intros y Hy. eapply ok_then; [apply IH; intros z Hz; apply H; by right|].
  intros ys [Hys Hl]. apply ok_done. split; [by constructor|cbn; lia].
Qed.
Lemma ok_weak {A} (P Q : A → Prop) m : (∀ a, P a → Q a) → ok_prog P m → ok_prog Q m.
Proof. intros H Hm c Hc. destruct (Hm c Hc). split; eauto. Qed.
Lemma ok_fuel {A} (Q : A → Prop) : ok_prog Q out_of_fuel.
Proof. intros c Hc. done. Qed.

Lemma bfilter_length {A} (f : A → bool) l : length (List.filter f l) <= length l.
Proof. induction l as [|x l IH]; cbn; [lia|]. destruct (f x); cbn; lia. Qed.

Section programs.
  Context (w : world) (Hx : ∀ e x, w_exercise w e = Val x → entry_ok x) (Hord : ∀ s, w_ord w s ≡ₚ elements s) (Hm : modest (w_graph w)).

  Lemma ok_entry e : ok_prog entry_ok (exercise_entry w e).
  Proof using Hx.
    intros c Hc. unfold exercise_entry. destruct (c_exercise c !! e) as [x|] eqn:E.
    { split; [done|]. intros y [= <-]. by apply (proj1 Hc e). }
    destruct (w_exercise w e) as [x| | |] eqn:Ew; try done. apply Hx in Ew. split; [|by intros y [= <-]].
    destruct Hc as (H1 & H2 & H3). split; [|done]. by apply map_Forall_insert_2.
  Qed.
  Lemma ok_score e : ok_prog in_range (exercise_score w e).
  Proof using Hx. eapply ok_then; [apply ok_entry|]. intros x [H _]. by apply ok_done. Qed.
  Lemma ok_num e : ok_prog (λ _, True) (exercise_num_trials w e).
  Proof using Hx. eapply ok_then; [apply ok_entry|]. intros x _. by apply ok_done. Qed.
  Lemma ok_all u : ok_prog (λ _, True) (all_have_scores w u).
  Proof using Hx.
    unfold all_have_scores. destruct (valid_in_unit w u) as [|e l]; [by apply ok_done|].
    eapply ok_then; [apply (ok_each (λ _, True))|].
    - intros x _. apply ok_default; [done|]. eapply ok_then; [apply ok_score|]. intros y _. by apply ok_done.
    - intros ys _. by apply ok_done.
  Qed.
  Lemma ok_is_superseded us u s : (∀ v, ok_prog opt_range (us v)) → ok_prog (λ _, True) (is_superseded w us u s).
  Proof using Hx.
    intros Hu. unfold is_superseded. destruct (bool_decide _); [by apply ok_done|].
    eapply ok_then; [apply ok_all|]. intros [] _; [|by apply ok_done].
    eapply ok_then; [apply (ok_each opt_range)|].
    - intros x _. by apply ok_default.
    - intros ys _. by apply ok_done.
  Qed.
  Lemma ok_replace us fuel : ∀ s, (∀ v, ok_prog opt_range (us v)) → ok_prog (λ _, True) (replace_superseding w us fuel s).
  Proof using Hx.
    induction fuel as [|fuel IH]; intros s Hu; [apply ok_fuel|]. cbn [replace_superseding].
    eapply ok_then; [apply (ok_each (λ _, True))|].
    - intros x _. destruct (get_superseded_by _ x) as [m|]; [|by apply ok_done].
      eapply ok_then; [by apply ok_is_superseded|]. intros [] _; [by apply IH|by apply ok_done].
    - intros ys _. by apply ok_done.
  Qed.
  Lemma ok_superseded us fuel u : (∀ v, ok_prog opt_range (us v)) → ok_prog (λ _, True) (superseded w us fuel u).
  Proof using Hx.
    intros Hu. unfold superseded. destruct (get_superseded_by _ u); [|by apply ok_done].
    eapply ok_then; [by apply ok_replace|]. intros b _. by apply ok_is_superseded.
  Qed.
  Lemma ok_store_lesson l s : opt_range s → ok_prog opt_range (then_do (write (set_lesson <[l := s]>)) (λ _, done_with s)).
  Proof using.
    intros Hs c (H1 & H2 & H3). split; [|by intros a [= <-]]. split; [done|]. split; [|done]. by apply map_Forall_insert_2.
  Qed.
  Lemma ok_store_course l s : opt_range s → ok_prog opt_range (then_do (write (set_course <[l := s]>)) (λ _, done_with s)).
  Proof using.
    intros Hs c (H1 & H2 & H3). split; [|by intros a [= <-]]. split; [done|]. split; [done|]. by apply map_Forall_insert_2.
  Qed.
  Lemma ok_lesson us fuel l : (∀ v, ok_prog opt_range (us v)) → ok_prog opt_range (lesson_score w us fuel l).
  Proof using Hx Hord Hm.
    intros Hu c Hc. unfold lesson_score. destruct (c_lesson c !! l) as [s|] eqn:E.
    { split; [done|]. intros y [= <-]. exact (proj1 (proj2 Hc) l s E). }
    match goal with |- rng (snd (?m c)) ∧ _ => enough (H : ok_prog opt_range m) by by apply H end. clear c Hc E.
    assert (N : opt_range None) by (by intros x).
    destruct (w_bans w l); [by apply ok_store_lesson|]. eapply ok_then; [by apply ok_superseded|]. intros [] _; [by apply ok_store_lesson|].
    destruct (get_lesson_exercises (w_graph w) l) as [es|] eqn:Ees; [|by apply ok_store_lesson].
    destruct (List.filter _ _) as [|x ys] eqn:Ef; [by apply ok_store_lesson|].
    eapply ok_then; [apply (ok_each in_range); intros; apply ok_score|]. intros scores [Hs Hl]. apply ok_store_lesson.
    intros a [= <-]. apply average_range; [done| |].
    - intros ->. done.
    - rewrite Hl, <- Ef. pose proof (bfilter_length (λ e, negb (w_bans w e)) (w_ord w es)) as L.
      rewrite (Permutation_length (Hord es)) in L. change (length (elements es)) with (size es) in L. pose proof (proj1 Hm _ _ Ees). lia.
  Qed.
  Lemma omap_range (l : list (option f32)) : Forall opt_range l → Forall in_range (omap Datatypes.id l).
  Proof using.
    induction 1 as [|o l Ho Hl IH]; [constructor|]. destruct o as [x|]; cbn; [constructor; [by apply Ho|done]|done].
  Qed.
  Lemma omap_length (l : list (option f32)) : length (omap Datatypes.id l) <= length l.
  Proof using. induction l as [|[x|] l IH]; cbn [omap list_omap Datatypes.id length] in *; [lia| |]; lia. Qed.
  Lemma ok_course us fuel u : (∀ v, ok_prog opt_range (us v)) → ok_prog opt_range (course_score w us fuel u).
  Proof using Hx Hord Hm.
    intros Hu c Hc. unfold course_score. destruct (c_course c !! u) as [s|] eqn:E.
    { split; [done|]. intros y [= <-]. exact (proj2 (proj2 Hc) u s E). }
    assert (N : opt_range None) by (by intros x).
    match goal with |- rng (snd (?m c)) ∧ _ => enough (H : ok_prog opt_range m) by by apply H end. clear c Hc E.
    destruct (w_bans w u); [by apply ok_store_course|]. eapply ok_then; [by apply ok_superseded|]. intros [] _; [by apply ok_store_course|].
    destruct (get_course_lessons (w_graph w) u) as [ls|] eqn:Els; [|by apply ok_store_course].
    eapply ok_then; [apply (ok_each opt_range)|].
    - intros l _. apply ok_default; [done|]. by apply ok_lesson.
    - intros scores [Hs Hl]. destruct (omap Datatypes.id scores) as [|x ys] eqn:Eo; [by apply ok_done|]. apply ok_store_course.
      intros a [= <-]. apply average_range.
      + rewrite <- Eo. by apply omap_range.
      + done.
      + rewrite <- Eo. pose proof (omap_length scores) as L. rewrite Hl, (Permutation_length (Hord ls)) in L.
        change (length (elements ls)) with (size ls) in L. pose proof (proj2 Hm _ _ Els). lia.
  Qed.
  Lemma ok_unit fuel : ∀ u, ok_prog opt_range (unit_score w fuel u).
  Proof using Hx Hord Hm.
    induction fuel as [|fuel IH]; intros u; [apply ok_fuel|]. cbn [unit_score].
    destruct (get_unit_type (w_graph w) u) as [[]|].
    - eapply ok_then; [apply ok_score|]. intros x H. apply ok_done. by intros y [= <-].
    - by apply ok_lesson.
    - by apply ok_course.
    - intros c Hc. done.
  Qed.
  Lemma ok_lesson_trials l : ok_prog (λ _, True) (lesson_trials w l).
  Proof using Hx.
    intros c Hc. unfold lesson_trials. destruct (c_lesson_trials c !! l); [done|]. destruct (get_lesson_exercises _ l) as [es|]; [|done].
    match goal with |- rng (snd (?m c)) ∧ _ => enough (H : ok_prog (λ _, True) m) by by apply H end. clear c Hc.
    eapply ok_then; [apply (ok_each (λ _, True))|].
    - intros e _. apply ok_default; [done|]. eapply ok_then; [apply ok_num|]. intros x _. by apply ok_done.
    - intros ns _ c Hc. done.
  Qed.
  Lemma ok_avg fuel u : ok_prog (λ _, True) (avg_trials w fuel u).
  Proof using Hx Hord Hm.
    unfold avg_trials. destruct (get_unit_type (w_graph w) u) as [[]|]; [by apply ok_done|apply ok_lesson_trials| |by apply ok_done].
    intros c Hc. unfold course_trials. destruct (c_course_trials c !! u); [done|].
    match goal with |- rng (snd (?m c)) ∧ _ => enough (H : ok_prog (λ _, True) m) by by apply H end. clear c Hc.
    eapply ok_then; [apply (ok_each (λ _, True))|].
    - intros l _. eapply ok_then; [apply ok_superseded, ok_unit|]. intros b _. by apply ok_done.
    - intros ls _. eapply ok_then; [apply (ok_each (λ _, True)); intros; apply ok_lesson_trials|]. intros ns _ c Hc. done.
  Qed.
End programs.

(** ** Tables *)
Definition rows_ok {A} (Q : A → Prop) (t : table A) : Prop := Forall (λ r, ∀ v, r_val r = Some v → Q v) (t_rows t).
Section tables.
  Context {A : Type} (bind : A → option A) (Hbind : ∀ a b, bind a = Some b → b = a) (Q : A → Prop).
  Lemma rows_empty : rows_ok Q empty_table.
  Proof using. constructor. Qed.
  Lemma rows_insert t e t' : rows_ok Q t → Q (e_val e) → insert_entry bind t e = Some t' → rows_ok Q t'.
  Proof using Hbind.
    intros Ht He. unfold insert_entry. destruct (uid_of _ _) as [k|]; [|done]. intros [= <-]. apply Forall_app. split; [done|].
    constructor; [|constructor]. cbn. intros v Hv. by apply Hbind in Hv as ->.
  Qed.
  Lemma rows_inserts es : ∀ t t', rows_ok Q t → Forall (λ e, Q (e_val e)) es → insert_entries bind t es = Some t' → rows_ok Q t'.
  Proof using Hbind.
    induction es as [|e es IH]; intros t t' Ht He H; cbn in H; [by injection H as <-|]. apply Forall_cons in He as [He Hes].
    destruct (insert_entry bind t e) as [t1|] eqn:E; [|done]. eapply IH; [|done|done]. by eapply rows_insert.
  Qed.
  Lemma rows_record fault t es : rows_ok Q t → Forall (λ e, Q (e_val e)) es → rows_ok Q (fst (record_entries bind fault t es)).
  Proof using Hbind.
    intros Ht He. unfold record_entries. destruct fault; [done|]. destruct (insert_entries bind t es) as [t'|] eqn:E; [|done]. by eapply rows_inserts.
  Qed.
  Lemma rows_remove stop pre t : rows_ok Q t → rows_ok Q (remove_prefix stop pre t).
  Proof using.
    intros Ht. unfold remove_prefix, for_uids. generalize (upto stop (matching_uids pre t)). intros ks.
    unfold rows_ok in *. cbn [t_rows]. generalize dependent (t_rows t). induction ks as [|k ks IH]; intros rows Hr; [done|].
    cbn [fold_left]. apply IH. unfold delete_unit. apply Forall_forall. intros r Hin. apply elem_of_list_filter in Hin as [_ Hin].
    rewrite Forall_forall in Hr. by apply Hr.
  Qed.
  Lemma rows_get (q : order A) t u n : sorts_newest_first q → rows_ok Q t → Forall (λ e, Q (e_val e)) (default [] (get_entries q t u n)).
  Proof using.
    intros Hq Ht. unfold get_entries. destruct (uid_of (t_uids t) u) as [k|]; [|constructor].
    destruct (mapM _ _) as [es|] eqn:E; [|constructor]. cbn. apply mapM_Some in E. apply Forall_forall. intros e He.
    apply elem_of_list_lookup in He as [i Hi]. destruct (Forall2_lookup_r _ _ _ _ _ E Hi) as (r & Hr & Hd).
    unfold decode_row in Hd. destruct (r_val r) as [v|] eqn:Ev; [|done]. injection Hd as <-. cbn [e_val].
    unfold rows_ok in Ht. rewrite Forall_forall in Ht. apply (Ht r); [|done].
    apply elem_of_list_lookup_2 in Hr. assert (Hin : r ∈ newest_rows q (t_rows t) k).
    { rewrite <- (take_drop n (newest_rows q (t_rows t) k)). apply elem_of_app. by left. }
    unfold newest_rows in Hin. rewrite (proj1 (Hq _)) in Hin. by apply elem_of_list_filter in Hin as [_ Hin].
  Qed.
  Lemma rows_get_length (q : order A) t u n : length (default [] (get_entries q t u n)) <= n.
  Proof using.
    unfold get_entries. destruct (uid_of (t_uids t) u) as [k|]; [|cbn; lia].
    destruct (mapM _ _) as [es|] eqn:E; [|cbn; lia]. cbn. apply mapM_length in E. rewrite <- E. apply firstn_le_length.
  Qed.
End tables.
Lemma bind_f32_same a b : bind_f32 a = Some b → b = a.
Proof. unfold bind_f32. destruct (fis_nan a); [done|]. by intros [= ->]. Qed.
Lemma bind_reward_same a b : bind_reward a = Some b → b = a.
Proof. unfold bind_reward. destruct (_ || _); [done|]. by intros [= ->]. Qed.

Definition reward_val_ok (r : reward) : Prop := between (fneg f_1) r.1 f_1 ∧ between fzero r.2 f_1.
Lemma rewards_loop_ok q rs : ∀ st st', rows_ok reward_val_ok (fst (fst st)) → Forall (λ e, reward_val_ok (e_val e)) rs →
  reward_loop q st rs = Some st' → rows_ok reward_val_ok (fst (fst st')).
Proof.
  induction rs as [|r rs IH]; intros st st' Hst Hrs H; cbn in H; [by injection H as <-|]. apply Forall_cons in Hrs as [Hr Hrs].
  destruct (reward_body q st r) as [st1|] eqn:E; [|done]. eapply IH; [|done|done]. clear H IH.
  destruct st as [[t cache] upd]. unfold reward_body in E. destruct (has_similar_reward cache r); [by injection E as <-|].
  destruct (insert_entry bind_reward t r) as [t1|] eqn:Ei; [|done]. destruct (uid_of (t_uids t1) (e_unit r)) as [k|]; [|done].
  injection E as <-. cbn [fst]. pose proof (rows_insert bind_reward bind_reward_same _ _ _ _ Hst Hr Ei) as Ht.
  unfold rows_ok, trim_unit_by_id in *. cbn [t_rows]. apply Forall_forall. intros x Hin. apply elem_of_list_filter in Hin as [_ Hin].
  rewrite Forall_forall in Ht. by apply Ht.
Qed.
Lemma rewards_record_ok q fault s rs : rows_ok reward_val_ok (rs_table s) → Forall (λ e, reward_val_ok (e_val e)) rs →
  rows_ok reward_val_ok (rs_table (fst (record_unit_rewards q fault s rs))).
Proof.
  intros Hs Hrs. unfold record_unit_rewards. destruct fault as [i|].
  - destruct (reward_loop _ _ _) as [[[t c] u]|]; done.
  - destruct (reward_loop _ _ _) as [[[t c] u]|] eqn:E; [|done]. by apply (rewards_loop_ok q rs (rs_table s, rs_cache s, []) (t, c, u)).
Qed.

(** ** The graph of an opened library is the result of graph operations *)
Definition built (g : graph) : Prop := ∃ ops, g = grun ops.
Lemma built_step g o : built g → built (gstep g o).1.
Proof. intros [ops ->]. exists (ops ++ [o]). unfold grun. by rewrite fold_left_app. Qed.
Lemma built_try g o g' : built g → try_graph (gstep g o) = Some g' → built g'.
Proof. intros Hg. unfold try_graph. pose proof (built_step g o Hg). destruct (gstep g o) as [g1 []]; [|done]. by intros [= <-]. Qed.
Lemma built_relations g u t deps enc sup g' : built g → add_relations g u t deps enc sup = Some g' → built g'.
Proof.
  intros Hg H. unfold add_relations in H. destruct (try_graph (add_dependencies g u t deps)) as [g1|] eqn:E1; [|done].
  cbn [mbind option_bind] in H. destruct (try_graph (add_encompassed g1 u deps enc)) as [g2|] eqn:E2; [|done]. cbn [mbind option_bind] in H.
  injection H as <-. apply (built_step g2 (AddSuperseded u sup)). apply (built_try g1 (AddEncompassed u deps enc) g2); [|done].
  by apply (built_try g (AddDependencies u t deps) g1).
Qed.
Lemma try_fold_inv {A B} (P : A → Prop) (f : A → B → option A) l : (∀ a b a', P a → f a b = Some a' → P a') → ∀ a a', P a → try_fold f l a = Some a' → P a'.
Proof.
  intros Hf. induction l as [|b l IH]; intros a a' Ha H; cbn in H; [by injection H as <-|].
  destruct (f a b) as [a1|] eqn:E; [|done]. cbn [mbind option_bind] in H. eapply IH; [|done]. by eapply Hf.
Qed.
Lemma built_exercise lib em lib' : built (lib_graph lib) → process_exercise lib em = Some lib' → built (lib_graph lib').
Proof.
  intros Hg H. unfold process_exercise in H. destruct (try_graph _) as [g|] eqn:E; [|done]. cbn [mbind option_bind] in H. injection H as <-.
  by apply (built_try (lib_graph lib) (AddExercise (em_id em) (em_lesson_id em)) g).
Qed.
Lemma built_lesson lib le lib' : built (lib_graph lib) → process_lesson lib le = Some lib' → built (lib_graph lib').
Proof.
  intros Hg H. destruct le as [lm exs]. unfold process_lesson in H. destruct (try_graph _) as [g|] eqn:E; [|done]. cbn [mbind option_bind] in H.
  destruct (add_relations _ _ _ _ _ _) as [g2|] eqn:E2; [|done]. cbn [mbind option_bind] in H.
  eapply (try_fold_inv (λ lib, built (lib_graph lib)) process_exercise); [apply built_exercise| |exact H]. cbn [lib_graph].
  eapply built_relations; [|done]. by apply (built_try (lib_graph lib) (AddLesson (lm_id lm) (lm_course_id lm)) g).
Qed.
Lemma built_course lib oc lib' : built (lib_graph lib) → process_course lib oc = Some lib' → built (lib_graph lib').
Proof.
  intros Hg H. unfold process_course in H. destruct (try_graph _) as [g|] eqn:E; [|done]. cbn [mbind option_bind] in H.
  destruct (add_relations _ _ _ _ _ _) as [g2|] eqn:E2; [|done]. cbn [mbind option_bind] in H.
  eapply (try_fold_inv (λ lib, built (lib_graph lib)) process_lesson); [apply built_lesson| |exact H]. cbn [lib_graph].
  eapply built_relations; [|done]. by apply (built_try (lib_graph lib) (AddCourse (cm_id (oc_manifest oc))) g).
Qed.
Lemma opened_built lib : opened lib → built (lib_graph lib).
Proof.
  intros (o & courses & _ & _ & H). unfold open_library, process_results in H.
  destruct (try_fold process_course courses empty_library) as [lib1|] eqn:E; [|done]. cbn [mbind option_bind] in H.
  destruct (check_cycles _ _); [|done]. injection H as <-. cbn [set_graph lib_graph].
  assert (H1 : built (lib_graph lib1)).
  { eapply (try_fold_inv (λ lib, built (lib_graph lib)) process_course); [apply built_course| |exact E]. by exists []. }
  apply (built_step _ UpdateStartingLessons) in H1. destruct (no_encompassed courses); [|done].
  by apply (built_step _ SetEncompassingEqualsDependency) in H1.
Qed.
