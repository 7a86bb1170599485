(** Averages of numbers that are high enough are high enough, for whole numbers. *)
From stdpp Require Import gmap strings list relations.
From Coq Require Import ZArith Reals Lra Lia.
From Flocq Require Import Core.Core.
From Verif Require Import F32 F32Real F32More Graph GraphSpec GraphProofs Library LibFacts SearchSpec ScorerSpec ScorerProofs UnitScorer UnitSpec Practice PracticeSpec RangeSpec RangeProofs
  UnitAverageSpec UnitAverageProofs PassSpec.
Local Open Scope nat_scope.

(** ** Averages *)
Notation top := (bpow radix2 86).
Lemma top_five : (5 <= top)%R.
Proof. rewrite <- IZR_Zpower by lia. apply IZR_le. vm_compute. discriminate. Qed.
Lemma repr_top k : (0 <= k <= limit)%Z → repr (IZR k * top)%R.
Proof. intros Hk. unfold limit in Hk. destruct (float_exists k 86) as (h & Hf & Hv); [lia|lia|]. by exists h. Qed.
Lemma sum_least b l : (0 <= b <= 5)%Z → Forall (btw (IZR b) top) l → ∀ a k, btw (IZR (b * k)) (IZR k * top) a →
  (0 <= k)%Z → (k + Z.of_nat (length l) <= limit)%Z →
  btw (IZR (b * (k + Z.of_nat (length l)))) (IZR (k + Z.of_nat (length l)) * top) (fold_left fadd l a).
Proof.
  intros Hb. induction 1 as [|x l [Fx Hx] Hl IH]; intros a k [Fa Ha] Hk Hn; cbn [fold_left length] in *.
  { rewrite Z.add_0_r. done. }
  replace (k + Z.of_nat (S (length l)))%Z with ((k + 1) + Z.of_nat (length l))%Z by lia.
  apply IH; [|lia|lia].
  apply fadd_btw; [done|done|apply repr_Z; unfold limit in *; nia|apply repr_top; unfold limit in *; lia|].
  rewrite mult_IZR, plus_IZR. rewrite mult_IZR in Ha. lra.
Qed.
Lemma mean_least b l : (0 <= b <= 5)%Z → Forall (btw (IZR b) top) l → (Z.of_nat (length l) <= limit)%Z →
  ∀ x, mean l = Some x → btw (IZR b) top x.
Proof.
  intros Hb Hl Hlen x E. unfold mean in E. assert (Hne : l ≠ []) by (intros ->; done).
  assert (E' : Some (fdiv (fsum l) (f_of_nat (length l))) = Some x) by (destruct l; done). clear E. injection E' as <-.
  unfold fsum. destruct (sum_least b l Hb Hl (BinarySingleNaN.B754_zero true) 0) as [Fs Hs]; [|lia|lia|].
  { split; [done|]. assert (V : val (BinarySingleNaN.B754_zero true) = 0%R) by reflexivity. rewrite V, Z.mul_0_r. lra. }
  rewrite Z.add_0_l in Hs. set (n := Z.of_nat (length l)) in *.
  assert (1 <= n)%Z. { destruct l; [done|]. cbn in n. lia. }
  unfold f_of_nat. fold n. destruct (f_of_Z_val n) as [Fn Vn]; [unfold limit in *; lia|].
  assert (1 <= IZR n)%R by (apply IZR_le; lia).
  apply fdiv_btw; [done|done|lra|apply repr_Z; lia|apply repr_bpow; lia|]. rewrite Vn. rewrite mult_IZR in Hs. split.
  - apply Rmult_le_reg_r with (IZR n); [lra|]. unfold Rdiv. rewrite Rmult_assoc, Rinv_l by lra. lra.
  - apply Rmult_le_reg_r with (IZR n); [lra|]. unfold Rdiv. rewrite Rmult_assoc, Rinv_l by lra. lra.
Qed.

(** ** Comparisons *)
Lemma least_ge b x : (0 <= b <= 5)%Z → btw (IZR b) top x → fge x (f_of_Z b) = true.
Proof. intros Hb [Fx Hx]. destruct (f_of_Z_val b) as [Fb Vb]; [lia|]. apply (fle_true (f_of_Z b) x); [done|done|lra]. Qed.
Lemma ge_least b x : (0 <= b <= 5)%Z → btw 0 top x → fge x (f_of_Z b) = true → btw (IZR b) top x.
Proof.
  intros Hb [Fx Hx] H. destruct (f_of_Z_val b) as [Fb Vb]; [lia|]. apply (fle_true (f_of_Z b) x) in H; [|done..]. split; [done|lra].
Qed.
Lemma trials_btw n k : (1 <= n <= limit)%Z → (0 <= k)%Z → (k <= n * 2 ^ 64)%Z → ∀ b, (0 <= b <= 5)%Z → (b * n <= k)%Z →
  btw (IZR b) top (fdiv (f_of_Z k) (f_of_Z n)).
Proof.
  intros Hn Hk Hk' b Hb Hbn. unfold limit in Hn. destruct (f_of_Z_val n) as [Fn Vn]; [lia|].
  assert (H86 : (k <= 2 ^ 86)%Z) by (change (2 ^ 86)%Z with (4194304 * 2 ^ 64)%Z; nia).
  destruct (f_of_Z_rnd k) as [Fk Vk]. { assert (2 ^ 86 <= 2 ^ 127)%Z by (apply Z.pow_le_mono_r; lia). lia. }
  assert (1 <= IZR n)%R by (apply IZR_le; lia).
  assert (L : (IZR (b * n) <= val (f_of_Z k))%R).
  { rewrite Vk. apply rnd_ge; [apply repr_Z; nia|]. by apply IZR_le. }
  assert (U : (val (f_of_Z k) <= top)%R).
  { rewrite Vk. apply rnd_le_repr; [apply repr_bpow; lia|]. rewrite <- IZR_Zpower by lia. by apply IZR_le. }
  assert (P : (0 <= val (f_of_Z k))%R). { rewrite Vk. apply rnd_ge; [apply (repr_Z 0); lia|]. apply IZR_le. lia. }
  apply fdiv_btw; [done|done|lra|apply repr_Z; lia|apply repr_bpow; lia|]. rewrite Vn. rewrite mult_IZR in L. split.
  - apply Rmult_le_reg_r with (IZR n); [lra|]. unfold Rdiv. rewrite Rmult_assoc, Rinv_l by lra. lra.
  - apply Rmult_le_reg_r with (IZR n); [lra|]. unfold Rdiv. rewrite Rmult_assoc, Rinv_l by lra. pose proof top_five. nra.
Qed.

Lemma sum_most {A} (f : A → nat) m l : (∀ y, y ∈ l → (Z.of_nat (f y) <= m)%Z) → (Z.of_nat (sum_list (f <$> l)) <= m * Z.of_nat (length l))%Z.
Proof.
  induction l as [|y l IH]; intros H; [cbn; lia|]. change (sum_list (f <$> y :: l)) with (f y + sum_list (f <$> l)).
  pose proof (H y ltac:(left)). specialize (IH ltac:(intros z Hz; apply H; by right)). cbn [length]. lia.
Qed.
Lemma sum_fewest {A} (f : A → nat) m l : (∀ y, y ∈ l → (m <= Z.of_nat (f y))%Z) → (m * Z.of_nat (length l) <= Z.of_nat (sum_list (f <$> l)))%Z.
Proof.
  induction l as [|y l IH]; intros H; [cbn; lia|]. change (sum_list (f <$> y :: l)) with (f y + sum_list (f <$> l)).
  pose proof (H y ltac:(left)). specialize (IH ltac:(intros z Hz; apply H; by right)). cbn [length]. lia.
Qed.

(** ** Lessons and courses *)
Section pass.
  Context (lib : library) (Hl : opened lib) (Hm : modest (lib_graph lib)) (w : world) (Hg : w_graph w = lib_graph lib)
    (x : uid → cached_score) (Hx : ∀ e, in_range (ca_score (x e)) ∧ (Z.of_nat (ca_trials (x e)) <= 2 ^ 64)%Z)
    (score trials : uid → option f32) (HS : scores_add_up w score (λ e, ca_score (x e))) (HT : trials_add_up w score (λ e, ca_trials (x e)) trials).
  Let g := lib_graph lib.
  Notation out u := (banned w u ∨ overtaken w score u).

  Lemma few_exercises l es : NoDup es → (∀ e, e ∈ es → get_exercise_lesson g e = Some l) → (Z.of_nat (length es) <= limit)%Z.
  Proof using Hl Hm.
    intros Hnd H. pose proof (opened_ok _ Hl) as K. destruct es as [|e0 es0] eqn:E; [cbn; unfold limit; lia|]. rewrite <- E in *.
    destruct (get_lesson_exercises g l) as [s|] eqn:Es.
    - pose proof (proj1 Hm _ _ Es) as L. assert (Hsub : (list_to_set es : gset uid) ⊆ s).
      { intros e He. apply elem_of_list_to_set, H in He. apply (i_el _ (k_inv _ K)) in He. unfold get_lesson_exercises in Es.
        apply answers_mget in He. unfold answers in He. fold g in He. by rewrite Es in He. }
      apply subseteq_size in Hsub. rewrite size_list_to_set in Hsub by done. lia.
    - exfalso. assert (He : e0 ∈ es) by (subst; left). apply H, (i_el _ (k_inv _ K)), answers_mget in He. unfold get_lesson_exercises in Es.
      unfold answers in He. fold g in He. by rewrite Es in He.
  Qed.
  Lemma few_lessons c ls : NoDup ls → (∀ l, l ∈ ls → get_lesson_course g l = Some c) → (Z.of_nat (length ls) <= limit)%Z.
  Proof using Hl Hm.
    intros Hnd H. pose proof (opened_ok _ Hl) as K. destruct ls as [|e0 es0] eqn:E; [cbn; unfold limit; lia|]. rewrite <- E in *.
    destruct (get_course_lessons g c) as [s|] eqn:Es.
    - pose proof (proj2 Hm _ _ Es) as L. assert (Hsub : (list_to_set ls : gset uid) ⊆ s).
      { intros e He. apply elem_of_list_to_set, H in He. apply (i_lc _ (k_inv _ K)) in He. unfold get_course_lessons in Es.
        apply answers_mget in He. unfold answers in He. fold g in He. by rewrite Es in He. }
      apply subseteq_size in Hsub. rewrite size_list_to_set in Hsub by done. lia.
    - exfalso. assert (He : e0 ∈ ls) by (subst; left). apply H, (i_lc _ (k_inv _ K)), answers_mget in He. unfold get_course_lessons in Es.
      unfold answers in He. fold g in He. by rewrite Es in He.
  Qed.

  (** The exercises of a lesson that reach a score of [a'] and [b'] trials. *)
  Lemma lesson_least l a' b' : (0 <= a' <= 5)%Z → (0 <= b' <= 5)%Z → get_unit_type g l = Some Lesson →
    (∀ e, get_exercise_lesson g e = Some l → ¬ banned w e → btw (IZR a') top (ca_score (x e)) ∧ (b' <= Z.of_nat (ca_trials (x e)))%Z) →
    (∀ s, score l = Some s → btw (IZR a') top s) ∧ (∀ t, trials l = Some t → btw (IZR b') top t).
  Proof using Hl Hm Hg Hx HS HT.
    intros Ha' Hb' Hty H. pose proof (opened_ok _ Hl) as K. split.
    - intros s Hs. assert (Hin : ¬ out l). { intros O. rewrite (s_out _ _ _ HS l) in Hs; [done|rewrite Hg; auto|done]. }
      destruct (s_lesson _ _ _ HS l) as (es & Hnd & Hes & E); [by rewrite Hg|tauto|tauto|]. rewrite Hg in Hes. rewrite E in Hs.
      assert (Ho : ∀ e, e ∈ es → score e = Some (ca_score (x e))).
      { intros e He. apply Hes in He as [He _]. apply (s_exercise _ _ _ HS). rewrite Hg. by apply (i_el_t _ (k_inv _ K)) in He as [He _]. }
      apply (mean_least a' (omap score es)); [done| | |].
      + assert (E' : omap score es = (λ e, ca_score (x e)) <$> es).
        { clear -Ho. induction es as [|e es IH]; [done|]. cbn. rewrite Ho by left. f_equal. apply IH. intros e' He'. apply Ho. by right. }
        rewrite E'. apply Forall_fmap, Forall_forall. intros e He. apply Hes in He as [He Hne]. by apply (H e).
      + assert (L : length (omap score es) <= length es). { clear. induction es as [|e es IH]; [done|]. cbn. destruct (score e); cbn; lia. }
        assert (Z.of_nat (length es) <= limit)%Z; [|lia]. apply (few_exercises l); [done|]. intros e He. by apply Hes in He as [? _].
      + done.
    - intros t Ht. destruct (t_lesson _ _ _ _ HT l) as (es & Hnd & Hes & E); [by rewrite Hg|]. rewrite Hg in Hes. rewrite E in Ht.
      destruct es as [|e0 es0] eqn:Ees; [done|]. rewrite <- Ees in *. injection Ht as <-.
      assert (Hn : (1 <= Z.of_nat (length es) <= limit)%Z).
      { split; [rewrite Ees; cbn; lia|]. apply (few_exercises l); [done|]. intros e He. by apply Hes in He as [? _]. }
      unfold f_of_nat. apply trials_btw; [done|lia| |done|].
      + rewrite Z.mul_comm. apply sum_most. intros e _. apply (Hx e).
      + apply sum_fewest. intros e He. apply Hes in He as [He Hne]. by apply (H e).
  Qed.
  Lemma lesson_any l : get_unit_type g l = Some Lesson → (∀ s, score l = Some s → btw 0 top s) ∧ (∀ t, trials l = Some t → btw 0 top t).
  Proof using Hl Hm Hg Hx HS HT.
    intros Hty. apply (lesson_least l 0 0); [lia|lia|done|]. intros e _ _. split; [|lia]. destruct (Hx e) as [He _].
    apply in_range_btw in He as [Fe He]. split; [done|]. pose proof top_five. lra.
  Qed.
  (** Inside, a lesson has a score if and only if it has trials. *)
  Lemma lesson_both l : get_unit_type g l = Some Lesson → ¬ out l → is_Some (score l) ↔ is_Some (trials l).
  Proof using Hl Hg HS HT.
    intros Hty Hin. pose proof (opened_ok _ Hl) as K.
    destruct (s_lesson _ _ _ HS l) as (es & Hnd & Hes & ->); [by rewrite Hg|tauto|tauto|]. rewrite Hg in Hes.
    destruct (t_lesson _ _ _ _ HT l) as (es' & Hnd' & Hes' & ->); [by rewrite Hg|]. rewrite Hg in Hes'.
    assert (Hp : es ≡ₚ es') by (apply NoDup_Permutation; [done|done|]; intros e; by rewrite Hes, Hes').
    destruct es as [|e es].
    - apply Permutation_nil in Hp. subst es'. cbn. done.
    - destruct es' as [|e' es']; [by symmetry in Hp; apply Permutation_nil in Hp|].
      cbn. rewrite (s_exercise _ _ _ HS e). 2:{ rewrite Hg. assert (He : e ∈ e :: es) by left. apply Hes in He as [He _]. by apply (i_el_t _ (k_inv _ K)) in He as [He _]. }
      cbn. split; intros _; eauto.
  Qed.
  Lemma course_least a b c : (0 <= a <= 5)%Z → (0 <= b <= 5)%Z → get_unit_type g c = Some Course →
    (∀ l s t, get_lesson_course g l = Some c → score l = Some s → trials l = Some t → fge s (f_of_Z a) = true ∧ fge t (f_of_Z b) = true) →
    ∀ s t, score c = Some s → trials c = Some t → fge s (f_of_Z a) = true ∧ fge t (f_of_Z b) = true.
  Proof using Hl Hm Hg Hx HS HT.
    intros Ha Hb Hty H s t Hs Ht. pose proof (opened_ok _ Hl) as K.
    assert (Hin : ¬ out c). { intros O. rewrite (s_out _ _ _ HS c) in Hs; [done|rewrite Hg; auto|done]. }
    destruct (s_course _ _ _ HS c) as (ls & Hnd & Hls & E); [by rewrite Hg|tauto|tauto|]. rewrite Hg in Hls. rewrite E in Hs.
    destruct (t_course _ _ _ _ HT c) as (ls' & Hnd' & Hls' & E'); [by rewrite Hg|]. rewrite Hg in Hls'. rewrite E' in Ht.
    assert (Hty' : ∀ l, get_lesson_course g l = Some c → get_unit_type g l = Some Lesson).
    { intros l Hlc. by apply (i_lc_t _ (k_inv _ K)) in Hlc as [Hlc _]. }
    assert (Hlen : ∀ f (k : list uid), length (omap f k : list f32) <= length k).
    { clear. intros f k. induction k as [|e es IH]; [done|]. cbn. destruct (f e); cbn; lia. }
    split.
    - apply least_ge; [done|]. apply (mean_least a (omap score ls)); [done| | |done].
      + apply Forall_forall. intros y (l & Hll & Hy)%elem_of_list_omap. apply Hls in Hll.
        assert (Hin' : ¬ out l). { intros O. rewrite (s_out _ _ _ HS l) in Hy; [done|rewrite Hg; left; by apply Hty'|done]. }
        destruct (proj1 (lesson_both l (Hty' _ Hll) Hin') ltac:(eauto)) as [u Hu]. apply ge_least; [done|by apply (proj1 (lesson_any l (Hty' _ Hll)))|].
        by apply (H l y u).
      + assert (Z.of_nat (length ls) <= limit)%Z; [|specialize (Hlen score ls); lia]. apply (few_lessons c); [done|]. intros l Hll. by apply Hls.
    - apply least_ge; [done|]. apply (mean_least b (omap trials ls')); [done| | |done].
      + apply Forall_forall. intros y (l & Hll & Hy)%elem_of_list_omap. apply Hls' in Hll as (Hll & Hn1 & Hn2).
        destruct (proj2 (lesson_both l (Hty' _ Hll) ltac:(tauto)) ltac:(eauto)) as [u Hu]. apply ge_least; [done|by apply (proj2 (lesson_any l (Hty' _ Hll)))|].
        by apply (H l u y).
      + assert (Z.of_nat (length ls') <= limit)%Z; [|specialize (Hlen trials ls'); lia]. apply (few_lessons c); [done|]. intros l Hll. by apply Hls' in Hll as [? _].
  Qed.
End pass.

Lemma whole_passes lib : opened lib → acyclic (below (lib_graph lib)) → modest (lib_graph lib) → ∃ n, ∀ w x a b,
  w_graph w = lib_graph lib → (∀ s, w_ord w s ≡ₚ elements s) →
  (∀ e, w_exercise w e = Val (x e) ∧ in_range (ca_score (x e)) ∧ (Z.of_nat (ca_trials (x e)) <= 2 ^ 64)%Z) →
  (0 <= a <= 5)%Z → (0 <= b <= 5)%Z → ∀ asked fuel, Forall (λ y, n ≤ y.1) asked → n ≤ fuel →
  let score u := fst (unit_score w fuel u (after_asking w asked no_caches)) in
  let trials u := fst (avg_trials w fuel u (after_asking w asked no_caches)) in
  (∀ c, get_unit_type (lib_graph lib) c = Some Course →
     (∀ l, get_lesson_course (lib_graph lib) l = Some c → reaches (f_of_Z a) (f_of_Z b) (score l) (trials l)) →
     reaches (f_of_Z a) (f_of_Z b) (score c) (trials c)) ∧
  (∀ l, get_unit_type (lib_graph lib) l = Some Lesson →
     (∀ e, get_exercise_lesson (lib_graph lib) e = Some l → e ∉ w_banned w →
        fge (ca_score (x e)) (f_of_Z a) = true ∧ (b <= Z.of_nat (ca_trials (x e)))%Z) →
     reaches (f_of_Z a) (f_of_Z b) (score l) (trials l)).
Proof.
  intros Hl Hac Hm. destruct (averages lib Hl Hac) as [n Hn]. exists n. intros w x a b Hg Hord Hx Ha Hb asked fuel Hasked Hfuel.
  destruct (Hn w x Hg Hord (λ e, proj1 (Hx e))) as (score & trials & HS & HT & HA). cbv zeta.
  assert (Hx' : ∀ e, in_range (ca_score (x e)) ∧ (Z.of_nat (ca_trials (x e)) <= 2 ^ 64)%Z) by (intros e; apply (Hx e)).
  pose proof (opened_ok _ Hl) as K.
  assert (Ans : ∀ u, get_unit_type (lib_graph lib) u = Some Lesson ∨ get_unit_type (lib_graph lib) u = Some Course →
    fst (unit_score w fuel u (after_asking w asked no_caches)) = Val (score u) ∧ fst (avg_trials w fuel u (after_asking w asked no_caches)) = Val (trials u)).
  { intros u Hu. destruct (HA asked fuel u Hasked Hfuel) as [E1 E2]; [destruct Hu; congruence|]. split; [done|]. apply E2. destruct Hu; congruence. }
  split.
  - intros c Hc H s t Hs Ht. destruct (Ans c ltac:(by right)) as [E1 E2]. rewrite E1 in Hs. rewrite E2 in Ht.
    apply (course_least lib Hl Hm w Hg x Hx' score trials HS HT a b c Ha Hb Hc); [|congruence|congruence].
    intros l y u Hlc Hy Hu. destruct (i_lc_t _ (k_inv _ K) _ _ Hlc) as [Hty _]. destruct (Ans l ltac:(by left)) as [F1 F2].
    apply (H l Hlc); congruence.
  - intros l Hty H s t Hs Ht. destruct (Ans l ltac:(by left)) as [E1 E2]. rewrite E1 in Hs. rewrite E2 in Ht.
    destruct (lesson_least lib Hl Hm w Hg x Hx' score trials HS HT l a b Ha Hb Hty) as [L1 L2].
    + intros e He Hne. destruct (H e He Hne) as [H1 H2]. split; [|done]. apply ge_least; [done| |done].
      destruct (Hx' e) as [Hr _]. apply in_range_btw in Hr as [Fe Hr]. split; [done|]. pose proof top_five. lra.
    + split; apply least_ge; try done; [apply L1|apply L2]; congruence.
Qed.
