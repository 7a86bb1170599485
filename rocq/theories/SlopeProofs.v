(** Proof that the velocity of an exercise is the least squares slope of its grades, up to rounding. *)
From stdpp Require Import list strings.
From Coq Require Import ZArith Reals Lra Lia Psatz.
From Flocq Require Import Core.Core IEEE754.BinarySingleNaN Relative.
From Verif Require Import F32 F32Real F32More Stores Scorer ScorerSpec ScorerProofs ScoreProofs CurveProofs MemoryProofs ExactSpec MemoryExact AverageExact OptionsSpec OptionsProofs SlopeSpec.
Local Open Scope R_scope.

(** ** Relative errors *)
Definition q : R := 1 + / 16000000.
Definition near (k : nat) (a b : R) : Prop := 0 <= a ∧ 0 <= b ∧ a <= b * q ^ k ∧ b <= a * q ^ k.
Lemma q_pow k : 1 <= q ^ k.
Proof. apply pow_R1_Rle. unfold q. lra. Qed.
Lemma q_add j k : q ^ j <= q ^ (j + k).
Proof. rewrite pow_add. pose proof (q_pow j). pose proof (q_pow k). nra. Qed.
Lemma q_mono j k : (j <= k)%nat → q ^ j <= q ^ k.
Proof. intros H. replace k with (j + (k - j))%nat by lia. apply q_add. Qed.
Lemma near_more j k a b : (j <= k)%nat → near j a b → near k a b.
Proof.
  intros H (A & B & C & D). pose proof (q_mono j k H). split_and!; [done|done| |]; (eapply Rle_trans; [eassumption|apply Rmult_le_compat_l; done]).
Qed.
Lemma near_self k a : 0 <= a → near k a a.
Proof. intros H. pose proof (q_pow k). split_and!; nra. Qed.
Lemma near_add k a b c d : near k a b → near k c d → near k (a + c) (b + d).
Proof. intros (A & B & C & D) (A' & B' & C' & D'). split_and!; try lra. Qed.
Lemma near_mul j k a b c d : near j a b → near k c d → near (j + k) (a * c) (b * d).
Proof.
  intros (A & B & C & D) (A' & B' & C' & D'). unfold near. rewrite pow_add. pose proof (q_pow j). pose proof (q_pow k). split_and!.
  - by apply Rmult_le_pos.
  - by apply Rmult_le_pos.
  - replace (b * d * (q ^ j * q ^ k)) with ((b * q ^ j) * (d * q ^ k)) by ring. by apply Rmult_le_compat.
  - replace (a * c * (q ^ j * q ^ k)) with ((a * q ^ j) * (c * q ^ k)) by ring. by apply Rmult_le_compat.
Qed.
(** Zero or not small. *)
Definition sizable (r : R) : Prop := r = 0 ∨ / 100000000000 <= r.
Lemma near_rnd k a b : near k a b → q ^ k <= 2 → sizable b → near (S k) (rnd a) b.
Proof.
  intros (A & B & C & D) Q [->|H].
  - assert (a = 0) as -> by lra. rewrite rnd_0. apply near_self. lra.
  - assert (L : / 200000000000 <= a) by nra. pose proof (rel a ltac:(lra)) as E. apply Rabs_le_inv in E.
    assert (Hp : 0 <= rnd a) by lra. pose proof (q_pow k).
    assert (U1 : rnd a <= a * q) by (unfold q; lra). assert (U2 : a <= rnd a * q) by (unfold q; lra).
    split_and!; [done|done| |]; cbn [pow].
    + replace (b * (q * q ^ k)) with ((b * q ^ k) * q) by ring. eapply Rle_trans; [exact U1|]. apply Rmult_le_compat_r; [unfold q; lra|done].
    + replace (rnd a * (q * q ^ k)) with ((rnd a * q) * q ^ k) by ring. eapply Rle_trans; [exact D|]. apply Rmult_le_compat_r; [lra|done].
Qed.
Lemma near_upper k a b : near k a b → q ^ k <= 2 → 0 <= a <= 2 * b.
Proof. intros (A & B & C & D) Q. nra. Qed.
(** The difference of two values. *)
Lemma near_diff k a b c d : near k a b → near k c d → Rabs ((a - c) - (b - d)) <= (q ^ k - 1) * (b + d).
Proof.
  intros (A & B & C & D) (A' & B' & C' & D'). pose proof (q_pow k) as Q.
  assert (E : ∀ a b, 0 <= a → 0 <= b → a <= b * q ^ k → b <= a * q ^ k → Rabs (a - b) <= (q ^ k - 1) * b).
  { intros x y X Y H1 H2. apply Rabs_le. assert (y * (2 - q ^ k) <= x); [|lra].
    destruct (Rle_lt_dec (q ^ k) 2); [|nra]. apply (Rmult_le_reg_r (q ^ k)); [lra|].
    assert (Y2 : (2 - q ^ k) * q ^ k <= 1) by nra. rewrite Rmult_assoc. apply (Rmult_le_compat_l y) in Y2; lra. }
  pose proof (E a b A B C D) as E1. pose proof (E c d A' B' C' D') as E2. apply Rabs_le_inv in E1, E2. apply Rabs_le. lra.
Qed.
Lemma q_small k : (k <= 1000)%nat → q ^ k - 1 <= INR k / 15900000.
Proof.
  intros H. assert (P : ∀ j, (j <= 1000)%nat → q ^ j <= 1 + INR j / 15900000); [|specialize (P k H); lra].
  clear k H. induction j as [|j IH]; intros H; [simpl; lra|]. rewrite S_INR. cbn [pow]. specialize (IH ltac:(lia)).
  assert (0 <= INR j <= 1000) by (split; [apply pos_INR|rewrite INR_IZR_INZ; apply IZR_le; lia]).
  unfold q in *. nra.
Qed.
Lemma q_two k : (k <= 1000)%nat → q ^ k <= 2.
Proof.
  intros H. pose proof (q_small k H). assert (INR k <= 1000) by (rewrite INR_IZR_INZ; apply IZR_le; lia). lra.
Qed.
(** The error of any rounding. *)
Lemma rounding r : Rabs (rnd r - r) <= Rabs r / 16777216 + / 10000000000000000000000000000000000000000.
Proof.
  destruct (error_N_FLT radix2 (-149) 24 ltac:(lia) (λ x, negb (Z.even x)) r) as (e & d & He & Hd & _ & E).
  change (round radix2 (FLT_exp (-149) 24) (Znearest (λ x, negb (Z.even x))) r) with (rnd r) in E. rewrite E.
  replace (r * (1 + e) + d - r) with (r * e + d) by ring. eapply Rle_trans; [apply Rabs_triang|]. rewrite Rabs_mult.
  simpl in He, Hd. apply Rplus_le_compat.
  - unfold Rdiv. apply Rmult_le_compat_l; [apply Rabs_pos|]. lra.
  - lra.
Qed.

(** ** Sums *)
Lemma repr_large : repr (bpow radix2 111).
Proof.
  destruct (float_exists 128 104) as (h & Hf & Hv); [lia|lia|]. exists h. split; [easy|]. rewrite Hv.
  change 111%Z with (7 + 104)%Z. rewrite (bpow_plus radix2 7 104). f_equal.
Qed.
Definition term (k : nat) (p : f32 * R) : Prop := fin p.1 ∧ near k (val p.1) p.2 ∧ sizable p.2.
Lemma sizable_add a b : 0 <= a → 0 <= b → sizable a → sizable b → sizable (a + b).
Proof. intros A B [->|H1] [->|H2]; [left; lra|right; lra..]. Qed.
Lemma total_pos l : Forall (λ x, 0 <= x) l → 0 <= total l.
Proof. induction 1 as [|x l H _ IH]; [rewrite total_nil; lra|]. rewrite total_cons. lra. Qed.
Lemma sum_near k l : ∀ m acc A, Forall (term k) l → fin acc → near (k + m) (val acc) A → sizable A →
  A + total l.*2 <= bpow radix2 110 → (k + m + length l <= 1000)%nat →
  fin (fold_left fadd l.*1 acc) ∧ near (k + m + length l) (val (fold_left fadd l.*1 acc)) (A + total l.*2) ∧ sizable (A + total l.*2).
Proof.
  induction l as [|[f x] l IH]; intros m acc A Hl Fa Na Sa Hb Hk.
  - change (total ([] : list (f32 * R)).*2) with 0. rewrite Rplus_0_r, Nat.add_0_r. done.
  - apply Forall_cons in Hl as ((Ff & Nf & Sf) & Hl). cbn [fst snd] in Ff, Nf, Sf.
    change (((f, x) :: l).*1) with (f :: l.*1). change (((f, x) :: l).*2) with (x :: l.*2) in *. rewrite total_cons in *. cbn [fold_left length] in *.
    assert (HQ : q ^ (k + m) <= 2) by (apply q_two; clear -Hk; lia).
    assert (Hp : 0 <= total l.*2).
    { apply total_pos, Forall_fmap. eapply Forall_impl; [exact Hl|]. intros p (_ & (_ & ? & _) & _). done. }
    pose proof (near_add _ _ _ _ _ Na (near_more k (k + m) _ _ ltac:(lia) Nf)) as N.
    pose proof (near_upper _ _ _ N HQ) as U.
    assert (SZ : sizable (A + x)) by (apply sizable_add; [apply Na|apply Nf|done|done]).
    destruct (fadd_btw acc f 0 (bpow radix2 111) Fa Ff) as [[F _] E]; [rp|exact repr_large|change 111%Z with (110 + 1)%Z; rewrite (bpow_plus radix2 110 1); change (bpow radix2 1) with 2; lra|].
    pose proof (near_rnd _ _ _ N HQ SZ) as N'. rewrite <-E in N'.
    destruct (IH (S m) (fadd acc f) (A + x) Hl F) as (R1 & R2 & R3).
    + by rewrite Nat.add_succ_r.
    + done.
    + lra.
    + lia.
    + split; [done|]. rewrite <-Rplus_assoc. split; [|done]. eapply near_more; [|exact R2]. lia.
Qed.

(** ** Real numbers *)
Lemma tot_cons {A} (f : A → R) x l : total (f <$> x :: l) = f x + total (f <$> l). Proof. reflexivity. Qed.
Lemma tot_nil {A} (f : A → R) : total (f <$> []) = 0. Proof. reflexivity. Qed.
Lemma len_cons {A} (x : A) l : INR (length (x :: l)) = INR (length l) + 1. Proof. by rewrite <-S_INR. Qed.
Lemma squares x l : 0 <= INR (length l) * x ^ 2 - 2 * x * total l + total ((λ t, t ^ 2) <$> l).
Proof.
  induction l as [|t l IH]; [rewrite tot_nil, total_nil; simpl; lra|]. rewrite len_cons, tot_cons, total_cons; cbv beta.
  revert IH. generalize (total ((λ t, t ^ 2) <$> l)). intros b IH. pose proof (pow2_ge_0 (x - t)). lra.
Qed.
Lemma cauchy l : total l ^ 2 <= INR (length l) * total ((λ t, t ^ 2) <$> l).
Proof.
  induction l as [|t l IH]; [rewrite tot_nil, total_nil; simpl; lra|]. pose proof (squares t l).
  rewrite len_cons, tot_cons, total_cons; cbv beta.
  revert IH H. generalize (total ((λ t, t ^ 2) <$> l)). intros b IH H. lra.
Qed.
Lemma spread T mid : Forall (λ t, 0 <= t <= T) mid → let l := T :: mid ++ [0] in
  INR (length l) * T ^ 2 / 2 <= INR (length l) * total ((λ t, t ^ 2) <$> l) - total l ^ 2.
Proof.
  intros H l. pose proof (cauchy mid) as C. subst l. rewrite len_cons, tot_cons, fmap_app, total_cons, !total_app, app_length, plus_INR.
  change (length [0]) with 1%nat. rewrite tot_cons, tot_nil, total_cons, total_nil. change (INR 1) with 1. cbv beta.
  set (k := INR (length mid)) in *. set (a := total mid) in *. set (b := total ((λ t, t ^ 2) <$> mid)) in *.
  assert (G : - k * T ^ 2 / 2 <= 2 * b - 2 * T * a).
  { subst k a b. clear C. induction H as [|t mid Ht _ IH]; [rewrite tot_nil, total_nil; simpl; lra|].
    rewrite len_cons, tot_cons, total_cons; cbv beta. revert IH. generalize (total ((λ t, t ^ 2) <$> mid)). intros b IH.
    pose proof (pow2_ge_0 (t - T / 2)). lra. }
  clearbody a b k. lra.
Qed.
Lemma total_scale {A} (f : A → R) c l : total ((λ x, c * f x) <$> l) = c * total (f <$> l).
Proof. induction l as [|x l IH]; [rewrite !tot_nil; lra|]. rewrite !tot_cons, IH; cbv beta. lra. Qed.
Lemma total_le {A} (f g : A → R) l : Forall (λ x, f x <= g x) l → total (f <$> l) <= total (g <$> l).
Proof. induction 1 as [|x l H _ IH]; [rewrite !tot_nil; lra|]. rewrite !tot_cons; cbv beta. lra. Qed.
Lemma total_const {A} c (l : list A) : total ((λ _, c) <$> l) = INR (length l) * c.
Proof. induction l as [|x l IH]; [rewrite tot_nil; simpl; lra|]. rewrite tot_cons, len_cons, IH. lra. Qed.
Lemma centered (l : list (R * R)) a b : total ((λ p, (p.1 - a) * (p.2 - b)) <$> l) =
  total ((λ p, p.1 * p.2) <$> l) - b * total l.*1 - a * total l.*2 + INR (length l) * a * b.
Proof.
  induction l as [|p l IH]; [rewrite !tot_nil; simpl; lra|]. rewrite !tot_cons, len_cons, IH; cbv beta. lra.
Qed.
Lemma centered_square (l : list (R * R)) a : total ((λ p, (p.1 - a) ^ 2) <$> l) =
  total ((λ p, p.1 ^ 2) <$> l) - 2 * a * total l.*1 + INR (length l) * a ^ 2.
Proof.
  induction l as [|p l IH]; [rewrite !tot_nil; simpl; lra|]. rewrite !tot_cons, len_cons, IH; cbv beta. lra.
Qed.
Lemma slope_sums l : (0 < length l)%nat → 0 < INR (length l) * total ((λ p, p.1 ^ 2) <$> l) - total l.*1 ^ 2 →
  least_squares l = (INR (length l) * total ((λ p, p.1 * p.2) <$> l) - total l.*1 * total l.*2) /
    (INR (length l) * total ((λ p, p.1 ^ 2) <$> l) - total l.*1 ^ 2).
Proof.
  intros Hn H. unfold least_squares, average_of. rewrite centered, centered_square, !fmap_length.
  apply lt_0_INR in Hn. set (n := INR (length l)) in *. set (sx := total l.*1) in *. set (sy := total l.*2) in *.
  set (sxy := total ((λ p, p.1 * p.2) <$> l)) in *. set (sxx := total ((λ p, p.1 ^ 2) <$> l)) in *.
  replace (sxy - sy / n * sx - sx / n * sy + n * (sx / n) * (sy / n)) with ((n * sxy - sx * sy) / n) by (field; lra).
  replace (sxx - 2 * (sx / n) * sx + n * (sx / n) ^ 2) with ((n * sxx - sx ^ 2) / n) by (field; lra).
  field. split; lra.
Qed.
(** Moving all points sideways does not change the slope. *)
Lemma slope_shift l c : l ≠ [] → least_squares ((λ p, (p.1 + c, p.2)) <$> l) = least_squares l.
Proof.
  intros Hl. unfold least_squares. set (l' := (λ p, (p.1 + c, p.2)) <$> l).
  assert (E1 : average_of l'.*1 = average_of l.*1 + c).
  { unfold average_of. subst l'. rewrite !fmap_length.
    assert (total ((λ p : R * R, (p.1 + c, p.2)) <$> l).*1 = total l.*1 + INR (length l) * c) as ->.
    { clear. induction l as [|p l IH]; [rewrite !tot_nil; simpl; lra|]. rewrite fmap_cons, !tot_cons, len_cons, IH. simpl. lra. }
    field. apply not_0_INR. by destruct l. }
  assert (E2 : l'.*2 = l.*2).
  { subst l'. rewrite <-list_fmap_compose. done. }
  assert (EXT : ∀ f g : R * R → R, (∀ p, f (p.1 + c, p.2) = g p) → total (f <$> l') = total (g <$> l)).
  { intros f g H. subst l'. rewrite <-list_fmap_compose. f_equal. apply list_fmap_ext. intros _ p _. apply H. }
  rewrite E1, E2. rewrite (EXT _ (λ p, (p.1 - average_of l.*1) * (p.2 - average_of l.*2))) by (intros p; simpl; ring).
  rewrite (EXT _ (λ p, (p.1 - average_of l.*1) ^ 2)) by (intros p; cbn [fst]; ring). done.
Qed.

(** ** The quotient *)
Lemma quotient_error nn dd s D T N : 2 <= N <= 100 → 60 / 86400 <= T <= bpow radix2 47 → N * T ^ 2 / 2 <= D →
  Rabs (nn - s * D) <= 565 / 100000000 * N ^ 3 * T → Rabs (dd - D) <= 22 / 10000000 * N ^ 2 * D →
  Rabs (rnd (nn / dd) - s) <= (Rabs s + / T) * N ^ 2 / 50000.
Proof.
  intros HN HT HD E1 E2. rewrite (bp 47 140737488355328) in HT by (vm_compute; easy || lia).
  assert (T0 : 0 < T) by lra. assert (D0 : 0 < D) by nra. set (g := / T) in *. assert (G : T * g = 1) by (apply Rinv_r; lra).
  assert (G0 : 0 < g) by (by apply Rinv_0_lt_compat).
  set (w := (nn - s * D) / D). set (e := (dd - D) / D).
  assert (Hw : Rabs w <= 113 / 10000000 * N ^ 2 * g).
  { unfold w, Rdiv. rewrite Rabs_mult, Rabs_inv, (Rabs_pos_eq D) by lra. apply (Rmult_le_reg_r D); [done|].
    rewrite Rmult_assoc, Rinv_l, Rmult_1_r by lra. eapply Rle_trans; [exact E1|].
    assert (113 / 10000000 * N ^ 2 * g * (N * T ^ 2 / 2) <= 113 / 10000000 * N ^ 2 * g * D).
    { apply Rmult_le_compat_l; [|done]. assert (0 <= N ^ 2) by apply pow2_ge_0. nra. }
    replace (113 / 10000000 * N ^ 2 * g * (N * T ^ 2 / 2)) with (565 / 100000000 * N ^ 3 * T * (T * g)) in H by field.
    rewrite G, Rmult_1_r in H. done. }
  assert (He : Rabs e <= 22 / 10000000 * N ^ 2).
  { unfold e, Rdiv. rewrite Rabs_mult, Rabs_inv, (Rabs_pos_eq D) by lra. apply (Rmult_le_reg_r D); [done|].
    rewrite Rmult_assoc, Rinv_l, Rmult_1_r by lra. exact E2. }
  assert (N2 : 4 <= N ^ 2 <= 10000) by nra.
  assert (Ee : Rabs e <= 22 / 1000) by lra. apply Rabs_le_inv in Ee as Ee'.
  assert (Eq : nn / dd = (s + w) / (1 + e)).
  { unfold w, e. field. split; [lra|]. replace (D + (dd - D)) with dd by ring. intros Hd. unfold e in Ee'. rewrite Hd in Ee'.
    replace ((0 - D) / D) with (-1) in Ee' by (field; lra). lra. }
  set (r := nn / dd) in *.
  assert (Er : Rabs (r - s) <= (Rabs w + Rabs s * Rabs e) * (1 / (978 / 1000))).
  { rewrite Eq. replace ((s + w) / (1 + e) - s) with ((w - s * e) * / (1 + e)) by (field; lra).
    rewrite Rabs_mult. apply Rmult_le_compat; try apply Rabs_pos.
    - unfold Rminus. eapply Rle_trans; [apply Rabs_triang|]. rewrite Rabs_Ropp, Rabs_mult. lra.
    - rewrite Rabs_inv, Rabs_pos_eq by lra. unfold Rdiv. rewrite Rmult_1_l. apply Rinv_le_contravar; lra. }
  assert (Hs : Rabs s * Rabs e <= 22 / 10000000 * (Rabs s * N ^ 2)).
  { pose proof (Rabs_pos s). nra. }
  assert (P1 : 0 <= Rabs s * N ^ 2) by (apply Rmult_le_pos; [apply Rabs_pos|lra]).
  assert (P2 : 4 * g <= N ^ 2 * g) by nra.
  assert (P3 : 4 * Rabs s <= Rabs s * N ^ 2) by (pose proof (Rabs_pos s); nra).
  assert (Er2 : Rabs (r - s) <= 116 / 10000000 * (N ^ 2 * g) + 23 / 10000000 * (Rabs s * N ^ 2)) by lra.
  pose proof (rounding r) as Hr.
  assert (Rr : Rabs r <= Rabs s + Rabs (r - s)).
  { replace r with (s + (r - s)) at 1 by ring. apply Rabs_triang. }
  assert (Gl : / 140737488355328 <= g) by (apply Rinv_le_contravar; lra).
  replace (rnd r - s) with ((rnd r - r) + (r - s)) by ring. eapply Rle_trans; [apply Rabs_triang|].
  replace ((Rabs s + g) * N ^ 2 / 50000) with (Rabs s * N ^ 2 / 50000 + N ^ 2 * g / 50000) by field.
  generalize dependent (Rabs s * N ^ 2). generalize dependent (N ^ 2 * g). intros. lra.
Qed.

(** ** The sums of the program *)
Definition day_of (oldest : Z) (e : trial) : f32 := fdiv (f_of_Z (saturating_sub (e_ts e) oldest)) f_86400.
Definition exact_day (oldest : Z) (e : trial) : R := IZR (e_ts e - oldest) / 86400.
Lemma velocity_sums oldest l : ∀ a b c d, fold_left (velocity_step oldest) l (a, b, c, d) =
  (fold_left fadd (day_of oldest <$> l) a, fold_left fadd (e_val <$> l) b,
   fold_left fadd ((λ e, fmul (day_of oldest e) (e_val e)) <$> l) c, fold_left fadd ((λ e, fmul (day_of oldest e) (day_of oldest e)) <$> l) d).
Proof. induction l as [|e l IH]; intros a b c d; [done|]. cbn [fold_left fmap list_fmap]. unfold velocity_step at 2. apply IH. Qed.

Section terms.
  Context (oldest : Z) (e : trial) (Ho : (Z.abs oldest <= 4611686018427387903)%Z) (He : (Z.abs (e_ts e) <= 4611686018427387903)%Z)
    (Hoe : (oldest <= e_ts e)%Z) (Hg : graded e).
  Lemma day_exact : exact_day oldest e = 0 ∨ / 86400 <= exact_day oldest e.
  Proof using Hoe.
    unfold exact_day. destruct (Z.eq_dec (e_ts e - oldest) 0) as [->|H]; [left; lra|right].
    assert (1 <= IZR (e_ts e - oldest)) by (apply IZR_le; lia). lra.
  Qed.
  Lemma day_small : 0 <= exact_day oldest e <= bpow radix2 47.
  Proof using Ho He Hoe.
    rewrite (bp 47 140737488355328) by (vm_compute; easy || lia). unfold exact_day.
    assert (0 <= IZR (e_ts e - oldest) <= 9223372036854775808) by (split; apply IZR_le; lia). lra.
  Qed.
  Lemma day_term : term 5 (day_of oldest e, exact_day oldest e).
  Proof using Ho He Hoe.
    destruct (no_overflow (e_ts e) oldest He Ho) as [E Hz]. unfold term, day_of, exact_day. cbn [fst snd]. rewrite E.
    destruct (seconds_close (e_ts e - oldest) Hz ltac:(lia)) as (F & B & C & _). split; [done|]. apply Rabs_le_inv in C.
    fold (exact_day oldest e) in C |- *. pose proof day_small as S. split.
    - assert (Q : 1 + 5 / 16000000 <= q ^ 5) by (unfold q; simpl; lra).
      split; [lra|]. split; [lra|]. set (v := val _) in *. set (x := exact_day oldest e) in *. clearbody v x.
      split.
      + apply Rle_trans with (x * (1 + 5 / 16000000)); [lra|]. apply Rmult_le_compat_l; lra.
      + apply Rle_trans with (v * (1 + 5 / 16000000)); [lra|]. apply Rmult_le_compat_l; lra.
    - destruct day_exact as [H|H]; [by left|right; lra].
  Qed.
  Lemma grade_val : fin (e_val e) ∧ 1 <= val (e_val e) <= 5.
  Proof using Hg. apply (between_btw f_1 (e_val e) f_5) in Hg as [F B]; [|done|done]. rewrite v_1, v_5 in B. done. Qed.
  Lemma grade_term : term 0 (e_val e, val (e_val e)).
  Proof using Hg. destruct grade_val as [F B]. split; [done|]. split; [apply near_self; simpl; lra|right; simpl; lra]. Qed.
  Lemma product_term : term 6 (fmul (day_of oldest e) (e_val e), exact_day oldest e * val (e_val e)).
  Proof using Ho He Hoe Hg.
    destruct day_term as (F1 & N1 & S1), grade_term as (F2 & N2 & S2). cbn [fst snd] in *. pose proof day_small as S. destruct grade_val as [_ B].
    assert (SZ : sizable (exact_day oldest e * val (e_val e))) by (destruct day_exact as [->|H]; [left; ring|right; nra]).
    pose proof (near_mul _ _ _ _ _ _ N1 N2) as N. change (5 + 0)%nat with 5%nat in N.
    pose proof (near_upper _ _ _ N (q_two 5 ltac:(lia))) as U. rewrite (bp 47 140737488355328) in S by (vm_compute; easy || lia).
    destruct (fmul_btw (day_of oldest e) (e_val e) 0 (bpow radix2 104) F1 F2) as [[F _] E]; [rp|rp| |].
    { rewrite (bp 104 20282409603651670423947251286016) by (vm_compute; easy || lia). nra. }
    split; [exact F|]. cbn [fst snd]. split; [|done]. rewrite E. apply (near_rnd 5); [done|apply q_two; lia|done].
  Qed.
  Lemma square_term : term 11 (fmul (day_of oldest e) (day_of oldest e), exact_day oldest e ^ 2).
  Proof using Ho He Hoe.
    destruct day_term as (F1 & N1 & S1). cbn [fst snd] in *. pose proof day_small as S.
    assert (SZ : sizable (exact_day oldest e ^ 2)) by (destruct day_exact as [->|H]; [left; ring|right; nra]).
    replace (exact_day oldest e ^ 2) with (exact_day oldest e * exact_day oldest e) in * by ring.
    pose proof (near_mul _ _ _ _ _ _ N1 N1) as N. change (5 + 5)%nat with 10%nat in N.
    pose proof (near_upper _ _ _ N (q_two 10 ltac:(lia))) as U. rewrite (bp 47 140737488355328) in S by (vm_compute; easy || lia).
    destruct (fmul_btw (day_of oldest e) (day_of oldest e) 0 (bpow radix2 104) F1 F1) as [[F _] E]; [rp|rp| |].
    { rewrite (bp 104 20282409603651670423947251286016) by (vm_compute; easy || lia). nra. }
    split; [exact F|]. cbn [fst snd]. split; [|done]. rewrite E. apply (near_rnd 10); [done|apply q_two; lia|done].
  Qed.
End terms.

Lemma sum_of {A} (f : A → f32) (x : A → R) k b (l : list A) : Forall (λ e, term k (f e, x e)) l → Forall (λ e, x e <= b) l →
  (length l <= 100)%nat → (k <= 100)%nat → 0 <= b → 128 * b <= bpow radix2 110 →
  fin (fold_left fadd (f <$> l) fzero) ∧ near (k + length l) (val (fold_left fadd (f <$> l) fzero)) (total (x <$> l)) ∧
  sizable (total (x <$> l)) ∧ total (x <$> l) <= INR (length l) * b.
Proof.
  intros Ht Hx Hl Hk B0 Hb. pose proof (total_le x (λ _, b) l Hx) as U. rewrite total_const in U.
  assert (L : INR (length l) <= 100) by (rewrite INR_IZR_INZ; apply IZR_le; lia). pose proof (pos_INR (length l)).
  destruct (sum_near k ((λ e, (f e, x e)) <$> l) 0 fzero 0) as (F & N & S).
  - by apply Forall_fmap.
  - done.
  - apply near_self. lra.
  - by left.
  - rewrite <-list_fmap_compose. change (snd ∘ (λ e, (f e, x e))) with x. nra.
  - rewrite fmap_length. lia.
  - rewrite fmap_length in N. rewrite <-!list_fmap_compose in N, F. rewrite <-list_fmap_compose in N, S.
    change (snd ∘ (λ e, (f e, x e))) with x in N, S. change (fst ∘ (λ e, (f e, x e))) with f in N, F.
    rewrite Rplus_0_l in N, S. rewrite Nat.add_0_r in N. done.
Qed.
(** A product of two sums. *)
Lemma product_of f g x y j k : fin f → fin g → near j (val f) x → near k (val g) y → (j + k <= 1000)%nat → sizable (x * y) →
  x * y <= bpow radix2 110 → fin (fmul f g) ∧ near (S (j + k)) (val (fmul f g)) (x * y).
Proof.
  intros F G N1 N2 Hk Hs Hb. pose proof (near_mul _ _ _ _ _ _ N1 N2) as N. pose proof (near_upper _ _ _ N (q_two _ Hk)) as U.
  destruct (fmul_btw f g 0 (bpow radix2 111) F G) as [[Ff _] E]; [rp|exact repr_large| |].
  { change 111%Z with (110 + 1)%Z. rewrite (bpow_plus radix2 110 1). change (bpow radix2 1) with 2. lra. }
  split; [done|]. rewrite E. apply near_rnd; [done|by apply q_two|done].
Qed.

Lemma exact_slope_days oldest l : l ≠ [] →
  least_squares (grade_points l) = least_squares ((λ e, (exact_day oldest e, val (e_val e))) <$> l).
Proof.
  intros Hl. rewrite <-(slope_shift ((λ e, (exact_day oldest e, val (e_val e))) <$> l) (IZR oldest / 86400)) by by destruct l.
  f_equal. unfold grade_points. rewrite <-list_fmap_compose. apply list_fmap_ext. intros _ e _. unfold compose, exact_day. cbn [fst snd].
  f_equal. rewrite minus_IZR. field.
Qed.
Lemma velocity_eq l z : (2 <= length l)%nat → (∀ d, List.last l d = z) → let o := e_ts z in
  let st := fold_left fadd (day_of o <$> l) fzero in let ss := fold_left fadd (e_val <$> l) fzero in
  let sts := fold_left fadd ((λ e, fmul (day_of o e) (e_val e)) <$> l) fzero in
  let stt := fold_left fadd ((λ e, fmul (day_of o e) (day_of o e)) <$> l) fzero in
  velocity l = if flt (fabs (fsub (fmul (f_of_nat (length l)) stt) (fmul st st))) f_epsilon then Some fzero
    else Some (fdiv (fsub (fmul (f_of_nat (length l)) sts) (fmul st ss)) (fsub (fmul (f_of_nat (length l)) stt) (fmul st st))).
Proof.
  intros Hl HL. cbv zeta. destruct l as [|a [|b l]]; [simpl in Hl; lia|simpl in Hl; lia|].
  unfold velocity. cbv zeta. rewrite HL, velocity_sums. reflexivity.
Qed.
Lemma sums_to_slope n N T st ss sts stt Sx Sy Sxy Sxx s :
  (2 <= n <= 100)%nat → N = INR n → 2 <= N <= 100 → 60 / 86400 <= T → T <= bpow radix2 47 →
  fin st → fin ss → fin sts → fin stt → fin (f_of_nat n) → near 0 (val (f_of_nat n)) N →
  near (5 + n) (val st) Sx → near (0 + n) (val ss) Sy → near (6 + n) (val sts) Sxy → near (11 + n) (val stt) Sxx →
  sizable Sxy → Sx <= N * T → Sy <= N * 5 → Sxx <= N * T ^ 2 → T <= Sx → N <= Sy → 0 <= Sxy <= 5 * Sx → 0 <= Sxx →
  N * T ^ 2 / 2 <= N * Sxx - Sx ^ 2 →
  ((0 < n)%nat → 0 < N * Sxx - Sx ^ 2 → s = (N * Sxy - Sx * Sy) / (N * Sxx - Sx ^ 2)) →
  ∃ v, (if flt (fabs (fsub (fmul (f_of_nat n) stt) (fmul st st))) f_epsilon then Some fzero
    else Some (fdiv (fsub (fmul (f_of_nat n) sts) (fmul st ss)) (fsub (fmul (f_of_nat n) stt) (fmul st st)))) = Some v ∧ fin v ∧
    Rabs (val v - s) <= (Rabs s + / T) * N ^ 2 / 50000.
Proof.
  intros Hn EN HN HT HT' F1 F2 F3 F4 Fn Nn N1 N2 N3 N4 SZ U1 U2 U4 L1 L2 L3 L4 LD SL.
  assert (B47 : bpow radix2 47 = 140737488355328) by (rewrite (bp 47 140737488355328); [done|vm_compute; easy|lia]). rewrite B47 in HT'.
  assert (B110 : bpow radix2 110 = 1298074214633706907132624082305024) by (rewrite (bp 110 1298074214633706907132624082305024); [done|vm_compute; easy|lia]).
  assert (T2 : 48 / 100000000 <= T ^ 2 <= 140737488355328 * 140737488355328) by (simpl; nra).
  assert (NT : T <= N * T <= 100 * 140737488355328) by nra.
  assert (Q1 : N * Sxx <= N * (N * T ^ 2)) by (apply Rmult_le_compat_l; lra).
  assert (Q2 : Sx ^ 2 <= (N * T) ^ 2) by (apply pow_incr; lra).
  assert (NN : 4 <= N * N <= 10000) by nra.
  assert (Q1' : N * Sxx <= N * N * T ^ 2) by lra. assert (Q2' : Sx ^ 2 <= N * N * T ^ 2) by (replace (N * N * T ^ 2) with ((N * T) ^ 2) by ring; done).
  assert (Q0 : N * N * T ^ 2 <= 10000 * (140737488355328 * 140737488355328)) by (apply Rmult_le_compat; lra).
  assert (Q3 : Sx * Sy <= Sx * (N * 5)) by (apply Rmult_le_compat_l; lra).
  assert (Q3' : Sx * (N * 5) <= 100 * 140737488355328 * 500) by (apply Rmult_le_compat; lra).
  assert (Q4 : 0 <= N * Sxy <= N * (5 * Sx)) by (split; [apply Rmult_le_pos; lra|apply Rmult_le_compat_l; lra]).
  assert (D0 : 48 / 100000000 <= N * Sxx - Sx ^ 2) by (eapply Rle_trans; [|exact LD]; clear - HN T2; nra).
  assert (E1 : T ^ 2 <= Sx * Sx) by (clear - L1 HT; simpl; nra). assert (E2 : T * 2 <= Sx * Sy) by (apply Rmult_le_compat; lra).
  destruct (product_of (f_of_nat n) stt N Sxx 0 (11 + n) Fn F4 Nn N4) as [G1 M1]; [lia|right; pose proof (pow2_ge_0 Sx); lra|lra|].
  destruct (product_of st st Sx Sx (5 + n) (5 + n) F1 F1 N1 N1) as [G2 M2]; [lia|right; lra|replace (Sx * Sx) with (Sx ^ 2) by ring; lra|].
  replace (Sx * Sx) with (Sx ^ 2) in M2 by ring.
  destruct (product_of (f_of_nat n) sts N Sxy 0 (6 + n) Fn F3 Nn N3) as [G3 M3]; [lia|destruct SZ as [-> |?]; [left; ring|right; clear - HN H; nra]|lra|].
  destruct (product_of st ss Sx Sy (5 + n) (0 + n) F1 F2 N1 N2) as [G4 M4]; [lia|right; lra|lra|].
  apply (near_more _ (12 + 2 * n)) in M1, M2, M3, M4; try lia.
  pose proof (q_small (12 + 2 * n) ltac:(lia)) as K.
  assert (K' : INR (12 + 2 * n) <= 8 * N).
  { rewrite EN, plus_INR, mult_INR. change (INR 2) with 2. replace (INR 12) with 12 by (rewrite INR_IZR_INZ; done). rewrite <-EN. lra. }
  pose proof (near_diff _ _ _ _ _ M1 M2) as ED. pose proof (near_diff _ _ _ _ _ M3 M4) as EM.
  pose proof (q_pow (12 + 2 * n)) as K1. set (k := q ^ (12 + 2 * n) - 1) in *. assert (K2 : 0 <= k) by (subst k; lra). clearbody k. generalize dependent (INR (12 + 2 * n)). intros I K K'. assert (Hk : 0 <= k <= N * 504 / 1000000000) by lra.
  clear K K' K1.
  assert (Mb : N * Sxy + Sx * Sy <= 10 * (N * (N * T))).
  { assert (Sx * N <= N * T * N) by (apply Rmult_le_compat_r; lra). lra. }
  set (D := N * Sxx - Sx ^ 2) in *. set (M := N * Sxy - Sx * Sy) in *.
  assert (Mb' : Rabs M <= 10 * (N * (N * T))).
  { apply Rabs_le. assert (0 <= Sx * Sy) by lra. subst M. lra. }
  set (x1 := fmul (f_of_nat n) stt) in *. set (x2 := fmul st st) in *. set (x3 := fmul (f_of_nat n) sts) in *. set (x4 := fmul st ss) in *.
  assert (D' : D <= 10000 * (140737488355328 * 140737488355328)) by (subst D; pose proof (pow2_ge_0 Sx); lra).
  assert (A1 : N * Sxx + Sx ^ 2 <= 2 * (N * N * T ^ 2)) by lra. specialize (SL ltac:(lia) ltac:(lra)).
  clearbody D M x1 x2 x3 x4.
  assert (A2 : 2 * (N * N * T ^ 2) <= 4 * (N * D)).
  { assert (A : N * (N * T ^ 2 / 2) <= N * D) by (apply Rmult_le_compat_l; lra). lra. }
  assert (A3 : 0 <= N * D) by (apply Rmult_le_pos; lra). assert (A4 : 0 <= N * (N * D)) by (apply Rmult_le_pos; lra).
  assert (A5 : 0 <= N * (N * T)) by (apply Rmult_le_pos; lra). assert (A6 : 0 <= N * (N * (N * T))) by (apply Rmult_le_pos; lra).
  assert (A7 : 4 * D <= N * (N * D)) by (replace (N * (N * D)) with (N * N * D) by ring; apply Rmult_le_compat_r; lra).
  assert (A8 : 4 * T <= N * (N * T)) by (replace (N * (N * T)) with (N * N * T) by ring; apply Rmult_le_compat_r; lra).
  assert (A9 : 2 * (N * (N * T)) <= N * (N * (N * T))) by (apply Rmult_le_compat_r; lra).
  (* the denominator *)
  assert (ED' : Rabs (val x1 - val x2 - D) <= 2016 / 1000000000 * (N * (N * D))).
  { eapply Rle_trans; [exact ED|]. apply Rle_trans with (k * (4 * (N * D))); [apply Rmult_le_compat_l; lra|].
    apply Rle_trans with (N * 504 / 1000000000 * (4 * (N * D))); [apply Rmult_le_compat_r; lra|]. lra. }
  assert (C0 : N * (N * D) <= 10000 * D) by (replace (N * (N * D)) with (N * N * D) by ring; apply Rmult_le_compat_r; lra).
  assert (ED2 : Rabs (val x1 - val x2) <= 2 * D) by (apply Rabs_le; apply Rabs_le_inv in ED'; lra).
  assert (R111 : bpow radix2 111 = 2596148429267413814265248164610048) by (rewrite (bp 111 2596148429267413814265248164610048); [done|vm_compute; easy|lia]).
  pose proof repr_large as RL. assert (RL' : repr (- bpow radix2 111)).
  { destruct RL as (h & Hh & Vh). exists (fneg h). split; [by apply fneg_fin|]. by rewrite fneg_val, Vh. }
  rewrite R111 in RL, RL'.
  destruct (fsub_btw x1 x2 _ _ G1 G2 RL' RL) as [[Fd _] Vd]; [apply Rabs_le_inv in ED2; lra|].
  pose proof (rounding (val x1 - val x2)) as RD. rewrite <-Vd in RD. set (dd := fsub x1 x2) in *. clearbody dd.
  assert (ED3 : Rabs (val dd - D) <= 22 / 10000000 * (N * (N * D))).
  { apply Rabs_le. apply Rabs_le_inv in ED', RD. lra. }
  assert (Pd : 4 / 10000000 <= val dd) by (apply Rabs_le_inv in ED3; lra).
  assert (FE : flt (fabs dd) f_epsilon = false).
  { apply flt_false; [unfold fin; by rewrite fabs_fin|vm_compute; easy|]. rewrite fabs_val, val_epsilon, Rabs_right by lra. unfold OptionsSpec.tolerance. lra. }
  rewrite FE. eexists. split; [done|].
  (* the numerator *)
  assert (EM' : Rabs (val x3 - val x4 - M) <= 504 / 100000000 * (N * (N * (N * T)))).
  { eapply Rle_trans; [exact EM|]. apply Rle_trans with (k * (10 * (N * (N * T)))); [apply Rmult_le_compat_l; lra|].
    apply Rle_trans with (N * 504 / 1000000000 * (10 * (N * (N * T)))); [apply Rmult_le_compat_r; lra|]. lra. }
  assert (C1 : N * (N * (N * T)) <= 100 * (N * (N * T))) by (apply Rmult_le_compat_r; lra).
  assert (C2 : N * (N * T) <= 10000 * T) by (replace (N * (N * T)) with (N * N * T) by ring; apply Rmult_le_compat_r; lra).
  assert (EM2 : Rabs (val x3 - val x4) <= 11 * (N * (N * T))) by (apply Rabs_le; apply Rabs_le_inv in EM', Mb'; lra).
  destruct (fsub_btw x3 x4 _ _ G3 G4 RL' RL) as [[Fm _] Vm]; [apply Rabs_le_inv in EM2; lra|].
  pose proof (rounding (val x3 - val x4)) as RM. rewrite <-Vm in RM. set (nn := fsub x3 x4) in *. clearbody nn.
  assert (EM3 : Rabs (val nn - M) <= 565 / 100000000 * (N * (N * (N * T)))).
  { apply Rabs_le. apply Rabs_le_inv in EM', RM. lra. }
  assert (SD : M = s * D) by (rewrite SL; field; lra).
  assert (EM4 : Rabs (val nn) <= 12 * 10000 * 140737488355328) by (apply Rabs_le; apply Rabs_le_inv in EM3, Mb'; lra).
  assert (Q : Rabs (val nn / val dd) <= 12 * 10000 * 140737488355328 * (10000000 / 4)).
  { unfold Rdiv at 1. rewrite Rabs_mult. rewrite (Rabs_right (/ val dd)) by (apply Rle_ge, Rlt_le, Rinv_0_lt_compat; lra).
    apply Rmult_le_compat; [apply Rabs_pos|apply Rlt_le, Rinv_0_lt_compat; lra|lra|].
    replace (10000000 / 4) with (/ (4 / 10000000)) by field. apply Rinv_le_contravar; lra. }
  destruct (fdiv_btw nn dd _ _ Fm Fd ltac:(lra) RL' RL) as [[Fv _] Vv]; [apply Rabs_le_inv in Q; lra|].
  split; [done|]. rewrite Vv. apply (quotient_error _ _ _ D); [done| |done| |].
  - rewrite B47. lra.
  - rewrite <-SD. replace (565 / 100000000 * N ^ 3 * T) with (565 / 100000000 * (N * (N * (N * T)))) by ring. done.
  - replace (22 / 10000000 * N ^ 2 * D) with (22 / 10000000 * (N * (N * D))) by ring. done.
Qed.
Lemma velocity_close l : Forall graded l → newest_first l → Forall (λ t : trial, (Z.abs (e_ts t) <= 4611686018427387903)%Z) l →
  (2 <= length l <= 100)%nat → 60 / 86400 <= span l →
  ∃ v, velocity l = Some v ∧ fin v ∧
    Rabs (val v - least_squares (grade_points l)) <= (Rabs (least_squares (grade_points l)) + / span l) * INR (length l) ^ 2 / 50000.
Proof.
  intros Hg Hnew Hts Hlen Hspan. destruct l as [|t0 rest]; [simpl in Hlen; lia|].
  destruct (exists_last (l := rest)) as (mid & z & ->); [by intros ->; simpl in Hlen; lia|].
  set (l := t0 :: mid ++ [z]) in *.
  assert (Elast : ∀ d, List.last l d = z) by (intros d; subst l; rewrite app_comm_cons; apply List.last_last).
  set (o := e_ts z).
  assert (Ezl : ∃ i, l !! i = Some z ∧ i = S (length mid)).
  { exists (S (length mid)). split; [|done]. subst l. change ((mid ++ [z]) !! length mid = Some z). by apply list_lookup_middle. }
  assert (Ho : ∀ e, e ∈ l → (o <= e_ts e)%Z).
  { intros e He. destruct Ezl as (i & Hi & Ei). apply elem_of_list_lookup in He as [j Hj].
    assert (j < length l)%nat by (by eapply lookup_lt_Some). subst l. cbn [length] in H. rewrite app_length in H. cbn [length] in H.
    destruct (decide (j = i)) as [->|]; [by simplify_eq|]. eapply (Hnew j i); [done|done|lia]. }
  assert (Hn : ∀ e, e ∈ l → (e_ts e <= e_ts t0)%Z).
  { intros e He. apply elem_of_list_lookup in He as [j Hj]. destruct j as [|j]; [by injection Hj as <-|]. eapply (Hnew 0%nat (S j)); [done|done|lia]. }
  assert (Hza : (Z.abs o <= 4611686018427387903)%Z).
  { rewrite Forall_forall in Hts. apply Hts. subst l. right. apply elem_of_app. right. by left. }
  assert (Es : span l = exact_day o t0).
  { unfold span. change (match l with t :: _ => IZR (e_ts t - e_ts (List.last l t)) / 86400 | [] => 0 end) with (IZR (e_ts t0 - e_ts (List.last l t0)) / 86400).
    by rewrite Elast. }
  rewrite Es in *. set (T := exact_day o t0) in *.
  assert (FT : ∀ e, e ∈ l → graded e ∧ (Z.abs (e_ts e) <= 4611686018427387903)%Z).
  { intros e He. rewrite Forall_forall in Hg, Hts. auto. }
  assert (HX : ∀ e, e ∈ l → 0 <= exact_day o e <= T).
  { intros e He. pose proof (Ho e He). pose proof (Hn e He). subst T. unfold exact_day.
    assert (0 <= IZR (e_ts e - o)) by (apply IZR_le; lia). assert (IZR (e_ts e - o) <= IZR (e_ts t0 - o)) by (apply IZR_le; lia). lra. }
  assert (It0 : t0 ∈ l) by (subst l; by left).
  assert (HT : T <= bpow radix2 47) by (apply day_small; [done|by apply FT|by apply Ho]).
  assert (B47 : bpow radix2 47 = 140737488355328) by (rewrite (bp 47 140737488355328); [done|vm_compute; easy|lia]).
  assert (B110 : bpow radix2 110 = 1298074214633706907132624082305024) by (rewrite (bp 110 1298074214633706907132624082305024); [done|vm_compute; easy|lia]).
  set (n := length l) in *. set (N := INR n).
  assert (HN : 2 <= N <= 100) by (unfold N; rewrite INR_IZR_INZ; split; apply IZR_le; lia).
  destruct (sum_of (day_of o) (exact_day o) 5 T l) as (F1 & N1 & S1 & U1).
  { apply Forall_forall. intros e He. apply day_term; [done|by apply FT|by apply Ho]. }
  { apply Forall_forall. intros e He. by apply HX. }
  { lia. } { lia. } { lra. } { lra. }
  destruct (sum_of e_val (λ e, val (e_val e)) 0 5 l) as (F2 & N2 & S2 & U2).
  { apply Forall_forall. intros e He. apply grade_term. by apply FT. }
  { apply Forall_forall. intros e He. by apply grade_val, FT. }
  { lia. } { lia. } { lra. } { lra. }
  destruct (sum_of (λ e, fmul (day_of o e) (e_val e)) (λ e, exact_day o e * val (e_val e)) 6 (T * 5) l) as (F3 & N3 & S3 & U3).
  { apply Forall_forall. intros e He. apply product_term; [done|by apply FT|by apply Ho|by apply FT]. }
  { apply Forall_forall. intros e He. pose proof (HX e He). destruct (grade_val e) as [_ ?]; [by apply FT|]. apply Rmult_le_compat; lra. }
  { lia. } { lia. } { lra. } { lra. }
  assert (T2 : 0 <= T ^ 2 <= 140737488355328 * 140737488355328) by (simpl; nra).
  destruct (sum_of (λ e, fmul (day_of o e) (day_of o e)) (λ e, exact_day o e ^ 2) 11 (T ^ 2) l) as (F4 & N4 & S4 & U4).
  { apply Forall_forall. intros e He. apply square_term; [done|by apply FT|by apply Ho]. }
  { apply Forall_forall. intros e He. pose proof (HX e He). simpl. nra. }
  { lia. } { lia. } { lra. } { lra. }
  assert (L1 : T <= total (exact_day o <$> l)).
  { subst l. rewrite tot_cons. fold T. assert (0 <= total (exact_day o <$> mid ++ [z])); [|lra].
    apply total_pos, Forall_fmap, Forall_forall. intros e He. apply HX. by right. }
  assert (L2 : N <= total ((λ e, val (e_val e)) <$> l)).
  { pose proof (total_le (λ _, 1) (λ e : trial, val (e_val e)) l) as H. rewrite total_const in H. rewrite Rmult_1_r in H. apply H.
    apply Forall_forall. intros e He. by apply grade_val, FT. }
  assert (L3 : 0 <= total ((λ e, exact_day o e * val (e_val e)) <$> l) <= 5 * total (exact_day o <$> l)).
  { split.
    - apply total_pos, Forall_fmap, Forall_forall. intros e He. pose proof (HX e He). destruct (grade_val e) as [_ ?]; [by apply FT|]. simpl. nra.
    - rewrite <-total_scale. apply total_le, Forall_forall. intros e He. pose proof (HX e He). destruct (grade_val e) as [_ ?]; [by apply FT|]. nra. }
  assert (L4 : 0 <= total ((λ e, exact_day o e ^ 2) <$> l)).
  { apply total_pos, Forall_fmap, Forall_forall. intros e He. simpl. pose proof (HX e He). nra. }
  assert (LD : N * T ^ 2 / 2 <= N * total ((λ e, exact_day o e ^ 2) <$> l) - total (exact_day o <$> l) ^ 2).
  { pose proof (spread T (exact_day o <$> mid)) as H. 
    assert (E : exact_day o <$> l = T :: (exact_day o <$> mid) ++ [0]).
    { subst l. rewrite fmap_cons, fmap_app. f_equal. f_equal. cbn. f_equal. unfold exact_day. fold o. rewrite Z.sub_diag. lra. }
    cbv zeta in H. rewrite <-E in H. rewrite <-list_fmap_compose, fmap_length in H. apply H.
    apply Forall_fmap, Forall_forall. intros e He. apply HX. subst l. right. apply elem_of_app. by left. }
  set (st := fold_left fadd (day_of o <$> l) fzero) in *. set (ss := fold_left fadd (e_val <$> l) fzero) in *.
  set (sts := fold_left fadd ((λ e, fmul (day_of o e) (e_val e)) <$> l) fzero) in *.
  set (stt := fold_left fadd ((λ e, fmul (day_of o e) (day_of o e)) <$> l) fzero) in *.
  assert (EV : velocity l = if flt (fabs (fsub (fmul (f_of_nat n) stt) (fmul st st))) f_epsilon then Some fzero
    else Some (fdiv (fsub (fmul (f_of_nat n) sts) (fmul st ss)) (fsub (fmul (f_of_nat n) stt) (fmul st st)))).
  { apply (velocity_eq l z); [subst n; lia|done]. }
  rewrite (exact_slope_days o) by done. set (pts := (λ e, (exact_day o e, val (e_val e))) <$> l).
  assert (Lp : length pts = n) by (subst pts; by rewrite fmap_length).
  assert (P1 : pts.*1 = exact_day o <$> l) by (subst pts; by rewrite <-list_fmap_compose).
  assert (P2 : pts.*2 = (λ e, val (e_val e)) <$> l) by (subst pts; by rewrite <-list_fmap_compose).
  assert (P3 : (λ p, p.1 * p.2) <$> pts = (λ e, exact_day o e * val (e_val e)) <$> l) by (subst pts; by rewrite <-list_fmap_compose).
  assert (P4 : (λ p : R * R, p.1 ^ 2) <$> pts = (λ e, exact_day o e ^ 2) <$> l) by (subst pts; by rewrite <-list_fmap_compose).
  pose proof (slope_sums pts) as SL. rewrite Lp, P1, P2, P3, P4 in SL. fold N in SL. set (s := least_squares pts) in *.
  destruct (f_of_nat_val n ltac:(lia)) as [Fn Vn]. fold N in Vn.
  assert (Nn : near 0 (val (f_of_nat n)) N) by (rewrite Vn; apply near_self; lra).
  clear Hnew Hts Hg Ezl Ho Hn Hza Es FT HX It0 P1 P2 P3 P4 Lp Elast. clearbody st ss sts stt. fold n in N1, N2, N3, N4, U1, U2, U3, U4.
  fold N in U1, U2, U3, U4. clearbody s. clear pts.
  set (Sx := total (exact_day o <$> l)) in *. set (Sy := total ((λ e, val (e_val e)) <$> l)) in *.
  set (Sxy := total ((λ e, exact_day o e * val (e_val e)) <$> l)) in *. set (Sxx := total ((λ e, exact_day o e ^ 2) <$> l)) in *.
  clearbody Sx Sy Sxy Sxx T. rewrite EV. clear EV. clearbody n. clear l o.
  eapply sums_to_slope; eauto with lia.
Qed.
