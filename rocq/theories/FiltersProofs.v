(** Proofs about metadata filters and study sessions. *)
From stdpp Require Import gmap strings list.
From Coq Require Import ZArith Lia.
From Verif Require Import F32 Graph Library Filters FiltersSpec.
Ltac Zify.zify_post_hook ::= Z.div_mod_to_equations.

Lemma kv_ind (P : kv_filter → Prop) :
  (∀ k v t, P (KCourse k v t)) → (∀ k v t, P (KLesson k v t)) →
  (∀ op fs, Forall P fs → P (KCombined op fs)) → ∀ f, P f.
Proof.
  intros HC HL HK. fix IH 1. intros [k v t|k v t|op fs]; [apply HC|apply HL|].
  apply HK. induction fs as [|f fs IHfs]; constructor; [apply IH|exact IHfs].
Qed.

Lemma passes_filter_spec md k v ft :
  passes_filter md k v ft = true ↔
  match ft with Include => lists_value md k v | Exclude => ¬ lists_value md k v end.
Proof.
  assert (Hc : match default ∅ md !! k with
      | Some values => existsb (String.eqb v) values | None => false end = true ↔ lists_value md k v).
  { unfold lists_value. destruct md as [m|]; simpl; [destruct (m !! k) as [vs|] eqn:E|].
    - rewrite existsb_exists. setoid_rewrite String.eqb_eq. split.
      + intros (x & Hx & ->). exists m, vs. repeat split; try done. by apply elem_of_list_In.
      + intros (m' & vs' & [= <-] & E' & Hv). simplify_eq. exists v. split; [|done].
        by apply elem_of_list_In.
    - split; [done|]. intros (m' & vs' & [= <-] & E' & _). congruence.
    - rewrite lookup_empty. split; [done|]. by intros (? & ? & ? & _). }
  unfold passes_filter. destruct ft; [exact Hc|].
  rewrite negb_true_iff, <-not_true_iff_false. by rewrite Hc.
Qed.

Lemma apply_to_lesson_formula f : ∀ cm lm,
  apply_to_lesson f cm lm = true ↔ satisfied (formula_of f) cm lm.
Proof.
  induction f as [k v t|k v t|op fs IH] using kv_ind; intros cm lm.
  - simpl. rewrite passes_filter_spec. by destruct t.
  - simpl. rewrite passes_filter_spec. by destruct t.
  - simpl. destruct op.
    + induction IH as [|f fs Hf _ IHfs]; simpl; [done|].
      rewrite andb_true_iff, Hf, IHfs. done.
    + induction IH as [|f fs Hf _ IHfs]; simpl; [done|].
      rewrite orb_true_iff, Hf, IHfs. done.
Qed.

Lemma course_passes_lessons f : ∀ cm lm,
  apply_to_course f cm = true → apply_to_lesson f cm lm = true.
Proof.
  induction f as [k v t|k v t|op fs IH] using kv_ind; intros cm lm; simpl; [done|done|].
  destruct op.
  - intros H. apply forallb_forall. intros f Hf.
    rewrite List.Forall_forall in IH. apply (IH f Hf).
    clear IH. revert H. set (all_of := fix go (c : bool) (fs : list kv_filter) : bool := match fs with
         | [] => true
         | f :: fs => (if Bool.eqb (is_course_filter f) c then apply_to_course f cm else true) && go c fs
         end).
    assert (Hall : ∀ c fs f, all_of c fs = true → In f fs → is_course_filter f = c → apply_to_course f cm = true).
    { clear. intros c fs f. induction fs as [|g fs IH]; simpl; [done|].
      intros [Hg Hfs]%andb_true_iff [->|Hin] Hc; [|by apply IH].
      rewrite Hc, eqb_reflx in Hg. done. }
    assert (Heq : ∀ c fs, (fix go (fs : list kv_filter) : bool := match fs with
         | [] => true
         | f :: fs => (if Bool.eqb (is_course_filter f) c then apply_to_course f cm else true) && go fs
         end) fs = all_of c fs).
    { clear. intros c fs. induction fs as [|g fs IH]; simpl; [done|]. by rewrite IH. }
    rewrite !Heq. destruct (forallb is_course_filter fs) eqn:Eall.
    + intros H. apply (Hall true fs f H Hf). rewrite forallb_forall in Eall. by apply Eall.
    + intros [H1 H2]%andb_true_iff. destruct (is_course_filter f) eqn:Ef.
      * by apply (Hall true fs f H1 Hf).
      * by apply (Hall false fs f H2 Hf).
  - destruct (forallb is_course_filter fs) eqn:Eall; [|done].
    intros H. apply existsb_exists.
    rewrite List.Forall_forall in IH.
    assert (Hex : ∃ f, In f fs ∧ apply_to_course f cm = true).
    { clear IH Eall. induction fs as [|g fs IHfs]; simpl in *; [done|].
      apply orb_true_iff in H as [H|H].
      - exists g. split; [by left|]. destruct (Bool.eqb (is_course_filter g) true); [done|discriminate].
      - destruct (IHfs H) as (f & ? & ?). exists f. split; [by right|done]. }
    destruct Hex as (f & Hf & Hc). exists f. split; [done|]. by apply IH.
Qed.

(** Study sessions. *)
Lemma total_app a b : total (a ++ b) = (total a + total b)%Z.
Proof. induction a as [|p a IH]; simpl; [done|]. unfold total in *. rewrite IH. lia. Qed.
Lemma total_nonneg ps : Forall (λ p, (0 <= part_duration p < two32)%Z) ps → (0 <= total ps)%Z.
Proof. induction 1; simpl; [done|]. unfold total in *. lia. Qed.

Lemma part_loop_spec checks m parts : ∀ before ps p,
  Forall (λ p, (0 <= part_duration p < two32)%Z) parts → (total parts < two32)%Z →
  parts = before ++ ps → (total before <= m)%Z → last before = Some p ∨ ps ≠ [] →
  ∃ q, part_loop checks m (total before) p ps = Some q ∧
    ((∃ b a, parts = b ++ q :: a ∧ (total b <= m < total b + part_duration q)%Z) ∨
     ((total parts <= m)%Z ∧ last parts = Some q)).
Proof.
  intros before ps. revert before. induction ps as [|x ps IH]; intros before p Hd Ht Hp Hm Hl.
  - exists p. split; [done|]. right. rewrite Hp, app_nil_r. destruct Hl; done.
  - simpl. assert (Hsum : (total before + part_duration x + total ps = total parts)%Z).
    { rewrite Hp, total_app. unfold total. simpl. lia. }
    assert (Hps : (0 <= total ps)%Z).
    { apply total_nonneg. rewrite Hp in Hd. apply Forall_app in Hd as [_ Hd]. by inversion Hd. }
    assert (Hb : (0 <= total before)%Z).
    { apply total_nonneg. rewrite Hp in Hd. by apply Forall_app in Hd as [Hd _]. }
    assert (Hx : (0 <= part_duration x < two32)%Z).
    { rewrite Hp in Hd. apply Forall_app in Hd as [_ Hd]. by inversion Hd. }
    assert (Hc : checks && (two32 <=? total before + part_duration x)%Z = false).
    { destruct checks; [|done]. simpl. apply Z.leb_gt. lia. }
    rewrite Hc, Z.mod_small by lia.
    destruct (Z.ltb_spec m (total before + part_duration x)).
    + exists x. split; [done|]. left. exists before, ps. split; [done|]. lia.
    + destruct (IH (before ++ [x]) x Hd Ht) as (q & Hq & Hres).
      * by rewrite <-app_assoc.
      * rewrite total_app. unfold total at 2. simpl. lia.
      * left. apply last_snoc.
      * exists q. split; [|done]. rewrite total_app in Hq. unfold total at 2 in Hq. simpl in Hq.
        by rewrite Z.add_0_r in Hq.
Qed.

(** The session is short enough for 32-bit minutes, and before its start it does not open with
    a part of no duration. *)
Definition session_ok (s : session_data) (time : Z) : Prop :=
  durations_ok s ∧ (total (sd_parts s) < two32)%Z ∧ (time - sd_start s < minutes two32)%Z ∧
  ((time < sd_start s)%Z → match sd_parts s with [] => True | p :: _ => (0 < part_duration p)%Z end).

Lemma num_minutes_neg d : (num_minutes d < 0)%Z → (d < 0)%Z.
Proof.
  unfold num_minutes. intros H.
  destruct (Z.lt_ge_cases d 0) as [|Hd]; [done|].
  assert (0 <= Z.quot d 1000000000)%Z by (apply Z.quot_pos; lia).
  assert (0 <= Z.quot (Z.quot d 1000000000) 60)%Z by (apply Z.quot_pos; lia). lia.
Qed.
Lemma num_minutes_nonneg d : (0 <= d)%Z → num_minutes d = (d / 60000000000)%Z.
Proof.
  intros H. unfold num_minutes. rewrite (Z.quot_div_nonneg d) by lia.
  rewrite Z.quot_div_nonneg; [|apply Z.div_pos; lia|lia].
  rewrite Z.div_div by lia. done.
Qed.
Lemma num_minutes_zero d : (d < 0)%Z → (0 <= num_minutes d)%Z → num_minutes d = 0%Z.
Proof.
  intros H H0. unfold num_minutes in *.
  assert (Hq : ∀ a b, (a <= 0)%Z → (0 < b)%Z → (Z.quot a b <= 0)%Z).
  { intros a b Ha Hb. pose proof (Z.quot_opp_l (-a) b). rewrite Z.opp_involutive in H1.
    pose proof (Z.quot_pos (-a) b). lia. }
  pose proof (Hq d 1000000000%Z). pose proof (Hq (Z.quot d 1000000000) 60%Z). lia.
Qed.

Lemma get_part_right checks s time : session_ok s time → ∃ p, get_part checks s time = Some p ∧ right_part s time p.
Proof.
  intros (Hd & Ht & Htime & Hfirst). unfold get_part, right_part.
  unfold durations_ok in Hd.
  destruct (sd_parts s) as [|p0 ps] eqn:Eparts.
  { exists (PNone 0). split; [done|]. by left. }
  set (d := (time - sd_start s)%Z) in *.
  destruct (Z.ltb_spec (num_minutes d) 0) as [Hneg|Hpos].
  { exists p0. split; [done|]. right. left. split; [|done]. by apply num_minutes_neg. }
  destruct (Z.lt_ge_cases d 0) as [Hdn|Hdp].
  { rewrite (num_minutes_zero d Hdn Hpos). rewrite Z.mod_0_l by done.
    exists p0. split; [|right; left; done]. simpl.
    assert (Hx : (0 <= part_duration p0 < two32)%Z) by by inversion Hd.
    assert (Hc : checks && (two32 <=? 0 + part_duration p0)%Z = false).
    { destruct checks; [|done]. simpl. apply Z.leb_gt. lia. }
    rewrite Hc. rewrite Z.mod_small by lia.
    destruct (Z.ltb_spec 0 (0 + part_duration p0)); [done|].
    assert (0 < part_duration p0)%Z by (apply Hfirst; lia). lia. }
  rewrite (num_minutes_nonneg d Hdp) in *. unfold minutes in *.
  rewrite Z.mod_small by lia.
  destruct (part_loop_spec checks (d / 60000000000) (p0 :: ps) [] (p0 :: ps) p0 Hd Ht)
    as (q & Hq & Hres); [done|simpl;lia|by right|].
  exists q. split; [exact Hq|]. right. right. destruct Hres as [(b & a & Hba & Hr)|[Hr Hl]].
  - left. exists b, a. split; [done|]. lia.
  - right. split; [lia|done].
Qed.

(** Witnesses. *)
Definition nobody : session_part := PNone 5.
Lemma short_wait_skips : ∃ s time, durations_ok s ∧ (total (sd_parts s) < two32)%Z ∧
  (time < sd_start s)%Z ∧ ∀ checks, get_part checks s time ≠ head (sd_parts s).
Proof.
  exists (SessionData 30000000000 [PNone 0; PUnit FReviewList 5]), 0%Z.
  split; [repeat constructor; done|]. split; [done|]. split; [done|].
  intros []; vm_compute; congruence.
Qed.
Lemma long_session_wraps : ∃ s time p, durations_ok s ∧
  match sd_parts s with [] => True | p :: _ => (0 < part_duration p)%Z end ∧
  get_part true s time = None ∧ get_part false s time = Some p ∧ ¬ right_part s time p.
Proof.
  exists (SessionData 0 [PNone 10; PUnit FReviewList 4294967295; PSaved "x" 1]), (minutes 20), (PSaved "x" 1).
  split; [repeat constructor; done|]. split; [done|]. split; [done|]. split; [done|].
  unfold right_part. simpl. intros [[H _]|[[H _]|[(b & a & H & H')|[H _]]]]; [done| |..].
  - vm_compute in H. done.
  - destruct b as [|? [|? [|? [|]]]]; simplify_eq/=. vm_compute in H'. destruct H' as [H' _]. by apply H'.
  - vm_compute in H. by apply H.
Qed.

Definition sample_filter : kv_filter :=
  KCombined OpAll [KCourse "instrument" "piano" Include;
    KCombined OpAny [KCourse "genre" "jazz" Include; KCourse "genre" "pop" Exclude]].
Definition sample_meta : metadata := Some {[ "instrument" := ["organ"; "piano"]; "genre" := ["jazz"; "pop"] ]}.
Definition sample_session : session_data :=
  SessionData 1000000000 [PNone 10; PUnit FReviewList 0; PSaved "f" 20].
