(** Proofs about the data in files. *)
From stdpp Require Import gmap strings list sorting.
From Coq Require Import ZArith Ascii.
From Flocq Require Import IEEE754.BinarySingleNaN.
From Verif Require Import F32 Graph Library Filters Json JsonSpec JsonProofs Serde SerdeSpec.
Local Open Scope string_scope.
Local Open Scope list_scope.

Definition faithful {A} (c : codec A) (ok : A → Prop) : Prop := ∀ x, ok x → json_ok (enc c x) ∧ dec c (enc c x) = Some x.
Definition shallow {A} (c : codec A) (n : nat) : Prop := ∀ x, depth (enc c x) ≤ n.
Definition anything {A} (x : A) : Prop := True.
Definition not_null {A} (c : codec A) : Prop := ∀ x, enc c x ≠ JNull.

Lemma load_saved {A} (c : codec A) ok p x trail : faithful c ok → ok x → blank trail →
  load c (save c p x +:+ trail) = if (depth (enc c x) <? 128)%nat then Some x else None.
Proof.
  intros Hf Hx Ht. destruct (Hf x Hx) as [Hj Hd]. unfold load, save. rewrite text_round_trip by done.
  by destruct (depth (enc c x) <? 128)%nat.
Qed.

(** ** Simple types *)
Lemma string_good : faithful string_codec anything. Proof. done. Qed.
Lemma bool_good : faithful bool_codec anything. Proof. done. Qed.
Lemma unsigned_good b : (b ≤ 64)%Z → faithful (unsigned b) (λ z, 0 ≤ z < 2 ^ b)%Z.
Proof.
  intros Hb z Hz. assert (2 ^ b ≤ 2 ^ 64)%Z by (apply Z.pow_le_mono_r; lia). split; cbn [unsigned enc dec json_ok]; [lia|].
  by rewrite (proj2 (Z.leb_le _ _) (proj1 Hz)), (proj2 (Z.ltb_lt _ _) (proj2 Hz)).
Qed.
Lemma usize_good : faithful usize_codec usize_ok.
Proof.
  intros n Hn. unfold usize_ok in Hn. destruct (unsigned_good 64 ltac:(lia) (Z.of_nat n) ltac:(cbn beta; lia)) as [H1 H2].
  split; [exact H1|]. cbn [usize_codec enc dec]. cbn [unsigned enc] in H2. rewrite H2. cbn. by rewrite Nat2Z.id.
Qed.
Definition option_ok {A} (ok : A → Prop) (x : option A) : Prop := match x with Some x => ok x | None => True end.
Lemma option_good {A} (c : codec A) ok : faithful c ok → not_null c → faithful (option_codec c) (option_ok ok).
Proof.
  intros Hf Hn [x|] Hx; [|done]. destruct (Hf x Hx) as [H1 H2]. split; [exact H1|]. cbn. specialize (Hn x).
  destruct (enc c x) eqn:E; try done; by rewrite H2.
Qed.
Lemma traverse_map {A B C} (f : B → option C) (g : A → B) (h : A → C) l :
  Forall (λ x, f (g x) = Some (h x)) l → traverse f (map g l) = Some (map h l).
Proof. induction 1 as [|x l Hx _ IH]; cbn; [done|]. by rewrite Hx, IH. Qed.
Lemma map_same {A} (l : list A) : map (λ x, x) l = l. Proof. apply map_id. Qed.
Lemma list_good {A} (c : codec A) ok : faithful c ok → faithful (list_codec c) (Forall ok).
Proof.
  intros Hf l Hl. split.
  - apply ok_array. apply Forall_fmap. eapply Forall_impl; [exact Hl|]. intros x Hx. by apply Hf.
  - cbn [list_codec enc dec]. rewrite (traverse_map _ _ (λ x, x)); [by rewrite map_same|]. eapply Forall_impl; [exact Hl|]. intros x Hx. by apply Hf.
Qed.
Lemma pair_good {A B} (a : codec A) (b : codec B) oka okb : faithful a oka → faithful b okb → faithful (pair_codec a b) (λ x, oka x.1 ∧ okb x.2).
Proof.
  intros Ha Hb [x y] [Hx Hy]. destruct (Ha x Hx) as [A1 A2], (Hb y Hy) as [B1 B2]. split; [by cbn|].
  cbn [pair_codec enc dec fst snd]. by rewrite A2, B2.
Qed.
Lemma faithful_mono {A} (c : codec A) (P Q : A → Prop) : (∀ x, Q x → P x) → faithful c P → faithful c Q.
Proof. intros H Hf x Hx. by apply Hf, H. Qed.
Lemma tree_inserted {A} (l : list (string * A)) : NoDup l.*1 → foldl (λ m x, <[x.1 := x.2]> m) ∅ l =@{gmap string A} list_to_map l.
Proof.
  intros Hn. assert (G : ∀ (m : gmap string A), (∀ k, k ∈ l.*1 → m !! k = None) → foldl (λ m x, <[x.1 := x.2]> m) m l = list_to_map l ∪ m).
  { induction l as [|[k a] l IH]; intros m Hm; cbn; [by rewrite (left_id_L ∅ (∪))|]. apply NoDup_cons in Hn as [Hk Hn]. rewrite IH; [|done|].
    - rewrite <- insert_union_l. rewrite insert_union_r; [done|]. by apply not_elem_of_list_to_map_1.
    - intros k' Hk'. rewrite lookup_insert_ne; [apply Hm; set_solver|]. intros ->. done. }
  rewrite G; [by rewrite (right_id_L ∅ (∪))|]. intros. apply lookup_empty.
Qed.
Lemma tree_good {A} (c : codec A) ok : faithful c ok → faithful (tree_codec c) (map_Forall (λ _ x, ok x)).
Proof.
  intros Hf m Hm. pose proof (merge_sort_Permutation key_le (map_to_list m)) as Hp. set (l := merge_sort key_le (map_to_list m)) in *.
  assert (Hl : Forall (λ x, ok x.2) l). { rewrite Hp. apply map_Forall_to_list in Hm. eapply Forall_impl; [exact Hm|]. by intros []. }
  split; cbn [tree_codec enc dec]; fold l.
  - apply ok_object. apply Forall_fmap. eapply Forall_impl; [exact Hl|]. intros x Hx. cbn. by apply Hf.
  - rewrite (traverse_map _ _ (λ x, x)).
    + cbn. rewrite map_same. rewrite tree_inserted by (rewrite Hp; apply NoDup_fst_map_to_list). f_equal.
      rewrite (list_to_map_proper _ (map_to_list m)); [apply list_to_map_to_list|rewrite Hp; apply NoDup_fst_map_to_list|done].
    + eapply Forall_impl; [exact Hl|]. intros [k x] Hx. cbn in *. by rewrite (proj2 (Hf x Hx)).
Qed.
Lemma filter_all {A} (P : A → Prop) `{∀ x, Decision (P x)} (l : list A) : (∀ x, x ∈ l → P x) → base.filter P l = l.
Proof. induction l as [|x l IH]; intros H1; [done|]. rewrite filter_cons_True by (apply H1; left). rewrite IH; [done|]. intros. apply H1. by right. Qed.
Lemma last_wins_same {A} (l : list (N * A)) : NoDup l.*1 → last_wins l = l.
Proof.
  unfold last_wins. assert (G : ∀ a, NoDup (a ++ l).*1 → foldl put_last a l = a ++ l).
  { induction l as [|x l IH]; intros a Hn; cbn; [by rewrite List.app_nil_r|]. unfold put_last at 2. rewrite filter_all; [rewrite IH; [by rewrite <- app_assoc|by rewrite <- app_assoc]|].
    intros y Hy E. rewrite fmap_app in Hn. apply NoDup_app in Hn as (_ & Hn & _). apply (Hn y.1).
    - apply elem_of_list_fmap. by exists y.
    - rewrite E. cbn. left. }
  intros. by apply G.
Qed.
Lemma key_round n : (n < 2 ^ 64)%N → read_key (write_key n) = Some n.
Proof.
  intros Hn. unfold read_key, write_key. rewrite list_ascii_of_string_of_list_ascii. pose proof (read_write_int (Z.of_N n) ltac:(lia)) as E.
  unfold write_int in E. rewrite (proj2 (Z.ltb_ge _ _)) in E by lia. replace (Z.abs_N (Z.of_N n)) with n in E by lia. rewrite E.
  rewrite (proj2 (Z.leb_le _ _)), (proj2 (Z.ltb_lt _ _)) by lia. cbn. by rewrite N2Z.id.
Qed.
Lemma numbered_reads {A} (d : json → option A) (e : A → json) (l : list (N * A)) : keys_ok l → Forall (λ x, d (e x.2) = Some x.2) l →
  read_numbered d (JObject (map (λ x, (write_key x.1, e x.2)) l)) = Some l.
Proof.
  intros [Hn Hk] Hl. cbn [read_numbered]. rewrite (traverse_map _ _ (λ x, x)).
  - cbn. rewrite map_same. by rewrite last_wins_same.
  - rewrite Forall_forall in *. intros [n a] Hx. pose proof (Hl _ Hx) as E. cbn in E |- *. rewrite key_round by exact (Hk _ Hx). by rewrite E.
Qed.
Lemma numbered_good {A} (c : codec A) ok : faithful c ok → faithful (numbered_codec c) (λ l, keys_ok l ∧ Forall (λ x, ok x.2) l).
Proof.
  intros Hf l [Hk Hl]. split.
  - apply ok_object. apply Forall_fmap. eapply Forall_impl; [exact Hl|]. intros x Hx. cbn. by apply Hf.
  - cbn [numbered_codec enc dec]. apply numbered_reads; [done|]. eapply Forall_impl; [exact Hl|]. intros x Hx. by apply Hf.
Qed.

(** ** Structures *)
Ltac fields := cbn [field pick found named content tagged is_unit unit_of String.eqb Ascii.eqb Bool.eqb andb mbind option_bind fmap option_fmap option_map].
Ltac oks := cbn [json_ok snd tagged]; repeat match goal with |- _ ∧ _ => split | |- True => exact I end.
Lemma string_rt s : dec string_codec (JString s) = Some s. Proof. done. Qed.
Lemma bool_rt s : dec bool_codec (JBool s) = Some s. Proof. done. Qed.
Lemma op_good : faithful op_codec anything. Proof. by intros []. Qed.
Lemma type_good : faithful type_codec anything. Proof. by intros []. Qed.
Lemma ids_good : faithful ids_codec anything.
Proof. eapply faithful_mono; [|apply (list_good _ _ string_good)]. intros l _. by apply Forall_true. Qed.
Lemma ids_rt l : dec ids_codec (enc ids_codec l) = Some l. Proof. by apply ids_good. Qed.
Lemma text_good : faithful text_codec anything.
Proof. eapply faithful_mono; [|apply (option_good _ _ string_good); by intros]. by intros [] _. Qed.
Lemma text_rt l : dec text_codec (enc text_codec l) = Some l. Proof. by apply text_good. Qed.

Section kv_ind.
  Context (P : kv_filter → Prop) (HC : ∀ k v t, P (KCourse k v t)) (HL : ∀ k v t, P (KLesson k v t)) (HB : ∀ o fs, Forall P fs → P (KCombined o fs)).
  Fixpoint kv_rec' (f : kv_filter) : P f :=
    match f with
    | KCourse k v t => HC k v t
    | KLesson k v t => HL k v t
    | KCombined o fs => HB o fs ((fix go l : Forall P l := match l with [] => Forall_nil_2 P | x :: l => Forall_cons_2 P x l (kv_rec' x) (go l) end) fs)
    end.
End kv_ind.
Lemma kv_good : faithful kv_codec anything.
Proof.
  assert (G : ∀ f, json_ok (enc_kv f) ∧ dec_kv (enc_kv f) = Some f); [|intros f _; apply G].
  apply kv_rec'.
  - intros k v t. destruct (type_good t I) as [T1 T2]. split; [by cbn -[type_codec]|]. cbn [enc_kv dec_kv tagged]. fields. rewrite !string_rt. fields. rewrite T2. by fields.
  - intros k v t. destruct (type_good t I) as [T1 T2]. split; [by cbn -[type_codec]|]. cbn [enc_kv dec_kv tagged]. fields. rewrite !string_rt. fields. rewrite T2. by fields.
  - intros o fs Hl. destruct (op_good o I) as [T1 T2]. split.
    + cbn [enc_kv tagged json_ok snd]. split; [|done]. split; [exact T1|]. split; [|done]. apply ok_array. apply Forall_fmap. eapply Forall_impl; [exact Hl|]. by intros x [].
    + cbn [enc_kv dec_kv tagged]. fields. rewrite T2. fields. rewrite (traverse_map _ _ (λ x, x)); [fields; by rewrite map_same|].
      eapply Forall_impl; [exact Hl|]. by intros x [].
Qed.
Lemma kv_rt f : dec kv_codec (enc kv_codec f) = Some f. Proof. by apply kv_good. Qed.
Lemma unit_filter_good : faithful unit_filter_codec unit_filter_ok.
Proof.
  intros f Hf. destruct f as [l|l|f| |l|l n]; cbn [unit_filter_codec enc dec]; fields; (split; [|by rewrite ?ids_rt, ?kv_rt; fields]) || idtac.
  - oks; apply ids_good; done.
  - oks; apply ids_good; done.
  - oks; apply kv_good; done.
  - done.
  - oks; apply ids_good; done.
  - destruct (usize_good n Hf) as [U1 U2]. split; [oks; [apply ids_good; done|exact U1]|].
    rewrite ids_rt. fields. rewrite U2. by fields.
Qed.
Lemma saved_good : faithful saved_codec (λ f, unit_filter_ok (sf_filter f)).
Proof.
  intros [i d f] Hf. cbn [sf_filter] in Hf. destruct (unit_filter_good f Hf) as [U1 U2]. split; [cbn [saved_codec enc dec sf_id sf_description sf_filter]; oks; done|].
  cbn [saved_codec enc dec sf_id sf_description sf_filter]. fields. rewrite !string_rt. fields. rewrite U2. by fields.
Qed.
Lemma part_good : faithful part_codec part_ok.
Proof.
  intros p [Hd Hp]. destruct p as [f d|f d|d]; cbn [part_duration] in Hd; destruct (unsigned_good 32 ltac:(lia) d Hd) as [D1 D2]; cbn [unsigned enc] in D2.
  - destruct (unit_filter_good f Hp) as [U1 U2]. split; [cbn [part_codec enc dec]; oks; first [done|lia]|]. cbn [part_codec enc dec]. fields. rewrite U2. fields. rewrite D2. by fields.
  - split; [cbn [part_codec enc dec]; oks; first [done|lia]|]. cbn [part_codec enc dec]. fields. rewrite string_rt. fields. rewrite D2. by fields.
  - split; [cbn [part_codec enc dec]; oks; first [done|lia]|]. cbn [part_codec enc dec]. fields. rewrite D2. by fields.
Qed.
Lemma session_good : faithful session_codec session_ok.
Proof.
  intros [i d l] Hl. destruct (list_good _ _ part_good l Hl) as [P1 P2]. split; [cbn [session_codec enc dec ss_id ss_description ss_parts]; oks; done|].
  cbn [session_codec enc dec ss_id ss_description ss_parts]. fields. rewrite !string_rt. fields. rewrite P2. by fields.
Qed.
Lemma instrument_good : faithful instrument_codec anything.
Proof. intros [n i] _. split; [done|]. cbn [instrument_codec enc dec in_name in_id]. fields. rewrite !string_rt. by fields. Qed.
Lemma transcription_preferences_good : faithful transcription_preferences_codec anything.
Proof.
  intros [l d a] _. destruct (list_good _ _ instrument_good l) as [I1 I2]; [by apply Forall_true|].
  split; [cbn [transcription_preferences_codec enc dec tp_instruments tp_download tp_alias]; oks; [exact I1|by apply text_good|by apply text_good]|].
  cbn [transcription_preferences_codec enc dec tp_instruments tp_download tp_alias]. fields. rewrite I2. fields. rewrite text_rt. fields. rewrite text_rt. by fields.
Qed.
Lemma scheduler_preferences_good : faithful scheduler_preferences_codec (option_ok usize_ok).
Proof.
  intros b Hb. destruct (option_good _ _ usize_good ltac:(by intros ?) b Hb) as [U1 U2]. split; [cbn [scheduler_preferences_codec enc dec]; oks; done|].
  cbn [scheduler_preferences_codec enc dec]. fields. by rewrite U2.
Qed.
Lemma preferences_good : faithful preferences_codec preferences_ok.
Proof.
  intros [t s i] Hs. unfold preferences_ok in Hs. cbn [up_scheduler] in Hs.
  destruct (option_good _ _ transcription_preferences_good ltac:(by intros ?) t) as [T1 T2]; [by destruct t|].
  destruct (option_good _ _ scheduler_preferences_good ltac:(by intros ?) s) as [S1 S2]; [by destruct s as [[]|]|].
  split; [cbn [preferences_codec enc dec up_transcription up_scheduler up_ignored]; oks; [exact T1|exact S1|by apply ids_good]|].
  cbn [preferences_codec enc dec up_transcription up_scheduler up_ignored]. fields. rewrite T2. fields. rewrite S2. fields. rewrite ids_rt. by fields.
Qed.
Lemma asset_good : faithful asset_codec anything.
Proof. intros [] _; (split; [done|]); cbn [asset_codec enc dec]; fields; by rewrite string_rt. Qed.
Lemma asset_null : not_null asset_codec. Proof. by intros []. Qed.
Definition some_asset := option_good _ _ asset_good asset_null.
Lemma some_asset_rt a : dec (option_codec asset_codec) (enc (option_codec asset_codec) a) = Some a.
Proof. apply some_asset. by destruct a. Qed.
Lemma some_asset_ok a : json_ok (enc (option_codec asset_codec) a).
Proof. apply some_asset. by destruct a. Qed.
Lemma link_good : faithful link_codec anything. Proof. intros u _. split; [done|]. cbn [link_codec enc dec]. by fields. Qed.
Lemma some_link l : json_ok (enc (option_codec link_codec) l) ∧ dec (option_codec link_codec) (enc (option_codec link_codec) l) = Some l.
Proof. apply (option_good _ _ link_good); [by intros ?|by destruct l]. Qed.
Lemma literacy_good : faithful literacy_codec anything. Proof. by intros []. Qed.
Lemma answers_good l : json_ok (enc answers_codec l) ∧ dec answers_codec (enc answers_codec l) = Some l.
Proof. apply (list_good _ _ (pair_good _ _ _ _ string_good text_good)). by apply Forall_true. Qed.
Lemma exercise_asset_good : faithful exercise_asset_codec anything.
Proof.
  intros a _. destruct a as [a|f b|f b|d e x|l d b|t l]; cbn [exercise_asset_codec enc dec]; fields.
  - split; [cbn [json_ok snd]; split; [by apply asset_good|done]|]. by rewrite (proj2 (asset_good a I)).
  - split; [cbn [exercise_asset_codec enc dec]; oks; by apply text_good|]. rewrite string_rt. fields. rewrite text_rt. by fields.
  - split; [cbn [exercise_asset_codec enc dec]; oks; by apply text_good|]. rewrite string_rt. fields. rewrite text_rt. by fields.
  - destruct (answers_good e) as [E1 E2], (answers_good x) as [X1 X2], (literacy_good d I) as [L1 L2]. split; [cbn [exercise_asset_codec enc dec]; oks; done|]. rewrite L2. fields. rewrite E2. fields. rewrite X2. by fields.
  - split; [cbn [exercise_asset_codec enc dec]; oks; by apply text_good|]. rewrite string_rt. fields. rewrite text_rt. fields. rewrite text_rt. by fields.
  - destruct (some_link l) as [L1 L2]. split; [cbn [exercise_asset_codec enc dec]; oks; done|]. rewrite string_rt. fields. rewrite L2. by fields.
Qed.
Lemma exercise_type_good : faithful exercise_type_codec anything. Proof. by intros []. Qed.
Lemma exercise_good : faithful exercise_codec anything.
Proof.
  intros [i l c n d t a] _. destruct (exercise_type_good t I) as [T1 T2], (exercise_asset_good a I) as [A1 A2]. split; [cbn [exercise_codec enc dec ed_id ed_lesson_id ed_course_id ed_name ed_description ed_procedural ed_asset]; oks; [by apply text_good|exact T1|exact A1]|].
  cbn [exercise_codec enc dec ed_id ed_lesson_id ed_course_id ed_name ed_description ed_procedural ed_asset]. fields.
  rewrite !string_rt. fields. rewrite text_rt. fields. rewrite T2. fields. rewrite A2. by fields.
Qed.
Lemma metadata_good (m : metadata) : json_ok (enc metadata_codec m) ∧ dec metadata_codec (enc metadata_codec m) = Some m.
Proof. apply (option_good _ _ (tree_good _ _ ids_good)); [by intros ?|]. destruct m; [|done]. by intros ???. Qed.
Lemma metadata_ok (m : metadata) : json_ok (enc metadata_codec m). Proof. apply metadata_good. Qed.
Lemma metadata_rt (m : metadata) : dec metadata_codec (enc metadata_codec m) = Some m. Proof. apply metadata_good. Qed.

Section weights.
  Context (show : f32 → list ascii) (read : list ascii → option f32) (Hn : exact_numbers show read).
  Lemma f32_good : faithful (f32_codec show read) (λ x, is_finite x = true).
  Proof using Hn. intros x Hx. destruct (Hn x Hx) as [H1 H2]. cbn [f32_codec enc dec]. rewrite Hx. by split. Qed.
  Lemma weights_good l : finite_weights l → json_ok (enc (weights_codec show read) l) ∧ dec (weights_codec show read) (enc (weights_codec show read) l) = Some l.
  Proof using Hn. intros Hl. apply (list_good _ _ (pair_good _ _ _ _ string_good f32_good)). eapply Forall_impl; [exact Hl|]. done. Qed.
  Lemma lesson_good : faithful (lesson_codec show read) (λ l, finite_weights (ld_encompassed l)).
  Proof using Hn.
    intros [i dd ee ss c n d m t u] Hw. cbn [ld_encompassed] in Hw. destruct (weights_good ee Hw) as [W1 W2].
    split.
    - cbn [lesson_codec enc json_ok snd ld_id ld_dependencies ld_encompassed ld_superseded ld_course_id ld_name ld_description ld_metadata ld_material ld_instructions].
      repeat split; first [by apply ids_good|exact W1|by apply text_good|apply metadata_ok|apply some_asset_ok].
    - cbn [lesson_codec enc dec ld_id ld_dependencies ld_encompassed ld_superseded ld_course_id ld_name ld_description ld_metadata ld_material ld_instructions]. fields.
      rewrite !string_rt. fields. rewrite ids_rt. fields. rewrite W2. fields. rewrite ids_rt. fields. rewrite text_rt. fields. rewrite metadata_rt. fields. rewrite some_asset_rt. fields. rewrite some_asset_rt. by fields.
  Qed.
End weights.
