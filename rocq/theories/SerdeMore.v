(** More proofs about the data in files: courses, the depth of the texts, and files written by
    hand. *)
From stdpp Require Import gmap strings list sorting.
From Coq Require Import ZArith Ascii.
From Flocq Require Import IEEE754.BinarySingleNaN.
From Verif Require Import F32 Graph Library Filters Json JsonSpec JsonProofs Serde SerdeSpec SerdeProofs.
Local Open Scope string_scope.
Local Open Scope list_scope.

(** ** Courses *)
Section passage_ind.
  Context (P : passage_data → Prop) (HP : ∀ s e l, Forall (λ x, P x.2) l → P (PassageData s e l)).
  Fixpoint passage_rec' (p : passage_data) : P p :=
    match p with PassageData s e l =>
      HP s e l ((fix go l : Forall (λ x, P x.2) l :=
        match l with [] => Forall_nil_2 _ | x :: l => Forall_cons_2 (λ x, P x.2) x l (passage_rec' x.2) (go l) end) l)
    end.
End passage_ind.
Lemma passage_ok_subs s e l : passage_ok (PassageData s e l) → keys_ok l ∧ Forall (λ x, passage_ok x.2) l.
Proof. intros [H1 H2]. split; [done|]. clear H1. induction l as [|x l IH]; [done|]. destruct H2 as [H1 H2]. constructor; [done|]. by apply IH. Qed.
Lemma passage_good : faithful passage_codec passage_ok.
Proof.
  assert (G : ∀ p, passage_ok p → json_ok (enc_passage p) ∧ dec_passage (enc_passage p) = Some p); [|intros p Hp; by apply G].
  apply (passage_rec' (λ p, passage_ok p → json_ok (enc_passage p) ∧ dec_passage (enc_passage p) = Some p)).
  intros s e l IH Hp. apply passage_ok_subs in Hp as [Hk Hl].
  assert (Hs : Forall (λ x, json_ok (enc_passage x.2) ∧ dec_passage (enc_passage x.2) = Some x.2) l).
  { rewrite Forall_forall in *. intros x Hx. apply (IH x Hx), (Hl x Hx). }
  split.
  - cbn [enc_passage]. oks. apply ok_object. apply Forall_fmap. eapply Forall_impl; [exact Hs|]. by intros x [].
  - cbn [enc_passage dec_passage]. fields. rewrite !string_rt. fields. rewrite numbered_reads; [done|done|]. eapply Forall_impl; [exact Hs|]. by intros x [].
Qed.
Lemma music_asset_good : faithful music_asset_codec anything.
Proof. intros [] _; (split; [done|]); cbn [music_asset_codec enc dec]; fields; by rewrite string_rt. Qed.
Lemma track_good : faithful track_codec anything.
Proof.
  intros [i n a m d l] _. destruct (some_link l) as [L1 L2]. cbn [track_codec enc dec td_id td_track td_artist td_album td_duration td_link]. split.
  - oks; first [exact L1|by apply text_good].
  - fields. rewrite !string_rt. fields. rewrite text_rt. fields. rewrite text_rt. fields. rewrite text_rt. fields. rewrite L2. by fields.
Qed.
Lemma passages_good : faithful passages_codec (λ p, keys_ok (pd_intervals p)).
Proof.
  intros [a l] Hk. cbn [pd_intervals] in Hk. destruct (track_good a I) as [A1 A2].
  destruct (numbered_good _ _ (pair_good _ _ _ _ string_good string_good) l) as [L1 L2]; [split; [done|by apply Forall_true]|].
  cbn [passages_codec enc dec pd_asset pd_intervals]. split; [oks; [exact A1|exact L1]|]. fields. rewrite A2. fields. unfold intervals_codec. rewrite L2. by fields.
Qed.
Lemma transcription_good : faithful transcription_codec (λ t, Forall (λ p, keys_ok (pd_intervals p)) (tr_inlined t)).
Proof.
  intros [dd d l s a] Hl. cbn [tr_inlined] in Hl. destruct (list_good _ _ passages_good l Hl) as [L1 L2].
  cbn [transcription_codec enc dec tr_dependencies tr_directory tr_inlined tr_skip_singing tr_skip_advanced]. split; [oks; first [exact L1|by apply ids_good]|].
  fields. rewrite ids_rt. fields. rewrite string_rt. fields. rewrite L2. fields. rewrite !bool_rt. by fields.
Qed.
Lemma generator_good : faithful generator_codec generator_ok.
Proof.
  intros g Hg. destruct g as [i|d|a p|t]; cbn [generator_codec enc dec]; fields.
  - split; [by oks|]. by rewrite bool_rt.
  - split; [by oks|]. by rewrite bool_rt.
  - destruct (music_asset_good a I) as [A1 A2], (passage_good p Hg) as [P1 P2]. split; [oks; [exact A1|exact P1]|]. rewrite A2. fields. rewrite P2. by fields.
  - destruct (transcription_good t Hg) as [T1 T2]. split; [oks; exact T1|]. by rewrite T2.
Qed.
Section weights.
  Context (show : f32 → list ascii) (read : list ascii → option f32) (Hn : exact_numbers show read).
  Lemma course_good : faithful (course_codec show read) (λ c, course_ok c ∧ finite_weights (cd_encompassed c)).
  Proof using Hn.
    intros [i n dd ee ss d a m t u g] [Hc Hw]. cbn [cd_encompassed] in Hw. destruct (weights_good show read Hn ee Hw) as [W1 W2].
    destruct (option_good _ _ generator_good ltac:(by intros []) g) as [G1 G2]; [by destruct g|].
    destruct (option_good _ _ ids_good ltac:(by intros ?) a) as [A1 A2]; [by destruct a|].
    cbn [course_codec enc dec cd_id cd_name cd_dependencies cd_encompassed cd_superseded cd_description cd_authors cd_metadata cd_material cd_instructions cd_generator].
    split.
    - oks; first [by apply ids_good|exact W1|by apply text_good|apply metadata_ok|apply some_asset_ok|exact A1|exact G1].
    - fields. rewrite !string_rt. fields. rewrite ids_rt. fields. rewrite W2. fields. rewrite ids_rt. fields. rewrite text_rt. fields. rewrite A2. fields.
      rewrite metadata_rt. fields. rewrite some_asset_rt. fields. rewrite some_asset_rt. fields. rewrite G2. by fields.
  Qed.
End weights.

(** ** Depths *)
Lemma array_depth l n : Forall (λ x, depth x ≤ n) l → depth (JArray l) ≤ S n.
Proof. intros H. cbn. apply le_n_S, list_max_le. apply Forall_fmap. exact H. Qed.
Lemma object_depth l n : Forall (λ x, depth x.2 ≤ n) l → depth (JObject l) ≤ S n.
Proof. intros H. cbn. apply le_n_S, list_max_le. apply Forall_fmap. exact H. Qed.
Lemma object_member l k v : (k, v) ∈ l → depth v < depth (JObject l).
Proof.
  intros H. cbn. apply Nat.lt_succ_r. pose proof (proj1 (list_max_le (map (λ x, depth x.2) l) _) (le_n _)) as F. rewrite List.Forall_forall in F.
  apply F. apply in_map_iff. exists (k, v). split; [done|]. by apply elem_of_list_In.
Qed.
Lemma array_member l v : v ∈ l → depth v < depth (JArray l).
Proof.
  intros H. cbn. apply Nat.lt_succ_r. pose proof (proj1 (list_max_le (map depth l) _) (le_n _)) as F. rewrite List.Forall_forall in F.
  apply F. apply in_map_iff. exists v. split; [done|]. by apply elem_of_list_In.
Qed.
Lemma string_flat : shallow string_codec 0. Proof. by intros ?. Qed.
Lemma bool_flat : shallow bool_codec 0. Proof. by intros ?. Qed.
Lemma list_flat {A} (c : codec A) n : shallow c n → shallow (list_codec c) (S n).
Proof. intros H l. apply array_depth, Forall_fmap, Forall_true. intros x. apply H. Qed.
Lemma option_flat {A} (c : codec A) n : shallow c n → shallow (option_codec c) n.
Proof. intros H [x|]; [apply H|]. cbn. lia. Qed.
Lemma pair_flat {A B} (a : codec A) (b : codec B) n : shallow a n → shallow b n → shallow (pair_codec a b) (S n).
Proof. intros Ha Hb [x y]. apply array_depth. repeat constructor; [apply Ha|apply Hb]. Qed.
Lemma tree_flat {A} (c : codec A) n : shallow c n → shallow (tree_codec c) (S n).
Proof. intros H m. apply object_depth, Forall_fmap, Forall_true. intros x. apply H. Qed.
Lemma numbered_flat {A} (c : codec A) n : shallow c n → shallow (numbered_codec c) (S n).
Proof. intros H m. apply object_depth, Forall_fmap, Forall_true. intros x. apply H. Qed.
Lemma shallow_mono {A} (c : codec A) n m : n ≤ m → shallow c n → shallow c m.
Proof. intros H Hc x. specialize (Hc x). lia. Qed.
Lemma ids_flat : shallow ids_codec 1. Proof. apply list_flat, string_flat. Qed.
Lemma text_flat : shallow text_codec 0. Proof. apply option_flat, string_flat. Qed.
Lemma link_flat : shallow link_codec 1. Proof. intros u. cbn. lia. Qed.
Lemma asset_flat : shallow asset_codec 2. Proof. intros []; cbn; lia. Qed.
(** Every entry of an object is below a bound. *)
Ltac entries := apply object_depth; repeat (apply Forall_cons_2; [cbn [snd]|]); [..|apply Forall_nil_2].
Lemma preferences_flat : shallow preferences_codec 4.
Proof.
  assert (Hi : shallow instrument_codec 1) by (intros []; cbn; lia).
  assert (Ht : shallow transcription_preferences_codec 3).
  { intros [l d a]. cbn [transcription_preferences_codec enc tp_instruments tp_download tp_alias]. entries.
    - apply (list_flat _ _ Hi). - pose proof (text_flat d). lia. - pose proof (text_flat a). lia. }
  assert (Hs : shallow scheduler_preferences_codec 1) by (intros []; cbn; lia).
  intros [t s i]. cbn [preferences_codec enc up_transcription up_scheduler up_ignored]. entries.
  - apply (option_flat _ _ Ht).
  - pose proof (option_flat _ _ Hs s). lia.
  - pose proof (ids_flat i). lia.
Qed.
Lemma answers_flat : shallow answers_codec 2. Proof. apply list_flat, pair_flat; [apply string_flat|apply text_flat]. Qed.
Lemma exercise_flat : shallow exercise_codec 5.
Proof.
  assert (Ha : shallow exercise_asset_codec 4).
  { intros [a|f b|f b|d e x|l d b|t l]; cbn [exercise_asset_codec enc]; unfold tagged; entries.
    - pose proof (asset_flat a). lia.
    - entries; [cbn; lia|pose proof (text_flat b); lia].
    - entries; [cbn; lia|pose proof (text_flat b); lia].
    - entries; [destruct d; cbn; lia|apply answers_flat|apply answers_flat].
    - entries; [cbn; lia|pose proof (text_flat d); lia|pose proof (text_flat b); lia].
    - entries; [cbn; lia|pose proof (option_flat _ _ link_flat l); lia]. }
  intros [i l c n d t a]. cbn [exercise_codec enc ed_id ed_lesson_id ed_course_id ed_name ed_description ed_procedural ed_asset].
  entries; first [apply Ha|pose proof (text_flat d); lia|cbn; lia|destruct t; cbn; lia].
Qed.
Lemma metadata_flat : shallow metadata_codec 2. Proof. apply option_flat, tree_flat, ids_flat. Qed.
Lemma weights_flat show read : shallow (weights_codec show read) 2.
Proof. apply list_flat, pair_flat; [apply string_flat|]. intros x. cbn. destruct (is_finite x); cbn; lia. Qed.
Lemma lesson_flat show read : shallow (lesson_codec show read) 3.
Proof.
  intros [i dd ee ss c n d m t u]. cbn [lesson_codec enc ld_id ld_dependencies ld_encompassed ld_superseded ld_course_id ld_name ld_description ld_metadata ld_material ld_instructions].
  pose proof (ids_flat dd). pose proof (ids_flat ss). pose proof (weights_flat show read ee). pose proof (text_flat d). pose proof (metadata_flat m).
  pose proof (option_flat _ _ asset_flat t). pose proof (option_flat _ _ asset_flat u). entries; first [lia|cbn; lia].
Qed.
Lemma passages_flat : shallow passages_codec 4.
Proof.
  assert (Ht : shallow track_codec 3).
  { intros [i n a m d l]. cbn [track_codec enc td_id td_track td_artist td_album td_duration td_link]. unfold tagged.
    pose proof (text_flat a). pose proof (text_flat m). pose proof (text_flat d). pose proof (option_flat _ _ link_flat l). entries. entries; first [lia|cbn; lia]. }
  intros [a l]. cbn [passages_codec enc pd_asset pd_intervals]. entries; [apply Ht|].
  pose proof (numbered_flat _ _ (pair_flat _ _ _ string_flat string_flat) l) as H. unfold intervals_codec. lia.
Qed.
Lemma transcription_flat : shallow transcription_codec 6.
Proof.
  intros [dd d l s a]. cbn [transcription_codec enc tr_dependencies tr_directory tr_inlined tr_skip_singing tr_skip_advanced].
  pose proof (ids_flat dd). pose proof (list_flat _ _ passages_flat l). entries; first [lia|cbn; lia].
Qed.
Lemma list_max_map {A} (f g : A → nat) l : Forall (λ x, f x = 2 * g x) l → list_max (map f l) = 2 * list_max (map g l).
Proof. induction 1 as [|x l H _ IH]; cbn; [lia|]. fold (list_max (map f l)) (list_max (map g l)). rewrite H, IH. lia. Qed.
Lemma passage_depth p : depth (enc_passage p) = 2 * passage_levels p.
Proof.
  revert p. apply passage_rec'. intros s e l IH. cbn [enc_passage depth map list_max fold_right snd Nat.max passage_levels].
  rewrite map_map. cbn [snd]. rewrite (list_max_map _ (λ x, passage_levels x.2)) by exact IH. lia.
Qed.
Lemma course_depth show read c : (depth (enc (course_codec show read) c) <? 128)%nat = (course_levels c <=? 62)%nat.
Proof.
  destruct c as [i n dd ee ss d a m t u g]. unfold course_levels. cbn [cd_generator].
  assert (Hd : ∀ x, depth (enc (option_codec generator_codec) g) ≤ x → 5 ≤ x → depth (enc (course_codec show read) (CourseData i n dd ee ss d a m t u g)) ≤ S x).
  { intros x Hx H5. cbn [course_codec enc cd_id cd_name cd_dependencies cd_encompassed cd_superseded cd_description cd_authors cd_metadata cd_material cd_instructions cd_generator].
    pose proof (ids_flat dd). pose proof (ids_flat ss). pose proof (weights_flat show read ee). pose proof (text_flat d). pose proof (metadata_flat m).
    pose proof (option_flat _ _ asset_flat t). pose proof (option_flat _ _ asset_flat u). pose proof (option_flat _ _ ids_flat a). entries; first [lia|cbn; lia]. }
  assert (Hm : depth (enc (option_codec generator_codec) g) < depth (enc (course_codec show read) (CourseData i n dd ee ss d a m t u g))).
  { apply (object_member _ "generator_config"). cbn [cd_generator]. do 10 right. left. }
  assert (Hs : ∀ x, depth (enc (option_codec generator_codec) g) ≤ x → x ≤ 126 → (depth (enc (course_codec show read) (CourseData i n dd ee ss d a m t u g)) <? 128)%nat = true).
  { intros x Hx H. apply Nat.ltb_lt. specialize (Hd (5 `max` x) ltac:(lia) ltac:(lia)). lia. }
  destruct g as [[x|x|ma p|tr]|]; try (apply (Hs 3); cbn; lia).
  - assert (E : depth (enc (option_codec generator_codec) (Some (GMusicPiece ma p))) = 2 + 2 * passage_levels p).
    { cbn [option_codec enc generator_codec tagged depth map list_max fold_right snd passage_codec]. rewrite passage_depth.
      assert (depth (enc music_asset_codec ma) = 1) as -> by (by destruct ma). destruct p. cbn [passage_levels]. lia. }
    rewrite E in *. apply eq_true_iff_eq. rewrite Nat.ltb_lt, Nat.leb_le. split; intros H; [lia|]. specialize (Hd (5 `max` (2 + 2 * passage_levels p)) ltac:(lia) ltac:(lia)). lia.
  - apply (Hs 7); [|lia]. cbn [option_codec enc generator_codec]. unfold tagged. entries. apply transcription_flat.
Qed.
Lemma kv_depth f : 3 * kv_levels f ≤ depth (enc_kv f) ≤ 3 * kv_levels f + 2.
Proof.
  revert f. apply kv_rec'; [intros k v []; cbn; lia..|]. intros o fs IH.
  assert (E : depth (enc_kv (KCombined o fs)) = 3 + list_max (map depth (map enc_kv fs))).
  { cbn [enc_kv tagged depth map list_max fold_right snd]. assert (depth (enc op_codec o) = 0) as -> by (by destruct o). lia. }
  rewrite E. cbn [kv_levels]. rewrite map_map. clear E. induction IH as [|f fs H _ IH]; cbn; [lia|].
  fold (list_max (map (λ x, depth (enc_kv x)) fs)) (list_max (map kv_levels fs)). lia.
Qed.
Lemma filter_depth f : depth (enc unit_filter_codec f) ≤ 3 * filter_levels f + 4 ∧ (filter_levels f ≠ 0 → 3 * filter_levels f + 2 ≤ depth (enc unit_filter_codec f)).
Proof.
  destruct f as [l|l|f| |l|l n]; cbn [unit_filter_codec enc filter_levels].
  all: split; [|try lia].
  - pose proof (ids_flat l). unfold tagged. etrans; [|instantiate (1 := 3); lia]. entries. entries. lia.
  - pose proof (ids_flat l). unfold tagged. etrans; [|instantiate (1 := 3); lia]. entries. entries. lia.
  - pose proof (kv_depth f) as H. cbn [kv_codec enc tagged depth map list_max fold_right snd]. lia.
  - intros _. pose proof (kv_depth f) as H. cbn [kv_codec enc tagged depth map list_max fold_right snd]. lia.
  - cbn. lia.
  - pose proof (ids_flat l). unfold tagged. etrans; [|instantiate (1 := 3); lia]. entries. entries. lia.
  - pose proof (ids_flat l). unfold tagged. etrans; [|instantiate (1 := 3); lia]. entries. entries; [lia|cbn; lia].
Qed.
Lemma saved_depth f : depth (enc saved_codec f) = S (depth (enc unit_filter_codec (sf_filter f))).
Proof. cbn [saved_codec enc depth map list_max fold_right snd]. lia. Qed.
Lemma part_depth p : depth (enc part_codec p) ≤ 3 * part_levels p + 6 ∧ (part_levels p ≠ 0 → 3 * part_levels p + 4 ≤ depth (enc part_codec p)).
Proof.
  destruct p as [f d|f d|d]; cbn [part_levels]; [|cbn; lia..]. pose proof (filter_depth f) as H.
  cbn [part_codec enc tagged depth map list_max fold_right snd]. lia.
Qed.
Lemma max_bounds {A} (f g : A → nat) l : (∀ x, f x ≤ 3 * g x + 6 ∧ (g x ≠ 0 → 3 * g x + 4 ≤ f x)) →
  list_max (map f l) ≤ 3 * list_max (map g l) + 6 ∧ (list_max (map g l) ≠ 0 → 3 * list_max (map g l) + 4 ≤ list_max (map f l)).
Proof.
  intros H. induction l as [|x l IH]; [cbn; lia|]. change (list_max (map f (x :: l))) with (f x `max` list_max (map f l)).
  change (list_max (map g (x :: l))) with (g x `max` list_max (map g l)). specialize (H x). lia.
Qed.
Lemma session_depth s : depth (enc session_codec s) ≤ 3 * session_levels s + 8 ∧ (session_levels s ≠ 0 → 3 * session_levels s + 6 ≤ depth (enc session_codec s)).
Proof.
  pose proof (max_bounds (λ x, depth (enc part_codec x)) part_levels (ss_parts s) part_depth) as H. unfold session_levels.
  assert (E : depth (enc session_codec s) = 2 + list_max (map (λ x, depth (enc part_codec x)) (ss_parts s))).
  { cbn [session_codec list_codec enc depth map list_max fold_right snd]. rewrite map_map. lia. }
  rewrite E. lia.
Qed.
