(** What is read from the files that were saved, cut off or written by hand. *)
From stdpp Require Import gmap strings list.
From Coq Require Import ZArith Ascii.
From Flocq Require Import IEEE754.BinarySingleNaN.
From Verif Require Import F32 Graph Library Filters StrFacts FileSystem FileSpec ConfigProofs SavedProofs Json JsonSpec JsonProofs JsonCut Serde SerdeSpec SerdeProofs SerdeMore.
Local Open Scope string_scope.
Local Open Scope list_scope.

(** * Saved files *)

Lemma read_again {A} (c : codec A) ok n p x trail : faithful c ok → shallow c n → n < 128 → ok x → blank trail → load c (save c p x +:+ trail) = Some x.
Proof. intros Hf Hs Hn Hx Ht. rewrite (load_saved _ _ _ _ _ Hf Hx Ht). specialize (Hs x). by rewrite (proj2 (Nat.ltb_lt _ _)) by lia. Qed.
Lemma preferences_again p x trail : preferences_ok x → blank trail → load preferences_codec (save preferences_codec p x +:+ trail) = Some x.
Proof. apply (read_again _ _ _ _ _ _ preferences_good preferences_flat). lia. Qed.
Lemma exercise_again p x trail : blank trail → load exercise_codec (save exercise_codec p x +:+ trail) = Some x.
Proof. apply (read_again _ _ _ _ _ _ exercise_good exercise_flat); [lia|done]. Qed.
Lemma passages_again p x trail : keys_ok (pd_intervals x) → blank trail → load passages_codec (save passages_codec p x +:+ trail) = Some x.
Proof. apply (read_again _ _ _ _ _ _ passages_good passages_flat). lia. Qed.
Lemma lesson_again show read p x trail : exact_numbers show read → finite_weights (ld_encompassed x) → blank trail →
  load (lesson_codec show read) (save (lesson_codec show read) p x +:+ trail) = Some x.
Proof. intros Hn. apply (read_again _ _ _ _ _ _ (lesson_good _ _ Hn) (lesson_flat _ _)). lia. Qed.
Lemma course_again show read p x trail : exact_numbers show read → course_ok x → finite_weights (cd_encompassed x) → blank trail →
  load (course_codec show read) (save (course_codec show read) p x +:+ trail) = if (course_levels x <=? 62)%nat then Some x else None.
Proof. intros Hn Hx Hw Ht. rewrite (load_saved _ _ _ _ _ (course_good _ _ Hn) (conj Hx Hw) Ht). by rewrite course_depth. Qed.
Lemma saved_again p x trail : unit_filter_ok (sf_filter x) → blank trail →
  (filter_levels (sf_filter x) ≤ 40 → load saved_codec (save saved_codec p x +:+ trail) = Some x) ∧
  (42 ≤ filter_levels (sf_filter x) → load saved_codec (save saved_codec p x +:+ trail) = None).
Proof.
  intros Hx Ht. rewrite (load_saved _ _ _ _ _ saved_good Hx Ht). pose proof (filter_depth (sf_filter x)) as [H1 H2]. pose proof (saved_depth x) as H3. split; intros H.
  - by rewrite (proj2 (Nat.ltb_lt _ _)) by lia.
  - by rewrite (proj2 (Nat.ltb_ge _ _)) by lia.
Qed.
Lemma session_again p x trail : session_ok x → blank trail →
  (session_levels x ≤ 39 → load session_codec (save session_codec p x +:+ trail) = Some x) ∧
  (41 ≤ session_levels x → load session_codec (save session_codec p x +:+ trail) = None).
Proof.
  intros Hx Ht. rewrite (load_saved _ _ _ _ _ session_good Hx Ht). pose proof (session_depth x) as [H1 H2]. split; intros H.
  - by rewrite (proj2 (Nat.ltb_lt _ _)) by lia.
  - by rewrite (proj2 (Nat.ltb_ge _ _)) by lia.
Qed.

(** Weights that are not numbers. *)
Lemma weights_lost show read l : ¬ finite_weights l → dec (weights_codec show read) (enc (weights_codec show read) l) = None.
Proof.
  intros H. unfold weights_codec. cbn [list_codec enc dec]. set (c := pair_codec string_codec (f32_codec show read)).
  induction l as [|[u w] l IH]; [destruct H; constructor|]. cbn [map traverse]. destruct (dec c (enc c (u, w))) as [x|] eqn:E; [|done].
  rewrite IH; [done|]. intros Hl. apply H. constructor; [|done]. cbn. subst c. cbn in E. by destruct (is_finite w).
Qed.
Lemma weights_json show read l : exact_numbers show read → json_ok (enc (weights_codec show read) l).
Proof.
  intros Hn. apply ok_array, Forall_fmap, Forall_true. intros [u w]. cbn. split; [done|]. split; [|done]. destruct (is_finite w) eqn:E; [|done]. by apply Hn.
Qed.
Lemma bad_text {A} (c : codec A) p x trail : json_ok (enc c x) → dec c (enc c x) = None → blank trail → load c (save c p x +:+ trail) = None.
Proof. intros Hj Hd Ht. unfold load, save. rewrite text_round_trip by done. by destruct (_ <? _)%nat. Qed.
Lemma lesson_bad show read p x trail : exact_numbers show read → ¬ finite_weights (ld_encompassed x) → blank trail →
  load (lesson_codec show read) (save (lesson_codec show read) p x +:+ trail) = None.
Proof.
  intros Hn Hw. destruct x as [i dd ee ss c n d m t u]. cbn [ld_encompassed] in Hw. apply (weights_lost show read) in Hw. apply bad_text.
  - cbn [lesson_codec enc json_ok snd ld_id ld_dependencies ld_encompassed ld_superseded ld_course_id ld_name ld_description ld_metadata ld_material ld_instructions].
    repeat split; first [by apply ids_good|by apply weights_json|by apply text_good|apply metadata_ok|apply some_asset_ok].
  - cbn [lesson_codec enc dec ld_id ld_dependencies ld_encompassed ld_superseded ld_course_id ld_name ld_description ld_metadata ld_material ld_instructions]. fields.
    rewrite !string_rt. fields. rewrite !ids_rt. fields. rewrite Hw. reflexivity.
Qed.
Lemma course_bad show read p x trail : exact_numbers show read → course_ok x → ¬ finite_weights (cd_encompassed x) → blank trail →
  load (course_codec show read) (save (course_codec show read) p x +:+ trail) = None.
Proof.
  intros Hn Hc Hw. destruct x as [i n dd ee ss d a m t u g]. cbn [cd_encompassed] in Hw. apply (weights_lost show read) in Hw.
  destruct (option_good _ _ generator_good ltac:(by intros []) g) as [G1 G2]; [by destruct g|].
  destruct (option_good _ _ ids_good ltac:(by intros ?) a) as [A1 A2]; [by destruct a|]. apply bad_text.
  - cbn [course_codec enc dec cd_id cd_name cd_dependencies cd_encompassed cd_superseded cd_description cd_authors cd_metadata cd_material cd_instructions cd_generator].
    oks; first [by apply ids_good|by apply weights_json|by apply text_good|apply metadata_ok|apply some_asset_ok|exact A1|exact G1].
  - cbn [course_codec enc dec cd_id cd_name cd_dependencies cd_encompassed cd_superseded cd_description cd_authors cd_metadata cd_material cd_instructions cd_generator].
    fields. rewrite !string_rt. fields. rewrite !ids_rt. fields. rewrite Hw. reflexivity.
Qed.

(** * Files that were cut off *)

Theorem cut_file {A} (c : codec A) ok l p x s trail : faithful c ok → ok x → enc c x = JObject l → blank trail → starts s (save c p x +:+ trail) →
  load c s = None ∨ load c s = Some x ∧ ∃ rest, blank rest ∧ s +:+ rest = save c p x +:+ trail.
Proof.
  intros Hf Hx El Ht [u E]. destruct (Hf x Hx) as [Hj Hd]. unfold save in E. rewrite El in *. unfold load.
  destruct (cut_text p l s u trail Hj Ht E) as [->|[-> Hu]]; [by left|]. right. split; [done|]. exists u. split; [done|]. unfold save. by rewrite El.
Qed.

Lemma cut_good {A} (c : codec A) ok p x : faithful c ok → ok x → (∀ x, ∃ l, enc c x = JObject l) → never_mistaken c p x.
Proof. intros Hf Hx Ho s trail Ht Hs. destruct (Ho x) as (l & E). destruct (cut_file c ok l p x s trail Hf Hx E Ht Hs) as [H|[H _]]; auto. Qed.
Ltac an_object := intros []; by eexists.
Lemma preferences_cut p x : preferences_ok x → never_mistaken preferences_codec p x.
Proof. intros Hx. apply (cut_good _ _ _ _ preferences_good Hx). an_object. Qed.
Lemma exercise_cut p x : never_mistaken exercise_codec p x.
Proof. apply (cut_good _ _ _ _ exercise_good I). an_object. Qed.
Lemma saved_cut p x : unit_filter_ok (sf_filter x) → never_mistaken saved_codec p x.
Proof. intros Hx. apply (cut_good _ _ _ _ saved_good Hx). an_object. Qed.
Lemma session_cut p x : session_ok x → never_mistaken session_codec p x.
Proof. intros Hx. apply (cut_good _ _ _ _ session_good Hx). an_object. Qed.
Lemma passages_cut p x : keys_ok (pd_intervals x) → never_mistaken passages_codec p x.
Proof. intros Hx. apply (cut_good _ _ _ _ passages_good Hx). an_object. Qed.
Lemma cut_bad {A} (c : codec A) p x l : enc c x = JObject l → json_ok (enc c x) → dec c (enc c x) = None → never_mistaken c p x.
Proof.
  intros E Hj Hd s trail Ht [u Eu]. left. unfold load, save in *. rewrite E in *. destruct (cut_text p l s u trail Hj Ht Eu) as [->|[-> _]]; done.
Qed.
Lemma lesson_cut show read p x : exact_numbers show read → finite_weights (ld_encompassed x) → never_mistaken (lesson_codec show read) p x.
Proof. intros Hn Hx. apply (cut_good _ _ _ _ (lesson_good _ _ Hn) Hx). an_object. Qed.
Lemma course_cut show read p x : exact_numbers show read → course_ok x → finite_weights (cd_encompassed x) → never_mistaken (course_codec show read) p x.
Proof. intros Hn Hx Hw. apply (cut_good _ _ _ _ (course_good _ _ Hn) (conj Hx Hw)). an_object. Qed.
Lemma starts_trail s t : starts s t → starts s (t +:+ "").
Proof. intros [u <-]. exists u. by rewrite sapp_nil. Qed.
(** The preferences are set, and this may be interrupted. *)
Lemma preferences_torn p x n f : preferences_ok x →
  let get := get_preferences (load preferences_codec) p in let g := final (set_preferences (save preferences_codec true) p x n f) in
  get g = get f ∨ get g = Some x ∨ get g = None.
Proof.
  intros Hx. cbv zeta. destruct (preferences_frame (save preferences_codec true) p x n f) as [_ [H|(s & Hs & H)]]; unfold get_preferences, read_file; rewrite H; [by left|].
  right. cbn [mbind option_bind]. destruct (preferences_cut true x Hx s "" eq_refl (starts_trail _ _ Hs)); auto.
Qed.
Lemma preferences_kept p x n f a n' f' : preferences_ok x → set_preferences (save preferences_codec true) p x n f = Over a n' f' →
  get_preferences (load preferences_codec) p f' = Some x ∧ ∀ q, q ≠ p → f' !! q = f !! q.
Proof.
  intros Hx. apply preferences_set. pose proof (preferences_again true x "" Hx eq_refl) as H. by rewrite sapp_nil in H.
Qed.
(** A new library with the text that trane writes. *)
Lemma default_reads : load preferences_codec default_text = Some default_preferences ∧
  ∀ s, starts s default_text → load preferences_codec s = Some default_preferences ∨ load preferences_codec s = None.
Proof.
  split; [by apply preferences_again|]. intros s Hs. destruct (preferences_cut true default_preferences I s (String "010" "") eq_refl Hs); auto.
Qed.
Lemma default_crash root n f : config_free root f → f !! preferences_path root = None →
  let g := final (init_config root default_text n f) in let reopen := open_config (load preferences_codec) root default_text in
  reopen None g = reopen None f ∨
  ∃ s, starts s default_text ∧ s ≠ default_text ∧ g !! preferences_path root = Some (File s) ∧
    ((load preferences_codec s = Some default_preferences ∧ ∀ m, reopen m g = Over default_preferences m g) ∨ (load preferences_codec s = None ∧ ∀ m, reopen m g = Fails g)).
Proof. intros Hf Hp. apply config_crash; [done|done|apply default_reads..]. Qed.

(** * Files written by hand *)

Lemma found_elem {A} k v (l : list (string * A)) : v ∈ found k l ↔ (k, v) ∈ l.
Proof.
  induction l as [|[k' a] l IH]; cbn; [by rewrite !elem_of_nil|]. destruct (String.eqb_spec k' k) as [->|Hn]; rewrite !elem_of_cons, IH.
  - split; intros [H|H]; auto. left; congruence. left; congruence.
  - split; [auto|]. intros [H|H]; [congruence|done].
Qed.
Lemma found_named {A} (d : json → A) k l : found k (named d l) = map d (found k l).
Proof. induction l as [|[k' a] l IH]; cbn; [done|]. destruct (String.eqb k' k); cbn; by rewrite IH. Qed.
Lemma found_none {A} k (l : list (string * A)) : k ∉ l.*1 → found k l = [].
Proof.
  intros H. destruct (found k l) as [|v r] eqn:E; [done|]. destruct H. apply elem_of_list_fmap. exists (k, v). split; [done|].
  apply found_elem. rewrite E. left.
Qed.
Lemma found_one {A} k v (l : list (string * A)) : NoDup l.*1 → (k, v) ∈ l → found k l = [v].
Proof.
  induction l as [|[k' a] l IH]; [by rewrite elem_of_nil|]. cbn. rewrite NoDup_cons, elem_of_cons. intros [H1 H2] [[= -> ->]|H].
  - rewrite (proj2 (String.eqb_eq _ _)) by done. by rewrite found_none.
  - destruct (String.eqb_spec k' k) as [->|Hn]; [|by apply IH]. destruct H1. apply elem_of_list_fmap. by exists (k, v).
Qed.
Lemma same_field {A} defaults written given names k (d : json → option A) absent : by_hand defaults written given → NoDup written.*1 → k ∈ written.*1 →
  match found k defaults with [] => True | [v] => d v = absent | _ => False end →
  field names k d absent (JObject given) = field names k d absent (JObject written).
Proof.
  intros [Hg Hh] Hw Hk Hd. cbn [field]. unfold pick. rewrite !found_named. apply elem_of_list_fmap in Hk as ([k' v] & -> & Hk). cbn [fst] in *.
  rewrite (found_one _ _ _ Hw Hk). cbn [map]. destruct (Hh _ _ Hk) as [H|[H H']]; [by rewrite (found_one _ _ _ Hg H)|]. rewrite found_none by done. cbn [map].
  apply found_elem in H'. destruct (found k' defaults) as [|v' [|]]; [by apply elem_of_nil in H'| |done]. apply elem_of_list_singleton in H' as ->. done.
Qed.
Lemma missing_field {A} names k (d : json → option A) given : k ∉ given.*1 → field names k d None (JObject given) = None.
Proof. intros H. cbn [field]. unfold pick. by rewrite found_named, found_none. Qed.
Lemma repeated_field {A} names k (d : json → option A) absent l1 l2 l3 v w : field names k d absent (JObject (l1 ++ (k, v) :: l2 ++ (k, w) :: l3)) = None.
Proof.
  cbn [field]. unfold pick. rewrite found_named.
  assert (Ha : ∀ l l' : list (string * json), found k (l ++ l') = found k l ++ found k l').
  { intros l l'. induction l as [|[k' a] l IH]; cbn; [done|]. destruct (String.eqb k' k); cbn; by rewrite IH. }
  rewrite Ha. cbn [found]. rewrite String.eqb_refl, Ha. cbn [found]. rewrite String.eqb_refl.
  destruct (found k l1) as [|a [|]], (found k l2); done.
Qed.
Lemma keys_nodup (l : list string) : bool_decide (NoDup l) = true → NoDup l.
Proof. apply bool_decide_eq_true_1. Qed.
Ltac same Hw Hh :=
  repeat match goal with
  | |- context [field ?n ?k ?d ?a (JObject ?g)] =>
      rewrite (same_field _ _ g n k d a Hh); [|rewrite Hw; by apply keys_nodup|rewrite Hw; by apply (bool_decide_eq_true_1 _)|reflexivity]
  end; reflexivity.
(** Reading [given] is reading [written]. *)
Section hand.
  Context (written given : list (string * json)).
  Lemma hand_exercise : written.*1 = exercise_names → by_hand exercise_defaults written given → dec exercise_codec (JObject given) = dec exercise_codec (JObject written).
  Proof. intros Hw Hh. unfold exercise_codec. cbn [dec]. same Hw Hh. Qed.
  Lemma hand_preferences : written.*1 = preferences_names → by_hand preferences_defaults written given → dec preferences_codec (JObject given) = dec preferences_codec (JObject written).
  Proof. intros Hw Hh. unfold preferences_codec. cbn [dec]. same Hw Hh. Qed.
  Lemma hand_session : written.*1 = session_names → by_hand session_defaults written given → dec session_codec (JObject given) = dec session_codec (JObject written).
  Proof. intros Hw Hh. unfold session_codec. cbn [dec]. same Hw Hh. Qed.
  Lemma hand_lesson show read : written.*1 = lesson_names → by_hand lesson_defaults written given →
    dec (lesson_codec show read) (JObject given) = dec (lesson_codec show read) (JObject written).
  Proof. intros Hw Hh. unfold lesson_codec. cbn [dec]. same Hw Hh. Qed.
  Lemma hand_course show read : written.*1 = course_names → by_hand course_defaults written given →
    dec (course_codec show read) (JObject given) = dec (course_codec show read) (JObject written).
  Proof. intros Hw Hh. unfold course_codec. cbn [dec]. same Hw Hh. Qed.
End hand.
Lemma by_hand_read {A} (c : codec A) ok text x defaults written given : faithful c ok → ok x → of_text text = Value (JObject given) → enc c x = JObject written →
  (by_hand defaults written given → dec c (JObject given) = dec c (JObject written)) → by_hand defaults written given → load c text = Some x.
Proof. intros Hf Hx Et Ew Hs Hh. unfold load. rewrite Et, (Hs Hh), <- Ew. by apply Hf. Qed.
Lemma hand_names {A} (c : codec A) names : (∀ x, ∃ l, enc c x = JObject l ∧ l.*1 = names) → ∀ x l, enc c x = JObject l → l.*1 = names.
Proof. intros H x l E. destruct (H x) as (l' & E' & <-). congruence. Qed.
Lemma exercise_by_hand text x written given : of_text text = Value (JObject given) → enc exercise_codec x = JObject written →
  by_hand exercise_defaults written given → load exercise_codec text = Some x.
Proof.
  intros Et Ew. apply (by_hand_read _ _ _ _ _ _ _ exercise_good I Et Ew), hand_exercise. eapply hand_names; [|exact Ew]. intros []. by eexists.
Qed.
Lemma preferences_by_hand text x written given : preferences_ok x → of_text text = Value (JObject given) → enc preferences_codec x = JObject written →
  by_hand preferences_defaults written given → load preferences_codec text = Some x.
Proof.
  intros Hx Et Ew. apply (by_hand_read _ _ _ _ _ _ _ preferences_good Hx Et Ew), hand_preferences. eapply hand_names; [|exact Ew]. intros []. by eexists.
Qed.
Lemma session_by_hand text x written given : session_ok x → of_text text = Value (JObject given) → enc session_codec x = JObject written →
  by_hand session_defaults written given → load session_codec text = Some x.
Proof.
  intros Hx Et Ew. apply (by_hand_read _ _ _ _ _ _ _ session_good Hx Et Ew), hand_session. eapply hand_names; [|exact Ew]. intros []. by eexists.
Qed.
Lemma lesson_by_hand show read text x written given : exact_numbers show read → finite_weights (ld_encompassed x) → of_text text = Value (JObject given) →
  enc (lesson_codec show read) x = JObject written → by_hand lesson_defaults written given → load (lesson_codec show read) text = Some x.
Proof.
  intros Hn Hx Et Ew. apply (by_hand_read _ _ _ _ _ _ _ (lesson_good _ _ Hn) Hx Et Ew), hand_lesson. eapply hand_names; [|exact Ew]. intros []. by eexists.
Qed.
Lemma course_by_hand show read text x written given : exact_numbers show read → course_ok x ∧ finite_weights (cd_encompassed x) → of_text text = Value (JObject given) →
  enc (course_codec show read) x = JObject written → by_hand course_defaults written given → load (course_codec show read) text = Some x.
Proof.
  intros Hn Hx Et Ew. apply (by_hand_read _ _ _ _ _ _ _ (course_good _ _ Hn) Hx Et Ew), hand_course. eapply hand_names; [|exact Ew]. intros []. by eexists.
Qed.

(** Needed fields and fields given twice. *)
Ltac stuck :=
  repeat match goal with
  | |- mbind _ None = None => reflexivity
  | |- mbind _ (field ?n ?k ?d None (JObject ?g)) = None => rewrite (missing_field n k d g) by done; reflexivity
  | |- mbind _ (field ?n ?k ?d ?a (JObject _)) = None => rewrite (repeated_field n k d a); reflexivity
  | |- mbind _ ?o = None => destruct o; cbn [mbind option_bind]; [|reflexivity]
  end.
Ltac cases H := repeat (apply elem_of_cons in H as [->|H]); [..|by apply elem_of_nil in H].
Lemma exercise_missing text given k : of_text text = Value (JObject given) → k ∈ exercise_needed → k ∉ given.*1 → load exercise_codec text = None.
Proof. intros Et Hk Hg. unfold load. rewrite Et. unfold exercise_codec. cbn [dec]. cases Hk; stuck. Qed.
Lemma session_missing text given k : of_text text = Value (JObject given) → k ∈ session_needed → k ∉ given.*1 → load session_codec text = None.
Proof. intros Et Hk Hg. unfold load. rewrite Et. unfold session_codec. cbn [dec]. cases Hk; stuck. Qed.
Lemma saved_missing text given k : of_text text = Value (JObject given) → k ∈ saved_needed → k ∉ given.*1 → load saved_codec text = None.
Proof. intros Et Hk Hg. unfold load. rewrite Et. unfold saved_codec. cbn [dec]. cases Hk; stuck. Qed.
Lemma lesson_missing show read text given k : of_text text = Value (JObject given) → k ∈ lesson_needed → k ∉ given.*1 → load (lesson_codec show read) text = None.
Proof. intros Et Hk Hg. unfold load. rewrite Et. unfold lesson_codec. cbn [dec]. cases Hk; stuck. Qed.
Lemma course_missing show read text given k : of_text text = Value (JObject given) → k ∈ course_needed → k ∉ given.*1 → load (course_codec show read) text = None.
Proof. intros Et Hk Hg. unfold load. rewrite Et. unfold course_codec. cbn [dec]. cases Hk; stuck. Qed.
Lemma exercise_twice text k l1 v l2 w l3 : of_text text = Value (JObject (l1 ++ (k, v) :: l2 ++ (k, w) :: l3)) → k ∈ exercise_names → load exercise_codec text = None.
Proof. intros Et Hk. unfold load. rewrite Et. unfold exercise_codec. cbn [dec]. cases Hk; stuck. Qed.
Lemma preferences_twice text k l1 v l2 w l3 : of_text text = Value (JObject (l1 ++ (k, v) :: l2 ++ (k, w) :: l3)) → k ∈ preferences_names → load preferences_codec text = None.
Proof. intros Et Hk. unfold load. rewrite Et. unfold preferences_codec. cbn [dec]. cases Hk; stuck. Qed.
Lemma session_twice text k l1 v l2 w l3 : of_text text = Value (JObject (l1 ++ (k, v) :: l2 ++ (k, w) :: l3)) → k ∈ session_names → load session_codec text = None.
Proof. intros Et Hk. unfold load. rewrite Et. unfold session_codec. cbn [dec]. cases Hk; stuck. Qed.
Lemma saved_twice text k l1 v l2 w l3 : of_text text = Value (JObject (l1 ++ (k, v) :: l2 ++ (k, w) :: l3)) → k ∈ saved_names → load saved_codec text = None.
Proof. intros Et Hk. unfold load. rewrite Et. unfold saved_codec. cbn [dec]. cases Hk; stuck. Qed.
Lemma lesson_twice show read text k l1 v l2 w l3 : of_text text = Value (JObject (l1 ++ (k, v) :: l2 ++ (k, w) :: l3)) → k ∈ lesson_names → load (lesson_codec show read) text = None.
Proof. intros Et Hk. unfold load. rewrite Et. unfold lesson_codec. cbn [dec]. cases Hk; stuck. Qed.
Lemma course_twice show read text k l1 v l2 w l3 : of_text text = Value (JObject (l1 ++ (k, v) :: l2 ++ (k, w) :: l3)) → k ∈ course_names → load (course_codec show read) text = None.
Proof. intros Et Hk. unfold load. rewrite Et. unfold course_codec. cbn [dec]. cases Hk; stuck. Qed.

(** * Directories of saved filters and sessions *)

Lemma directory_opens {A} (id : A → string) (load : string → option A) (text : A → string) items : Forall (λ x, load (text x) = Some x) items → NoDup (id <$> items) →
  ∃ m, open_saved id (load <$> (text <$> items)) = Some m ∧ ∀ x, x ∈ items → get_saved m (id x) = Some x.
Proof.
  intros Hl Hn. assert (load <$> (text <$> items) = Some <$> items) as ->.
  { clear Hn. induction Hl as [|x l Hx _ IH]; cbn; [done|]. rewrite Hx. f_equal. apply IH. }
  destruct (proj2 (saved_opens id (Some <$> items))) as [m Hm]; [by exists items|]. exists m. split; [done|]. intros x Hx. by apply (saved_get id items m Hm).
Qed.
Lemma directory_locked {A} (id : A → string) (load : string → option A) (text : A → string) items x : x ∈ items → load (text x) = None →
  open_saved id (load <$> (text <$> items)) = None.
Proof.
  intros Hx Hl. destruct (open_saved _ _) as [m|] eqn:E; [|done]. destruct (proj1 (saved_opens id (load <$> (text <$> items)))) as (l & E' & _); [by eexists|].
  assert (None ∈ load <$> (text <$> items)) as H. { rewrite <- Hl. by apply elem_of_list_fmap_1, elem_of_list_fmap_1. }
  rewrite E' in H. apply elem_of_list_fmap in H as (? & ? & _). done.
Qed.
Lemma no_trail {A} (c : codec A) p x r : (∀ trail, blank trail → load c (save c p x +:+ trail) = r) → load c (save c p x) = r.
Proof. intros H. specialize (H "" eq_refl). by rewrite sapp_nil in H. Qed.
Lemma filters_open p items : Forall (λ f, unit_filter_ok (sf_filter f) ∧ filter_levels (sf_filter f) ≤ 40) items → NoDup (sf_id <$> items) →
  ∃ m, open_saved sf_id (load saved_codec <$> (save saved_codec p <$> items)) = Some m ∧ ∀ f, f ∈ items → get_saved m (sf_id f) = Some f.
Proof.
  intros Hi. apply directory_opens. eapply Forall_impl; [exact Hi|]. intros f [H1 H2]. apply no_trail. intros trail Ht. by apply (saved_again p f trail H1 Ht).
Qed.
Lemma filters_locked p items f : f ∈ items → unit_filter_ok (sf_filter f) → 42 ≤ filter_levels (sf_filter f) →
  open_saved sf_id (load saved_codec <$> (save saved_codec p <$> items)) = None.
Proof. intros Hf H1 H2. apply (directory_locked _ _ _ _ f Hf). apply no_trail. intros trail Ht. by apply (saved_again p f trail H1 Ht). Qed.
Lemma sessions_open p items : Forall (λ s, session_ok s ∧ session_levels s ≤ 39) items → NoDup (ss_id <$> items) →
  ∃ m, open_saved ss_id (load session_codec <$> (save session_codec p <$> items)) = Some m ∧ ∀ s, s ∈ items → get_saved m (ss_id s) = Some s.
Proof.
  intros Hi. apply directory_opens. eapply Forall_impl; [exact Hi|]. intros f [H1 H2]. apply no_trail. intros trail Ht. by apply (session_again p f trail H1 Ht).
Qed.
