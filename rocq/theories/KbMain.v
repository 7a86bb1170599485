(** Knowledge bases that are built and opened. *)
From stdpp Require Import gmap strings list sorting.
From Verif Require Import F32 F32Real Graph Library Generators GenSpec StrFacts GenBase GenLiteracy GenKb FileSystem FileSpec FileProofs BuildProofs KbBuilder KbSpec KbOpens KbDisk KbRead.
Local Open Scope string_scope.
Local Open Scope list_scope.

(** ** Every directory can be listed *)
Definition list_dir (f : files) (dir : list string) : list (string * node) :=
  omap (λ x : list string * node, match last x.1 with Some n => if decide (x.1 = dir ++ [n]) then Some (n, x.2) else None | None => None end) (map_to_list f).
Lemma list_dir_in f dir n x : (n, x) ∈ list_dir f dir ↔ f !! (dir ++ [n]) = Some x.
Proof.
  unfold list_dir. rewrite elem_of_list_omap. split.
  - intros ([p y] & Hin%elem_of_map_to_list & H). cbn in H. destruct (last p) as [m|]; [|discriminate]. case_decide as E; [|discriminate]. injection H as -> ->. subst p. done.
  - intros H. exists (dir ++ [n], x). split; [by apply elem_of_map_to_list|]. cbn. rewrite last_snoc, decide_True by done. done.
Qed.
Lemma list_dir_NoDup f dir : NoDup (list_dir f dir).*1.
Proof.
  unfold list_dir. pose proof (NoDup_fst_map_to_list f) as H. revert H. generalize (map_to_list f). intros l.
  induction l as [|[p y] l IH]; cbn [fmap list_fmap fst omap list_omap]; intros H; [constructor|]. apply NoDup_cons in H as [Hp H].
  destruct (last p) as [m|]; [|by apply IH]. case_decide as E; [|by apply IH]. cbn [fmap list_fmap fst snd]. apply NoDup_cons. split; [|by apply IH].
  intros ([m' z] & Em & Hin)%elem_of_list_fmap. cbn in Em. subst m'. apply elem_of_list_omap in Hin as ([q z'] & Hq & Hz). cbn in Hz.
  destruct (last q) as [m'|]; [|discriminate]. case_decide as E'; [|discriminate]. injection Hz as -> ->. apply Hp. rewrite E, <- E'. apply elem_of_list_fmap. by exists (q, z).
Qed.
Definition entries (read : string → content) (f : files) (dir : list string) : list (string * content) :=
  (λ x : string * node, (x.1, entry read x.2)) <$> list_dir f dir.
Definition dir_entries (read : string → content) (f : files) (root : list string) : list (string * list (string * content)) :=
  omap (λ x : string * node, match x.2 with Dir => Some (x.1, entries read f (root ++ [x.1])) | File _ => None end) (list_dir f root).
Lemma entries_list read f dir : lists read f dir (entries read f dir).
Proof.
  split.
  - unfold entries. rewrite <- list_fmap_compose. apply list_dir_NoDup.
  - intros n c. unfold entries. rewrite elem_of_list_fmap. split.
    + intros ([m x] & [= -> ->] & Hin%list_dir_in). eauto.
    + intros (x & Hx & ->). exists (n, x). split; [done|]. by apply list_dir_in.
Qed.
Lemma omap_fst_NoDup {A B : Type} (g : string * A → option (string * B)) l : (∀ x y, g x = Some y → y.1 = x.1) → NoDup l.*1 → NoDup (omap g l).*1.
Proof.
  intros Hg. induction l as [|x l IH]; cbn [fmap list_fmap omap list_omap]; intros H; [constructor|]. apply NoDup_cons in H as [Hx H].
  destruct (g x) as [y|] eqn:E; [|by apply IH]. cbn [fmap list_fmap]. apply NoDup_cons. split; [|by apply IH].
  intros (z & Ez & Hz)%elem_of_list_fmap. apply elem_of_list_omap in Hz as (x' & Hx' & E'). apply Hg in E, E'. apply Hx. rewrite <- E, Ez, E'. by apply elem_of_list_fmap_1.
Qed.
Lemma dirs_listed read f root : lists_dirs read f root (dir_entries read f root).
Proof.
  assert (∀ n d, (n, d) ∈ dir_entries read f root ↔ f !! (root ++ [n]) = Some Dir ∧ d = entries read f (root ++ [n])) as H.
  { intros n d. unfold dir_entries. rewrite elem_of_list_omap. split.
    - intros ([m [|t]] & Hin%list_dir_in & E); cbn in E; [|discriminate]. injection E as -> <-. done.
    - intros [H ->]. exists (n, Dir). split; [by apply list_dir_in|done]. }
  split; [|split].
  - apply omap_fst_NoDup; [|apply list_dir_NoDup]. intros [m [|t]] y E; cbn in E; [|discriminate]. by injection E as <-.
  - intros n. rewrite elem_of_list_fmap. split.
    + intros ([m d] & -> & [? _]%H). done.
    + intros Hn. exists (n, entries read f (root ++ [n])). split; [done|]. by apply H.
  - intros n d [_ ->]%H. apply entries_list.
Qed.
Lemma can_list read f root : ∃ dirs, lists_dirs read f root dirs.
Proof. eexists. apply dirs_listed. Qed.

(** ** Courses *)
Lemma kb_round_trip w read above b n f a n' f' : codec_ok w read → tree f → tidy_course b → build_kb_course w above b n f = Over a n' f' →
  f' !! (above ++ [zb_dir b; "course_manifest.json"]) = Some (File (w_course w (zb_manifest b) +:+ newline)) ∧
  ∀ dirs, lists_dirs read f' (above ++ [zb_dir b]) dirs → ∀ ord, (∀ A l, ord A l ≡ₚ l) → ∀ orde, (∀ x, orde x ≡ₚ x) → ∀ inlined,
  ∃ oc, generate_kb ord orde inlined dirs (zb_manifest b) = Some oc ∧ oc_manifest oc = zb_manifest b ∧
    one_each (stands_for (cm_id (zb_manifest b)) (yb_id <$> zb_lessons b)) (zb_lessons b) (oc_lessons oc).
Proof.
  intros Hc Ht Hb H. apply kb_course_over in H as [H1 H2]; [|done|done]. split; [done|]. intros dirs Hd ord Hord orde Horde inlined.
  destruct Hb as (Hn & Hl & _). by eapply kb_restored.
Qed.
Lemma simple_lesson_some l b : simple_lesson_builder l = Some b → ∃ es, try_map simple_exercise_builder (sl_exercises l) = Some es ∧
  sl_id l ≠ "" ∧ NoDup (se_id <$> sl_exercises l) ∧
  b = KbLessonBuilder (sl_id l) None None (sl_dependencies l) (sl_superseded l) (sl_encompassed l) (sl_metadata l) None es (sl_files l).
Proof.
  unfold simple_lesson_builder. case_bool_decide; [discriminate|]. destruct (negb _) eqn:En; [discriminate|]. apply negb_false_iff, bool_decide_eq_true in En.
  destruct (try_map simple_exercise_builder (sl_exercises l)) as [es|]; [|discriminate]. cbn [mbind option_bind]. intros [= <-]. by exists es.
Qed.
Lemma simple_exercise_some e b : simple_exercise_builder e = Some b → se_id e ≠ "" ∧ xb_id b = se_id e ∧ xb_type b = None ∧ tidy_exercise b.
Proof.
  unfold simple_exercise_builder. case_bool_decide as He; [discriminate|]. intros [= <-]. split; [done|]. split; [done|]. split; [done|].
  unfold tidy_exercise. cbn [xb_id xb_name xb_description xb_assets]. split; [done|]. split; [done|]. split.
  - eexists. split; [left|done].
  - intros a [->|Ha]%elem_of_cons; [left; done|]. right. left. destruct (se_back e); [by apply elem_of_nil in Ha|]. apply elem_of_list_singleton in Ha as ->. done.
Qed.
Lemma simple_tidy c ls : tidy_simple c → try_map simple_lesson_builder (sc_lessons c) = Some ls → ∀ l, l ∈ ls → tidy_lesson l.
Proof.
  intros Hc H l Hl. apply (try_map_in _ _ _ _ H) in Hl as (sl & Hs & E). apply simple_lesson_some in E as (es & Ee & _ & Hn & ->). destruct (Hc sl Hs) as [H1 H2].
  split; [|split; [|split]]; cbn [yb_exercises yb_assets yb_encompassed]; [| |done|done].
  - rewrite (try_map_fmap _ se_id xb_id _ _ Ee); [done|]. intros e b Eb. by apply simple_exercise_some in Eb as (_ & ? & _).
  - intros b Hb. apply (try_map_in _ _ _ _ Ee) in Hb as (e & _ & Eb). by apply simple_exercise_some in Eb as (_ & _ & _ & ?).
Qed.
Lemma simple_stands c ids sl l le : simple_lesson_builder sl = Some l → stands_for c ids l le → stands_for_simple c ids sl le.
Proof.
  intros (es & Ee & _ & _ & ->)%simple_lesson_some [H1 H2]. split; [exact H1|]. cbn [yb_exercises yb_id yb_type] in H2. rewrite H2. clear H1 H2.
  apply try_map_spec in Ee. induction Ee as [|e b l0 es E _ IH]; [done|]. rewrite !fmap_cons. apply simple_exercise_some in E as (_ & -> & -> & _). by rewrite IH.
Qed.
Lemma forall2_compose {A B C : Type} (R : A → B → Prop) (S : B → C → Prop) (T : A → C → Prop) l k m :
  (∀ a b c, R a b → S b c → T a c) → Forall2 R l k → Forall2 S k m → Forall2 T l m.
Proof.
  intros H H1. revert m. induction H1 as [|a b l k Hab _ IH]; intros m H2; inversion H2; subst; constructor; eauto.
Qed.
Lemma simple_meant c : meant_manifest c (simple_manifest c).
Proof. unfold simple_manifest. by split; destruct (sc_encompassed c). Qed.
Lemma simple_round_trip w read root c n f a n' f' : codec_ok w read → tree f → tidy_simple c →
  (∀ s, f !! (root ++ [s +:+ ".lesson"]) = Some Dir → s ∈ sl_id <$> sc_lessons c) → build_simple w root c n f = Over a n' f' →
  ∃ cm, meant_manifest c cm ∧ f' !! (root ++ ["course_manifest.json"]) = Some (File (w_course w cm)) ∧
  ∀ dirs, lists_dirs read f' root dirs → ∀ ord, (∀ A l, ord A l ≡ₚ l) → ∀ orde, (∀ x, orde x ≡ₚ x) → ∀ inlined,
  ∃ oc, generate_kb ord orde inlined dirs cm = Some oc ∧ oc_manifest oc = cm ∧
    one_each (stands_for_simple (cm_id (sc_manifest c)) (sl_id <$> sc_lessons c)) (sc_lessons c) (oc_lessons oc).
Proof.
  intros Hc Ht Hs Hstale H. apply simple_over in H as (ls & Els & Hn & Hb & Ho & _ & Hm); [|by apply tree_settled]. exists (simple_manifest c). split; [by apply simple_meant|]. split; [done|].
  intros dirs Hd ord Hord orde Horde inlined.
  assert (course_on_disk w f' root ls) as Hon.
  { split; [done|]. intros s Hf. destruct (decide (s ∈ yb_id <$> ls)) as [Hin|Hin]; [done|]. exfalso. rewrite Ho in Hf.
    - apply Hin. rewrite (simple_builders c ls Els). by apply Hstale.
    - unfold kb_lesson_path. apply not_back. discriminate.
    - intros l Hl E. apply Hin. rewrite <- (lesson_paths _ _ _ E). by apply elem_of_list_fmap_1.
    - intros E. apply (manifest_apart root s). rewrite E. done. }
  destruct (kb_restored w read f' root ls Hc Hn (simple_tidy c ls Hs Els) Hon dirs Hd ord Hord orde Horde inlined (simple_manifest c)) as (oc & H1 & H2 & k & Hk & HF).
  exists oc. split; [done|]. split; [done|]. exists k. split; [done|].
  assert (cm_id (simple_manifest c) = cm_id (sc_manifest c)) as E by (unfold simple_manifest; by destruct (sc_encompassed c)).
  rewrite E, (simple_builders c ls Els) in HF. eapply forall2_compose; [|apply try_map_spec; exact Els|exact HF]. intros sl l le. apply simple_stands.
Qed.
(** Building once more changes nothing in the directory of the course. *)
Lemma simple_again w root c n f a n' f' m b m' f'' : tree f → build_simple w root c n f = Over a n' f' → build_simple w root c m f' = Over b m' f'' →
  ∀ p, root `prefix_of` p → f'' !! p = f' !! p.
Proof.
  intros Ht H1 H2. apply simple_over in H1 as (ls & E1 & N1 & B1 & O1 & R1 & M1); [|by apply tree_settled].
  apply simple_over in H2 as (ls' & E2 & N2 & B2 & O2 & R2 & M2).
  2: { intros s Hs r. destruct (decide (s ∈ yb_id <$> ls)) as [Hin|Hin].
    - apply elem_of_list_fmap in Hin as (l & -> & Hl). destruct (B1 l Hl) as [E _]. congruence.
    - assert (∀ r, f' !! (kb_lesson_path root s ++ r) = f !! (kb_lesson_path root s ++ r)) as Hsame.
      { intros q. apply O1.
        - unfold kb_lesson_path. rewrite <- app_assoc. apply not_back. discriminate.
        - intros l Hl E. apply Hin. rewrite <- (lesson_paths_below _ _ _ _ E). by apply elem_of_list_fmap_1.
        - intros E. apply (manifest_apart root s). rewrite <- E. exists q. done. }
      rewrite Hsame. apply tree_settled; [done|]. specialize (Hsame []). rewrite app_nil_r in Hsame. rewrite <- Hsame. done. }
  rewrite E1 in E2. injection E2 as <-. intros p [r ->]. destruct r as [|x r]; [rewrite app_nil_r; congruence|].
  destruct (decide (root ++ x :: r = root ++ ["course_manifest.json"])) as [->|Hm]; [congruence|].
  destruct (decide (Exists (λ l, kb_lesson_path root (yb_id l) `prefix_of` root ++ x :: r) ls)) as [He|He].
  - apply Exists_exists in He as (l & Hl & [q E]). rewrite E. destruct (B1 l Hl) as [D1 W1]. destruct (B2 l Hl) as [D2 W2].
    destruct q as [|y q]; [rewrite app_nil_r; congruence|]. rewrite W1, W2 by discriminate. done.
  - apply O2; [apply not_back; discriminate| |done]. intros l Hl E. apply He, Exists_exists. eauto.
Qed.
(** A configuration that is not valid is refused before anything is written. *)
Lemma simple_valid c : is_Some (try_map simple_lesson_builder (sc_lessons c)) ∧ NoDup (sl_id <$> sc_lessons c) ↔ valid_simple c.
Proof.
  unfold valid_simple. rewrite try_map_iff. split; [intros [H Hn]; split; [done|]|intros [Hn H]; split; [|done]]; intros l Hl.
  - destruct (H l Hl) as [b Hb]. apply simple_lesson_some in Hb as (es & Ee & H1 & H2 & _). split; [done|]. split; [done|].
    intros e He. destruct (proj1 (try_map_iff simple_exercise_builder (sl_exercises l)) (mk_is_Some _ _ Ee) e He) as [x Hx]. by apply simple_exercise_some in Hx as [? _].
  - destruct (H l Hl) as (H1 & H2 & H3). unfold simple_lesson_builder. rewrite bool_decide_false by done. rewrite (bool_decide_true (NoDup _)) by done. cbn [negb].
    destruct (proj2 (try_map_iff simple_exercise_builder (sl_exercises l))) as [es ->]; [|cbn; eauto].
    intros e He. unfold simple_exercise_builder. rewrite bool_decide_false by (by apply H3). eauto.
Qed.
Lemma simple_refused w root c n f : ¬ valid_simple c → build_simple w root c n f = Fails f.
Proof.
  intros H. unfold build_simple. destruct (negb _) eqn:En; [done|]. apply negb_false_iff, bool_decide_eq_true in En.
  destruct (try_map simple_lesson_builder (sc_lessons c)) eqn:E; [|done]. exfalso. apply H, simple_valid. rewrite E. eauto.
Qed.
