(** Literacy courses with and without dictation, as parts of libraries. *)
From stdpp Require Import gmap strings list sorting.
From Verif Require Import F32 Graph GraphSpec Library LibrarySpec LoadProofs Generators GenSpec StrFacts GenBase GenLiteracy DictationSpec.
Local Open Scope string_scope.
Local Open Scope list_scope.

(** A relation of which one part is a copy of another and is mentioned by nothing else. *)
Lemma acyclic_copy (R R' : uid → uid → Prop) (A : Type) (Q : A → Prop) (f g : A → uid) :
  (∀ u, (∃ a, Q a ∧ u = g a) ∨ ¬ (∃ a, Q a ∧ u = g a)) →
  (∀ u v, R' u v → ¬ (∃ a, Q a ∧ u = g a) → R u v ∧ ¬ (∃ a, Q a ∧ v = g a)) →
  (∀ a b, Q a → Q b → R' (g a) (g b) → R (f a) (f b)) → (∀ a b, Q a → Q b → g a = g b → f a = f b) →
  acyclic R → acyclic R'.
Proof.
  intros Hdec Hout Hin Hinj HA u Hu. destruct (Hdec u) as [(a & Ha & ->)|Hn].
  - assert (∀ x y, tc R' x y → ∀ b, Q b → y = g b → ∃ c, Q c ∧ x = g c ∧ tc R (f c) (f b)) as H.
    { intros x y Ht. induction Ht as [x y Hs|x z y Hs Ht IH]; intros b Hb ->.
      - destruct (Hdec x) as [(c & Hc & ->)|Hx]; [|destruct (Hout _ _ Hs Hx) as [_ Hb']; exfalso; apply Hb'; by exists b].
        exists c. split_and!; [done|done|]. apply tc_once. by apply Hin.
      - destruct (IH b Hb eq_refl) as (c & Hc & -> & Hcb).
        destruct (Hdec x) as [(e & He & ->)|Hx]; [|destruct (Hout _ _ Hs Hx) as [_ Hb']; exfalso; apply Hb'; by exists c].
        exists e. split_and!; [done|done|]. apply (tc_l _ _ (f c)); [by apply Hin|done]. }
    destruct (H _ _ Hu a Ha eq_refl) as (c & Hc & E & Ht). rewrite (Hinj a c Ha Hc E) in Ht. by apply (HA (f c)).
  - apply (HA u). assert (∀ x y, tc R' x y → ¬ (∃ a, Q a ∧ x = g a) → tc R x y) as H; [|by apply H].
    intros x y Ht. induction Ht as [x y Hs|x z y Hs Ht IH]; intros Hx; destruct (Hout _ _ Hs Hx) as [Hxy Hy]; [by apply tc_once|].
    eapply tc_l; [exact Hxy|by apply IH].
Qed.

Lemma id_two_inj c s s' x : id_of c [s; x] = id_of c [s'; x] → s = s'.
Proof.
  unfold id_of. cbn [comps]. rewrite !sapp_nil. intros H. apply sapp_inv_l, (sapp_inv_l "::") in H.
  by apply sapp_inv_r in H.
Qed.

Section dictation.
  Context (ord : ∀ A, list (uid * A) → list (uid * A)) (Hord : ∀ A l, ord A l ≡ₚ l).
  Context (instructions : option content) (dirs : list (string * list (string * content))) (cm : course_manifest).
  Lemma dictation_generates : is_Some (generate_literacy ord true instructions dirs cm) ↔ is_Some (generate_literacy ord false instructions dirs cm).
  Proof using.
    unfold generate_literacy. destruct (open_all _ _) as [ls|]; cbn; [|done].
    destruct (match instructions with Some c => as_text c | None => Some "" end); cbn; [|done]. split; intros _; eexists; done.
  Qed.
  Context (short long : open_course) (before after : list open_course).
  Context (Hs : generate_literacy ord false instructions dirs cm = Some short).
  Context (Hl : generate_literacy ord true instructions dirs cm = Some long).
  Local Notation full := (before ++ long :: after).
  Local Notation small := (before ++ short :: after).
  Local Notation C := (cm_id cm).
  Definition R_of (s : uid) : uid := id_of C [s; "reading"].
  Definition D_of (s : uid) : uid := id_of C [s; "dictation"].
  Context (Hd : distinct_ids full).
  Context (Hm : ∀ s, literacy_inside dirs s → ¬ mentions small (D_of s)).

  Lemma both : ∃ ls, open_all open_literacy_lesson (literacy_dirs dirs) = Some ls ∧ oc_manifest short = oc_manifest long ∧ cm_id (oc_manifest long) = C ∧
    oc_lessons short = mjoin (literacy_manifests false C ls.*1 <$> ord _ ls) ∧ oc_lessons long = mjoin (literacy_manifests true C ls.*1 <$> ord _ ls).
  Proof using Hs Hl.
    clear Hd Hm. unfold generate_literacy in Hs, Hl. destruct (open_all _ _) as [ls|]; [|done]. cbn in Hs, Hl.
    destruct (match instructions with Some c => as_text c | None => Some "" end); [|done]. injection Hs as <-. injection Hl as <-. by exists ls.
  Qed.
  Lemma dictation_sublist : sublist (declared small) (declared full).
  Proof using Hs Hl.
    destruct both as (ls & _ & Em & _ & E1 & E2). rewrite !declared_app, !declared_cons. apply sublist_app; [done|]. apply sublist_app; [|done].
    unfold course_decls. rewrite Em, E1, E2. apply sublist_skip. clear. generalize ls.*1. intros ids.
    induction (ord _ ls) as [|x xs IH]; [done|]. rewrite !fmap_cons, !mjoin_cons, !fmap_app, !mjoin_app. apply sublist_app; [|done].
    unfold literacy_manifests. rewrite !fmap_cons, !mjoin_cons. apply sublist_app; [done|]. apply sublist_nil_l.
  Qed.
  (** What the course with dictation declares in addition. *)
  Lemma dictation_adds d : d ∈ declared full → d ∈ declared small ∨
    (∃ s l lm lm' es es', literacy_inside dirs s ∧ d = lesson_decl lm ∧ dictation_of C dirs s l lm es ∧
       lesson_decl lm' ∈ declared small ∧ reading_of C dirs s l lm' es') ∨
    (d_deps d = [] ∧ d_enc d = [] ∧ d_sup d = []).
  Proof using Hs Hl Hord.
    destruct both as (ls & Hls & Em & _ & E1 & E2). rewrite !declared_app, !declared_cons, !elem_of_app.
    intros [H|[H|H]]; [left; by left| |left; right; by right].
    apply elem_of_course_decls in H as [->|(lm & es & Hle & H)].
    - left. right. left. apply elem_of_course_decls. left. by rewrite Em.
    - rewrite E2 in Hle. apply elem_of_mjoin_fmap in Hle as ([s l] & Hsl & Hle).
      pose proof Hsl as Hin. rewrite Hord in Hin. apply (open_all_in _ _ _ _ _ Hls) in Hin as (dir & Hdir & _). apply literacy_dirs_in in Hdir.
      assert (literacy_inside dirs s) as Hi by by exists dir.
      assert ((reading_lesson C ls.*1 s l) ∈ oc_lessons short) as Hr.
      { rewrite E1. apply elem_of_mjoin_fmap. exists (s, l). split; [done|]. by left. }
      unfold literacy_manifests in Hle. cbn [fst snd] in Hle. apply elem_of_cons in Hle as [Hle|Hle%elem_of_list_singleton].
      + left. right. left. apply elem_of_course_decls. right. exists lm, es. split; [|done]. by rewrite Hle.
      + destruct H as [->|(em & _ & ->)]; [|by right; right]. right. left.
        pose proof (dictation_spec dirs cm ls s l Hls Hi) as HD. pose proof (reading_spec dirs cm ls s l Hls Hi) as HR. rewrite <-Hle in HD.
        exists s, l, lm, (reading_lesson C ls.*1 s l).1, es, (reading_lesson C ls.*1 s l).2. split_and!; [done|done|done| |done].
        rewrite !elem_of_app. right. left. apply elem_of_course_decls. right. eexists _, _. split; [|by left]. by rewrite <-surjective_pairing.
  Qed.
  Lemma dictation_made s : literacy_inside dirs s → ∃ l lm lm' es es', lesson_decl lm ∈ declared full ∧ dictation_of C dirs s l lm es ∧
       lesson_decl lm' ∈ declared small ∧ reading_of C dirs s l lm' es'.
  Proof using Hs Hl Hord.
    intros Hi. destruct both as (ls & Hls & Em & _ & E1 & E2). destruct Hi as [dir Hdir]. pose proof Hdir as Hin. apply literacy_dirs_in in Hin.
    destruct (open_all_from _ _ _ _ _ Hls Hin) as (l & _ & Hsl). assert (literacy_inside dirs s) as Hi by by exists dir.
    exists l, (dictation_lesson C ls.*1 s l).1, (reading_lesson C ls.*1 s l).1, (dictation_lesson C ls.*1 s l).2, (reading_lesson C ls.*1 s l).2.
    split_and!; [|by apply dictation_spec| |by apply reading_spec].
    - rewrite declared_app, declared_cons, !elem_of_app. right. left. apply elem_of_course_decls. right. eexists _, _. split; [|by left].
      rewrite <-surjective_pairing, E2. apply elem_of_mjoin_fmap. exists (s, l). split; [by rewrite Hord|]. right. by left.
    - rewrite declared_app, declared_cons, !elem_of_app. right. left. apply elem_of_course_decls. right. eexists _, _. split; [|by left].
      rewrite <-surjective_pairing, E1. apply elem_of_mjoin_fmap. exists (s, l). split; [by rewrite Hord|]. by left.
  Qed.
  Definition is_dictation (u : uid) : Prop := ∃ s, literacy_inside dirs s ∧ u = D_of s.
  Lemma inside_names : ∃ ss : list uid, ∀ s, s ∈ ss ↔ literacy_inside dirs s.
  Proof using Hs Hl. destruct both as (ls & Hls & _). exists ls.*1. intros s. by apply literacy_ids. Qed.
  Lemma is_dictation_dec u : is_dictation u ∨ ¬ is_dictation u.
  Proof using Hs Hl.
    destruct inside_names as [ss H]. destruct (decide (u ∈ D_of <$> ss)) as [Hu|Hu].
    - left. apply elem_of_list_fmap in Hu as (s & -> & Hin). exists s. split; [by apply H|done].
    - right. intros (s & Hin & ->). apply Hu. apply elem_of_list_fmap. exists s. split; [done|]. by apply H.
  Qed.
  Lemma dictation_decl s d : literacy_inside dirs s → d ∈ declared full → d_id d = D_of s →
    ∃ l lm lm' es es', d = lesson_decl lm ∧ dictation_of C dirs s l lm es ∧ lesson_decl lm' ∈ declared small ∧ reading_of C dirs s l lm' es'.
  Proof using Hs Hl Hord Hd.
    intros Hi Hdd E. destruct (dictation_made s Hi) as (l & lm & lm' & es & es' & H1 & H2 & H3 & H4). exists l, lm, lm', es, es'.
    split_and!; [|done|done|done]. apply (NoDup_fmap_elem d_id (declared full)); [done|done|done|]. rewrite E. cbn. by destruct H2 as (-> & _).
  Qed.

  (** A relation of the dictation lessons that copies that of the reading lessons. *)
  Definition copies (R : decl → uid → Prop) : Prop :=
    (∀ d x, d_deps d = [] → d_enc d = [] → d_sup d = [] → ¬ R d x) ∧
    (∀ d x, R d x → x ∈ d_deps d ∨ x ∈ d_sup d ∨ x ∈ (d_enc d).*1) ∧
    (∀ s l lm lm' es es' y, dictation_of C dirs s l lm es → reading_of C dirs s l lm' es' → literacy_inside dirs y →
       lesson_decl lm' ∈ declared small → R (lesson_decl lm) (D_of y) → R (lesson_decl lm') (R_of y)).
  Lemma copied_acyclic R : copies R → acyclic (rel_of full R) ↔ acyclic (rel_of small R).
  Proof using All.
    intros (Hn & Hr & Hc). split.
    - apply acyclic_sub. intros u v (d & Hdd & H). exists d. split; [|done]. eapply elem_of_submseteq; [exact Hdd|apply sublist_submseteq, dictation_sublist].
    - apply (acyclic_copy _ _ uid (literacy_inside dirs) R_of D_of).
      + apply is_dictation_dec.
      + intros u v (d & Hdd & <- & HR) Hu. assert (d ∈ declared small) as Hds.
        { destruct (dictation_adds d Hdd) as [?|[(s & l & lm & lm' & es & es' & Hi & -> & (E & _) & _)|(? & ? & ?)]]; [done| |by destruct (Hn d v)].
          exfalso. apply Hu. exists s. split; [done|]. by cbn. }
        split; [by exists d|]. intros (s & Hi & ->). apply (Hm s Hi). exists d. split; [done|]. by apply Hr.
      + intros a b Ha Hb (d & Hdd & E & HR). destruct (dictation_decl a d Ha Hdd E) as (l & lm & lm' & es & es' & -> & H2 & H3 & H4).
        exists (lesson_decl lm'). split; [done|]. split; [by destruct H4 as (E4 & _)|]. by apply (Hc a l lm lm' es es' b).
      + intros a b _ _ E. apply id_two_inj in E. by rewrite E.
  Qed.
  Lemma not_said s x : literacy_inside dirs s → lesson_decl x ∈ declared small →
    D_of s ∉ lm_dependencies x ∧ D_of s ∉ lm_superseded x ∧ D_of s ∉ (lm_encompassed x).*1.
  Proof using Hm.
    intros Hi Hx. split_and!; intros H; apply (Hm s Hi); exists (lesson_decl x); (split; [done|]); cbn; auto.
  Qed.
  Lemma reading_dictation s y : R_of s ≠ D_of y.
  Proof using.
    unfold R_of, D_of, id_of. cbn [comps]. intros H. apply sapp_inv_l, (sapp_inv_l "::") in H. rewrite !sapp_nil in H.
    apply (f_equal list_ascii_of_string) in H.
    rewrite !chars_app in H. apply (f_equal last) in H. rewrite !last_app in H. cbn in H.
    done.
  Qed.
  Lemma copies_dep : copies dep_rel.
  Proof using Hm.
    split_and!.
    - intros d x H _ _. unfold dep_rel. rewrite H. apply not_elem_of_nil.
    - intros d x H. by left.
    - intros s l lm lm' es es' y (D1 & D2 & D3 & _) (R1 & R2 & R3 & _) Hy Hin H. unfold dep_rel in *. cbn in *. apply R3. apply D3 in H as [E|(z & Hz & Hzi & E)].
      + exfalso. symmetry in E. by apply reading_dictation in E.
      + apply id_two_inj in E as <-. exists y. split; [done|]. by left.
  Qed.
  Lemma copies_sup : copies sup_rel.
  Proof using Hm.
    split_and!.
    - intros d x _ _ H. unfold sup_rel. rewrite H. apply not_elem_of_nil.
    - intros d x H. right. by left.
    - intros s l lm lm' es es' y (D1 & D2 & _ & _ & D5 & _) (R1 & R2 & _ & _ & R5 & _) Hy Hin H. unfold sup_rel in *. cbn in *.
      apply D5 in H as (z & Hz & [[Hzi E]|[Hzo E]]).
      + apply id_two_inj in E as <-. apply R5. exists y. split; [done|]. by left.
      + exfalso. destruct (not_said y lm' Hy Hin) as (_ & Hno & _). apply Hno, R5. exists z. split; [done|]. by right.
  Qed.
  Lemma copies_enc : copies enc_rel.
  Proof using Hm.
    split_and!.
    - intros d x H1 H2 _. unfold enc_rel. rewrite H1, H2. cbn. rewrite !elem_of_nil. naive_solver.
    - intros d x [H|H]; [by left|right; by right].
    - intros s l lm lm' es es' y HD HR Hy Hin [H|H].
      + left. destruct copies_dep as (_ & _ & Hc). by apply (Hc s l lm lm' es es' y).
      + right. destruct HD as (_ & _ & _ & D4 & _). destruct HR as (_ & _ & _ & R4 & _). cbn in *.
        apply elem_of_list_fmap in H as ([x w] & E & H). cbn in E. subst x. apply D4 in H as (z & Hz & [[Hzi E]|[Hzo E]]).
        * apply id_two_inj in E as <-. apply elem_of_list_fmap. exists (R_of y, w). split; [done|]. apply R4. exists y. split; [done|]. by left.
        * exfalso. destruct (not_said y lm' Hy Hin) as (_ & _ & Hno). apply Hno. apply elem_of_list_fmap. exists (D_of y, w). split; [done|].
          apply R4. exists z. split; [done|]. by right.
  Qed.
  Lemma dictation_weights : valid_weights full ↔ valid_weights small.
  Proof using All.
    split; intros H d x w Hx He.
    - apply (H d x w); [|done]. eapply elem_of_submseteq; [exact Hx|apply sublist_submseteq, dictation_sublist].
    - destruct (dictation_adds d Hx) as [?|[(s & l & lm & lm' & es & es' & Hi & -> & HD & Hin & HR)|(_ & E & _)]].
      + by apply (H d x w).
      + destruct HD as (_ & _ & _ & D4 & _). destruct HR as (_ & _ & _ & R4 & _). cbn in He. apply D4 in He as (z & Hz & _).
        destruct inside_names as [ss Hss]. destruct (decide (z ∈ ss)) as [Hzi|Hzi]; rewrite Hss in Hzi.
        * apply (H (lesson_decl lm') (R_of z) w Hin). cbn. apply R4. exists z. split; [done|]. by left.
        * apply (H (lesson_decl lm') z w Hin). cbn. apply R4. exists z. split; [done|]. by right.
      + rewrite E in He. by apply elem_of_nil in He.
  Qed.
  Lemma literacy_consistent (b : bool) oc : generate_literacy ord b instructions dirs cm = Some oc → consistent oc.
  Proof using Hord.
    intros Hg lm es Hin. destruct (generated_literacy ord b instructions dirs cm oc Hg) as (ls & _ & _ & ->).
    destruct (literacy_lessons ord Hord b instructions dirs cm oc Hg lm es Hin) as (s & dir & l & _ & _ & [(E & E' & _ & _ & _ & ->)|(_ & E & E' & _ & _ & _ & ->)]);
      (split; [done|]); intros em ->%elem_of_list_singleton; by rewrite E.
  Qed.
  Lemma dictation_opens o : order_ok o → Forall consistent before → Forall consistent after →
    is_Some (open_library o full) ↔ is_Some (open_library o small).
  Proof using All.
    intros Ho Hb Ha. assert (Forall consistent full) as Hf.
    { apply Forall_app. split; [done|]. apply Forall_cons. split; [by eapply literacy_consistent|done]. }
    assert (Forall consistent small) as Hsm.
    { apply Forall_app. split; [done|]. apply Forall_cons. split; [by eapply literacy_consistent|done]. }
    rewrite (open_library_iff o full Ho Hf), (open_library_iff o small Ho Hsm), !no_cycles_rels.
    rewrite (copied_acyclic dep_rel copies_dep), (copied_acyclic sup_rel copies_sup), (copied_acyclic enc_rel copies_enc), dictation_weights.
    assert (distinct_ids small) as Hd'.
    { unfold distinct_ids in *. eapply sublist_NoDup; [by apply fmap_sublist, dictation_sublist|exact Hd]. }
    naive_solver.
  Qed.
End dictation.

(** ** When a literacy course can be read *)
Lemma open_all_some {A} (f : list (string * content) → option A) ds : is_Some (open_all f ds) ↔ ∀ s d, (s, d) ∈ ds → is_Some (f d).
Proof.
  induction ds as [|[s d] ds IH]; cbn [open_all].
  - split; [|by eexists]. intros _ s d H. by apply elem_of_nil in H.
  - split.
    + intros [l H]. destruct (f d) as [a|] eqn:E; [|done]. cbn in H. destruct (open_all f ds) as [l'|]; [|done].
      intros s' d' [[= -> ->]|Hin]%elem_of_cons; [by rewrite E|]. apply (proj1 IH) with s'; [by eexists|done].
    + intros H. destruct (H s d) as [a ->]; [by left|]. cbn. destruct (proj2 IH) as [l ->]; [|by eexists]. intros s' d' Hin. apply (H s'). by right.
Qed.
Lemma literacy_reads ord dictation instructions dirs cm : (∀ n dir, (n, dir) ∈ dirs → NoDup dir.*1) →
  is_Some (generate_literacy ord dictation instructions dirs cm) ↔
  (∀ s dir, lesson_dir dirs s dir → all_files_readable dir) ∧ (∀ c, instructions = Some c → readable LLessonInstructions c).
Proof.
  intros Hn. assert (is_Some (open_all open_literacy_lesson (literacy_dirs dirs)) ↔ ∀ s dir, lesson_dir dirs s dir → all_files_readable dir) as Ho.
  { rewrite open_all_some. setoid_rewrite literacy_dirs_in. split; intros H s dir Hs.
    - apply literacy_opens_iff; [by destruct Hs as [_ Hs]; apply (Hn _ _ Hs)|]. by apply (H s).
    - apply literacy_opens_iff; [by destruct Hs as [_ Hs]; apply (Hn _ _ Hs)|]. by apply (H s). }
  rewrite <-Ho. unfold generate_literacy. destruct (open_all _ _) as [ls|]; cbn.
  - destruct instructions as [c|]; cbn.
    + unfold readable. destruct (as_text c) as [t|] eqn:E; cbn.
      * split; [|by eexists]. intros _. split; [by eexists|]. intros c' [= <-]. rewrite <-?E. by eexists.
      * split; [by intros [? ?]|]. intros [_ H]. destruct (H c eq_refl) as [t Ht]. congruence.
    + split; [|by eexists]. intros _. split; [by eexists|done].
  - split; [by intros [? ?]|]. by intros [[? ?] _].
Qed.
