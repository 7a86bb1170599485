(** Facts shared by the generators. *)
From stdpp Require Import gmap strings list pretty relations.
From Verif Require Import F32 Graph GraphSpec Library LibrarySpec LoadProofs Generators GenSpec StrFacts.
Local Open Scope string_scope.
Local Open Scope list_scope.

Lemma elem_of_mjoin_fmap {A B} (f : A → list B) (l : list A) (y : B) : y ∈ mjoin (f <$> l) ↔ ∃ x, x ∈ l ∧ y ∈ f x.
Proof. rewrite elem_of_list_join. setoid_rewrite elem_of_list_fmap. naive_solver. Qed.
Lemma NoDup_mjoin_fmap {A B} (f : A → list B) (l : list A) : NoDup l → (∀ x, x ∈ l → NoDup (f x)) →
  (∀ x y z, x ∈ l → y ∈ l → z ∈ f x → z ∈ f y → x = y) → NoDup (mjoin (f <$> l)).
Proof.
  induction l as [|a l IH]; intros Hl Hf Hd; cbn; [constructor|]. apply NoDup_cons in Hl as [Ha Hl]. apply NoDup_app. split_and!.
  - apply Hf. by left.
  - intros z Hz Hz'. apply elem_of_mjoin_fmap in Hz' as (x & Hx & Hz'). apply Ha.
    rewrite (Hd a x z); [done|by left|by right|done|done].
  - apply IH; [done| |]; intros; [apply Hf|eapply Hd]; try (by right); done.
Qed.

Lemma mjoin_app {A} (l l' : list (list A)) : mjoin (l ++ l') = mjoin l ++ mjoin l'.
Proof. induction l as [|x l IH]; [done|]. cbn. rewrite <-app_assoc. by f_equal. Qed.
Lemma NoDup_fmap_elem {A B} (f : A → B) (l : list A) x y : NoDup (f <$> l) → x ∈ l → y ∈ l → f x = f y → x = y.
Proof.
  induction l as [|a l IH]; [by intros _ Hx%elem_of_nil|]. cbn. intros [Ha Hl]%NoDup_cons [->|Hx]%elem_of_cons [->|Hy]%elem_of_cons E.
  - done.
  - exfalso. apply Ha. rewrite E. by apply elem_of_list_fmap_1.
  - exfalso. apply Ha. rewrite <-E. by apply elem_of_list_fmap_1.
  - by apply IH.
Qed.

Lemma course_ids_decls oc : d_id <$> course_decls oc = course_ids oc.
Proof.
  unfold course_decls, course_ids. cbn [fmap list_fmap]. f_equal.
  induction (oc_lessons oc) as [|le ls IH]; [done|]. cbn. rewrite fmap_app. cbn. f_equal. f_equal; [|exact IH].
  change (d_id <$> (exercise_decl <$> le.2) = em_id <$> le.2). rewrite <-list_fmap_compose. done.
Qed.
Lemma declared_app a b : declared (a ++ b) = declared a ++ declared b.
Proof. unfold declared. by rewrite fmap_app, mjoin_app. Qed.
Lemma declared_cons oc l : declared (oc :: l) = course_decls oc ++ declared l.
Proof. done. Qed.
Lemma elem_of_course_decls oc d : d ∈ course_decls oc ↔ d = course_decl (oc_manifest oc) ∨
  (∃ lm exs, (lm, exs) ∈ oc_lessons oc ∧ (d = lesson_decl lm ∨ ∃ em, em ∈ exs ∧ d = exercise_decl em)).
Proof.
  unfold course_decls. rewrite elem_of_cons, elem_of_mjoin_fmap. apply or_iff_compat_l. split.
  - intros ([lm exs] & H & Hd). exists lm, exs. split; [done|]. unfold lesson_decls in Hd. cbn in Hd.
    apply elem_of_cons in Hd as [->|Hd]; [by left|]. apply elem_of_list_fmap in Hd as (em & -> & Hem). right. eauto.
  - intros (lm & exs & H & Hd). exists (lm, exs). split; [done|]. unfold lesson_decls. cbn. apply elem_of_cons.
    destruct Hd as [->|(em & Hem & ->)]; [by left|]. right. apply elem_of_list_fmap. eauto.
Qed.

(** A part that is never left and has no cycles of its own does not matter. *)
Lemma acyclic_part (R R' : uid → uid → Prop) (P : uid → Prop) :
  (∀ u v, R' u v → P u → P v) → (∀ u, P u → ¬ tc R' u u) → (∀ u v, R' u v → ¬ P u → R u v) → (∀ u, P u ∨ ¬ P u) →
  acyclic R → acyclic R'.
Proof.
  intros Hc HP HR Hdec HA u Hu. destruct (Hdec u) as [Hp|Hp]; [by apply (HP u)|].
  apply (HA u). assert (∀ v w, tc R' v w → ¬ P w → ¬ P v ∧ tc R v w) as H; [|by apply (H u u)].
  intros v w Ht. induction Ht as [v w Hs|v x w Hs Ht IH]; intros Hw.
  - assert (¬ P v) by (intros Hv; apply Hw; by apply (Hc v)). split; [done|]. apply tc_once. by apply HR.
  - destruct (IH Hw) as [Hx Hxw]. assert (¬ P v) by (intros Hv; apply Hx; by apply (Hc v)). split; [done|].
    eapply tc_l; [by apply HR|done].
Qed.
Lemma acyclic_sub (R R' : uid → uid → Prop) : (∀ u v, R' u v → R u v) → acyclic R → acyclic R'.
Proof.
  intros H HA u Hu. apply (HA u). revert Hu. generalize u at 2 4. intros w Hu.
  induction Hu as [v w Hs|v x w Hs Ht IH]; [by apply tc_once, H|]. eapply tc_l; [by apply H|done].
Qed.
Lemma acyclic_measure (R : uid → uid → Prop) (f : uid → nat) : (∀ u v, R u v → f u < f v) → acyclic R.
Proof.
  intros H u Hu. assert (f u < f u); [|lia]. revert Hu. generalize u at 1 3. intros w Hu.
  induction Hu as [v w Hs|v x w Hs Ht IH]; [by apply H|]. apply H in Hs. lia.
Qed.

(** ** Replacing the lessons of a course *)
Section replace.
  Context (before after : list open_course) (cm : course_manifest) (ls : list (lesson_manifest * list exercise_manifest)).
  Local Notation full := (before ++ OpenCourse cm ls :: after).
  Local Notation small := (before ++ bare cm :: after).
  Lemma full_decl d : d ∈ declared full ↔ d ∈ declared small ∨
    (∃ lm exs, (lm, exs) ∈ ls ∧ (d = lesson_decl lm ∨ ∃ em, em ∈ exs ∧ d = exercise_decl em)).
  Proof.
    rewrite !declared_app, !declared_cons, !elem_of_app, !elem_of_course_decls. cbn [oc_manifest oc_lessons bare].
    assert (∀ lm exs, (lm, exs) ∉ ([] : list (lesson_manifest * list exercise_manifest))) by (intros; apply not_elem_of_nil).
    naive_solver.
  Qed.
End replace.

(** ** Parts of a library that do not affect whether it opens *)
Definition rel_of (courses : list open_course) (R : decl → uid → Prop) (u x : uid) : Prop :=
  ∃ d, d ∈ declared courses ∧ d_id d = u ∧ R d x.
Definition dep_rel (d : decl) (x : uid) : Prop := x ∈ d_deps d.
Definition sup_rel (d : decl) (x : uid) : Prop := x ∈ d_sup d.
Definition enc_rel (d : decl) (x : uid) : Prop := x ∈ d_deps d ∨ x ∈ (d_enc d).*1.
Lemma enc_rel_iff d x : enc_rel d x ↔ ∃ w, (x, w) ∈ d_enc d ∨ (w = f_1 ∧ x ∈ d_deps d ∧ ∀ w', (x, w') ∉ d_enc d).
Proof.
  unfold enc_rel. rewrite elem_of_list_fmap. split.
  - intros [H|([y w] & -> & H)]; [|exists w; by left]. destruct (decide (x ∈ (d_enc d).*1)) as [Hx|Hx].
    + apply elem_of_list_fmap in Hx as ([y w] & -> & Hy). exists w. by left.
    + exists f_1. right. split; [done|]. split; [done|]. intros w' Hw. apply Hx. apply elem_of_list_fmap. by exists (x, w').
  - intros (w & [H|(_ & H & _)]); [right; by exists (x, w)|by left].
Qed.
Lemma no_cycles_rels courses : no_cycles courses ↔
  acyclic (rel_of courses dep_rel) ∧ acyclic (rel_of courses sup_rel) ∧ acyclic (rel_of courses enc_rel).
Proof.
  unfold no_cycles. do 2 apply and_iff_compat_l.
  assert (∀ u x, (∃ w, says_enc courses u x w) ↔ rel_of courses enc_rel u x) as H.
  { intros u x. unfold says_enc, rel_of. setoid_rewrite enc_rel_iff. naive_solver. }
  split; apply acyclic_sub; intros u v; apply H.
Qed.
Section part.
  Context (full small : list open_course) (P : uid → Prop).
  Context (Hsub : sublist (declared small) (declared full)).
  (** What is added is in the part or has no relations. *)
  Context (Hadd : ∀ d, d ∈ declared full → d ∈ declared small ∨ P (d_id d) ∨ (d_deps d = [] ∧ d_enc d = [] ∧ d_sup d = [])).
  Context (Hdec : ∀ u, P u ∨ ¬ P u).
  Context (Hw : ∀ d x w, d ∈ declared full → P (d_id d) → (x, w) ∈ d_enc d → fle fzero w = true ∧ fle w f_1 = true).
  Definition inner (R : decl → uid → Prop) : Prop :=
    (∀ u x, rel_of full R u x → P u → P x) ∧ (∀ u, P u → ¬ tc (rel_of full R) u u).
  Context (Hdep : inner dep_rel) (Hsup : inner sup_rel) (Henc : inner enc_rel).
  Lemma part_acyclic R : inner R → (∀ d x, d_deps d = [] → d_enc d = [] → d_sup d = [] → ¬ R d x) →
    acyclic (rel_of full R) ↔ acyclic (rel_of small R).
  Proof using Hsub Hadd Hdec.
    intros [H1 H2] Hn. split.
    - apply acyclic_sub. intros u v (d & Hd & H). exists d. split; [|done]. eapply elem_of_submseteq; [exact Hd|by apply sublist_submseteq].
    - apply (acyclic_part _ _ P); [done|done| |done]. intros u v (d & Hd & E & HR) Hu. exists d. split; [|done].
      destruct (Hadd d Hd) as [?|[?|(? & ? & ?)]]; [done| |by destruct (Hn d v)]. exfalso. apply Hu. by rewrite <-E.
  Qed.
  Lemma part_opens o : order_ok o → Forall consistent full → Forall consistent small → distinct_ids full →
    is_Some (open_library o full) ↔ is_Some (open_library o small).
  Proof using All.
    intros Ho Hf Hs Hd. rewrite (open_library_iff o full Ho Hf), (open_library_iff o small Ho Hs), !no_cycles_rels.
    rewrite (part_acyclic dep_rel Hdep), (part_acyclic sup_rel Hsup), (part_acyclic enc_rel Henc).
    - assert (distinct_ids small) as Hd'.
      { unfold distinct_ids in *. eapply sublist_NoDup; [by apply fmap_sublist|exact Hd]. }
      assert (valid_weights full ↔ valid_weights small) as Hv; [|naive_solver].
      split; intros H d x w Hx He.
      + apply (H d x w); [|done]. eapply elem_of_submseteq; [exact Hx|by apply sublist_submseteq].
      + destruct (Hadd d Hx) as [?|[?|(_ & E & _)]]; [by apply (H d x w)|by apply (Hw d x w)|]. rewrite E in He. by apply elem_of_nil in He.
    - intros d x H1 H2 _. unfold enc_rel. rewrite H1, H2. cbn. rewrite elem_of_nil. naive_solver.
    - intros d x _ _ H. unfold sup_rel. rewrite H. apply not_elem_of_nil.
    - intros d x H _ _. unfold dep_rel. rewrite H. apply not_elem_of_nil.
  Qed.
End part.
