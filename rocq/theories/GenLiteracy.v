(** Literacy courses. *)
From stdpp Require Import gmap strings list sorting.
From Verif Require Import F32 Graph GraphSpec Library LibrarySpec LoadProofs Generators GenSpec StrFacts GenBase.
Local Open Scope string_scope.
Local Open Scope list_scope.

(** ** File names *)
Lemma literacy_kind_name n f : literacy_kind n = Some f → literacy_name f = n.
Proof.
  unfold literacy_kind. repeat (case_bool_decide as H; [intros [= <-]; by rewrite H|]; clear H).
  repeat (match goal with |- context [strip_suffix ?a ?b] => destruct (strip_suffix a b) as [id|] eqn:E; [apply strip_suffix_spec in E as ->; by intros [= <-]|]; clear E end).
  repeat (case_bool_decide as H; [intros [= <-]; by rewrite H|]; clear H). done.
Qed.
Lemma literacy_name_kind f : literacy_kind (literacy_name f) = Some f.
Proof.
  destruct f as [| | | | | |id|id|id|id| | | |]; try reflexivity; cbn [literacy_name]; unfold literacy_kind.
  all: repeat (rewrite bool_decide_false; [|match goal with |- ?p +:+ ?s ≠ ?t => apply (ends_differ p "" s t eq_refl) end]).
  all: repeat (rewrite strip_other by reflexivity); by rewrite strip_suffix_app.
Qed.

(** ** Directories *)
Lemma find_file_iff (dir : list (string * content)) n c : NoDup dir.*1 → find_file dir n = Some c ↔ (n, c) ∈ dir.
Proof.
  induction dir as [|[m d] dir IH]; cbn [find_file fmap list_fmap fst]; intros Hd.
  - split; [done|intros H; by apply elem_of_nil in H].
  - apply NoDup_cons in Hd as [Hm Hd]. rewrite elem_of_cons. case_bool_decide as E; subst.
    + split; [intros [= ->]; by left|]. intros [[= ->]|H]; [done|]. exfalso. apply Hm. apply elem_of_list_fmap. by exists (n, c).
    + rewrite (IH Hd). split; [by right|]. intros [[= -> ->]|H]; [done|done].
Qed.
Lemma find_file_none (dir : list (string * content)) n : n ∉ dir.*1 → find_file dir n = None.
Proof.
  induction dir as [|[m d] dir IH]; cbn [find_file fmap list_fmap fst]; [done|]. intros [H1 H2]%not_elem_of_cons.
  rewrite bool_decide_false by done. by apply IH.
Qed.
Lemma find_file_perm (dir dir' : list (string * content)) n : NoDup dir.*1 → dir ≡ₚ dir' → find_file dir n = find_file dir' n.
Proof.
  intros Hd Hp. assert (NoDup dir'.*1) as Hd' by by rewrite <-Hp.
  apply option_eq. intros c. by rewrite !find_file_iff, Hp.
Qed.

(** ** Opening a lesson *)
Section open.
  Context (dir : list (string * content)) (Hd : NoDup dir.*1).
  Definition all_readable (es : list (string * content)) (P : literacy_file → Prop) : Prop :=
    ∀ n c f, (n, c) ∈ es → literacy_kind n = Some f → P f → readable f c.
  Definition is_answer (e : bool) (f : literacy_file) : Prop :=
    match f, e with LExampleAnswer _, false | LExceptionAnswer _, true => True | _, _ => False end.
  Definition answer_name (e : bool) (s : string) : string := if e then s +:+ ".exception_answer.md" else s +:+ ".answer.md".
  Lemma answer_kind e s : literacy_kind (answer_name e s) = Some (if e then LExceptionAnswer s else LExampleAnswer s).
  Proof using. destruct e; [apply (literacy_name_kind (LExceptionAnswer s))|apply (literacy_name_kind (LExampleAnswer s))]. Qed.
  Lemma all_readable_cons n c es P : all_readable ((n, c) :: es) P ↔
    (∀ f, literacy_kind n = Some f → P f → readable f c) ∧ all_readable es P.
  Proof using.
    unfold all_readable. setoid_rewrite elem_of_cons. split.
    - intros H. split; [intros f; apply (H n c f); by left|]. intros n' c' f Hin. apply (H n' c' f). by right.
    - intros [H1 H2] n' c' f [[= -> ->]|Hin]; [apply H1|by apply (H2 n' c' f)].
  Qed.
  Lemma entry_file n c f : (n, c) ∈ dir → literacy_kind n = Some f → find_file dir (literacy_name f) = Some c.
  Proof using Hd. intros Hin Hk. rewrite (literacy_kind_name n f Hk). by apply find_file_iff. Qed.
  Lemma answers_spec e es m0 : (∀ x, x ∈ es → x ∈ dir) → NoDup es.*1 →
    (all_readable es (is_answer e) → ∃ m, literacy_answers dir e (omap literacy_kind es.*1) m0 = Some m ∧
      ∀ s, m !! s = match find_file es (answer_name e s) with Some c => as_text c | None => m0 !! s end) ∧
    (¬ all_readable es (is_answer e) → literacy_answers dir e (omap literacy_kind es.*1) m0 = None).
  Proof using Hd.
    revert m0. induction es as [|[n c] es IH]; intros m0 Hin Hn.
    { split; [intros _; by exists m0|]. intros []. intros n c f H. by apply elem_of_nil in H. }
    cbn [fmap list_fmap fst] in Hn |- *. apply NoDup_cons in Hn as [Hn1 Hn]. rewrite all_readable_cons.
    assert (∀ x, x ∈ es → x ∈ dir) as Hin' by (intros x Hx; apply Hin; by right).
    assert ((n, c) ∈ dir) as Hc by (apply Hin; by left). cbn [omap list_omap].
    destruct (literacy_kind n) as [f|] eqn:Ek.
    2: { destruct (IH m0 Hin' Hn) as [IH1 IH2]. split.
         - intros [_ H]. destruct (IH1 H) as (m & E & Hm). exists m. split; [done|]. intros s. rewrite Hm. cbn [find_file].
           rewrite bool_decide_false; [done|]. intros ->. by rewrite answer_kind in Ek.
         - intros H. apply IH2. intros H'. apply H. by split. }
    assert (is_answer e f ∨ ¬ is_answer e f) as [Ha|Ha] by (destruct f, e; cbn; tauto).
    - assert (∃ s, n = answer_name e s ∧ (readable f c ↔ is_Some (as_text c)) ∧
        literacy_answers dir e (f :: omap literacy_kind es.*1) m0 =
          (a ← as_text c; literacy_answers dir e (omap literacy_kind es.*1) (<[s := a]> m0))) as (s & En & Hr & Eq).
      { pose proof (entry_file n c f Hc Ek) as Ef. pose proof (literacy_kind_name n f Ek) as Enn.
        destruct f as [| | | | | | | |s|s| | | |], e; try done; exists s; (split; [by rewrite <-Enn|]); (split; [done|]);
          cbn [literacy_answers]; rewrite Ef; done. }
      rewrite Eq. destruct (as_text c) as [a|] eqn:Et; cbn [mbind option_bind].
      + destruct (IH (<[s := a]> m0) Hin' Hn) as [IH1 IH2]. split.
        * intros [_ H]. destruct (IH1 H) as (m & E & Hm). exists m. split; [done|]. intros s'. rewrite Hm. cbn [find_file].
          destruct (decide (s' = s)) as [->|Hs].
          -- rewrite <-En. rewrite find_file_none by done. rewrite lookup_insert, bool_decide_true by done. done.
          -- rewrite lookup_insert_ne by done. rewrite bool_decide_false; [done|]. rewrite En. intros E'. apply Hs. unfold answer_name in E'.
             destruct e; by apply sapp_inv_r in E'.
        * intros H. apply IH2. intros H'. apply H. split; [|done]. intros f' [= <-] _. by apply Hr.
      + split; [|done]. intros [H _]. specialize (H f eq_refl Ha). apply Hr in H as [a H]. done.
    - assert (literacy_answers dir e (f :: omap literacy_kind es.*1) m0 = literacy_answers dir e (omap literacy_kind es.*1) m0) as ->
        by (destruct f, e; try done; cbn in Ha; tauto).
      destruct (IH m0 Hin' Hn) as [IH1 IH2]. split.
      + intros [_ H]. destruct (IH1 H) as (m & E & Hm). exists m. split; [done|]. intros s. rewrite Hm. cbn [find_file].
        rewrite bool_decide_false; [done|]. intros ->. apply Ha. rewrite answer_kind in Ek. injection Ek as <-. by destruct e.
      + intros H. apply IH2. intros H'. apply H. split; [|done]. intros f' [= <-] Hf. done.
  Qed.

  Context (ans exc : gmap string string).
  Context (Hans : ∀ s, ans !! s = find_file dir (s +:+ ".answer.md") ≫= as_text).
  Context (Hexc : ∀ s, exc !! s = find_file dir (s +:+ ".exception_answer.md") ≫= as_text).
  Definition not_answer (f : literacy_file) : Prop := match f with LExampleAnswer _ | LExceptionAnswer _ => False | _ => True end.
  Definition after (es : list (string * content)) (l : literacy_lesson) : literacy_lesson :=
    LiteracyLesson (default (ll_dependencies l) (find_file es "lesson.dependencies.json" ≫= as_ids))
      (default (ll_encompassed l) (find_file es "lesson.encompassed.json" ≫= as_weights))
      (default (ll_superseded l) (find_file es "lesson.superseded.json" ≫= as_ids))
      (ll_examples l ++ mjoin (file_examples dir <$> es)) (ll_exceptions l ++ mjoin (file_exceptions dir <$> es)).
  Lemma skip_entry n c es l : literacy_kind n ≠ Some LLessonDependencies → literacy_kind n ≠ Some LLessonEncompassed →
    literacy_kind n ≠ Some LLessonSuperseded → file_examples dir (n, c) = [] → file_exceptions dir (n, c) = [] →
    after ((n, c) :: es) l = after es l.
  Proof using.
    intros H1 H2 H3 E1 E2. unfold after. cbn [find_file fmap list_fmap mjoin list_join]. rewrite E1, E2. cbn [app].
    rewrite !bool_decide_false; [done| | |]; intros ->.
    - by apply H3.
    - by apply H2.
    - by apply H1.
  Qed.
  Lemma step_spec n c f es l : (n, c) ∈ dir → n ∉ es.*1 → literacy_kind n = Some f →
    (¬ readable f c → not_answer f → literacy_step dir ans exc l f = None) ∧
    (readable f c ∨ ¬ not_answer f → ∃ l', literacy_step dir ans exc l f = Some l' ∧ after es l' = after ((n, c) :: es) l).
  Proof using Hd Hans Hexc.
    intros Hc Hn Ek. pose proof (entry_file n c f Hc Ek) as Ef. pose proof (literacy_kind_name n f Ek) as En.
    assert (∀ {A} (o : option A), ¬ is_Some o → o = None) as Hnone by (intros A [a|] Ho; [by destruct Ho|done]).
    split.
    - intros Hr Hna. unfold literacy_step. rewrite Ef. cbn [mbind option_bind].
      destruct f; cbn in Hr, Hna; try done; by rewrite (Hnone _ _ Hr).
    - intros Hr. unfold literacy_step. rewrite Ef. cbn [mbind option_bind].
      assert (∀ o : list (string * option string), o ++ [] = o) as Hnil by (intros; apply app_nil_r).
      destruct f; cbn in Hr; try (destruct Hr as [[v Hr]|[]]; [|done]; rewrite Hr; cbn [fmap option_fmap option_map]); try (eexists; split; [reflexivity|]).
      all: try (rewrite skip_entry; [done|by rewrite Ek|by rewrite Ek|by rewrite Ek|unfold file_examples; cbn [fst]; by rewrite Ek|unfold file_exceptions; cbn [fst]; by rewrite Ek]).
      all: unfold after; cbn [ll_dependencies ll_encompassed ll_superseded ll_examples ll_exceptions find_file fmap list_fmap mjoin list_join].
      all: unfold file_examples at 2; unfold file_exceptions at 2; cbn [fst snd]; rewrite Ek, ?Hr; cbn [app default from_option fmap].
      all: rewrite <-?app_assoc; cbn [app]; rewrite <-?Hans, <-?Hexc.
      all: cbn in En; subst n; cbn [fst] in Hn.
      all: repeat match goal with
        | |- context [bool_decide (?a = ?a)] => rewrite (bool_decide_true (a = a)) by done; rewrite (find_file_none es a) by done; cbn [mbind option_bind default from_option]; rewrite Hr
        | |- context [bool_decide (?p +:+ ?s = ?t)] => rewrite (bool_decide_false (p +:+ s = t)) by (apply (ends_differ p "" s t eq_refl))
        | |- context [bool_decide (?a = ?b)] => rewrite (bool_decide_false (a = b)) by done
        end; done.
  Qed.
  Lemma fold_spec es l : (∀ x, x ∈ es → x ∈ dir) → NoDup es.*1 →
    (all_readable es not_answer → try_fold (literacy_step dir ans exc) (omap literacy_kind es.*1) l = Some (after es l)) ∧
    (¬ all_readable es not_answer → try_fold (literacy_step dir ans exc) (omap literacy_kind es.*1) l = None).
  Proof using Hd Hans Hexc.
    revert l. induction es as [|[n c] es IH]; intros l Hin Hn.
    { split; [intros _|].
      - cbn. unfold after. cbn. rewrite !app_nil_r. by destruct l.
      - intros []. intros n c f H. by apply elem_of_nil in H. }
    cbn [fmap list_fmap fst] in Hn |- *. apply NoDup_cons in Hn as [Hn1 Hn]. rewrite all_readable_cons.
    assert (∀ x, x ∈ es → x ∈ dir) as Hin' by (intros x Hx; apply Hin; by right).
    assert ((n, c) ∈ dir) as Hc by (apply Hin; by left). cbn [omap list_omap].
    destruct (literacy_kind n) as [f|] eqn:Ek.
    - destruct (step_spec n c f es l Hc Hn1 Ek) as [S1 S2]. cbn [try_fold].
      assert ((readable f c ∨ ¬ not_answer f) ∨ (¬ readable f c ∧ not_answer f)) as [Hr|[Hr Hna]].
      { assert (readable f c ∨ ¬ readable f c) as [?|?].
        { destruct f; cbn; repeat match goal with |- context [is_Some ?o] => destruct o; [left; eauto|right; by intros [? ?]] end. }
        - left. by left.
        - destruct f; cbn; tauto. }
      + destruct (S2 Hr) as (l' & -> & Ea). cbn [mbind option_bind]. destruct (IH l' Hin' Hn) as [IH1 IH2]. split.
        * intros [_ H]. rewrite (IH1 H). by rewrite Ea.
        * intros H. apply IH2. intros H'. apply H. split; [|done]. intros f' [= <-] Hf. by destruct Hr.
      + rewrite (S1 Hr Hna). split; [|done]. intros [H _]. by destruct (Hr (H f eq_refl Hna)).
    - destruct (IH l Hin' Hn) as [IH1 IH2]. split.
      + intros [_ H]. rewrite (IH1 H). f_equal. symmetry. apply skip_entry; try (by rewrite Ek); [unfold file_examples|unfold file_exceptions]; cbn [fst]; by rewrite Ek.
      + intros H. apply IH2. intros H'. apply H. by split.
  Qed.
End open.

Global Instance example_le_trans : Transitive example_le.
Proof.
  intros [a x] [b y] [c z]. unfold example_le. cbn [fst snd]. intros H1 H2.
  repeat case_bool_decide; subst; try done.
  - destruct x, y, z; try done. by etrans.
  - exfalso. apply H. by apply (anti_symm uid_le).
  - by etrans.
Qed.
Global Instance example_le_antisymm : AntiSymm (=) example_le.
Proof.
  intros [a x] [b y]. unfold example_le. cbn [fst snd]. intros H1 H2. repeat case_bool_decide; subst; try done.
  - destruct x, y; try done. f_equal. f_equal. by apply (anti_symm uid_le).
  - exfalso. apply H. by apply (anti_symm uid_le).
Qed.
Global Instance example_le_total : Total example_le.
Proof.
  intros [a x] [b y]. unfold example_le. cbn [fst snd]. repeat case_bool_decide; subst; try done.
  - destruct x, y; try (by left); try (by right). apply (total uid_le).
  - apply (total uid_le).
Qed.

Lemma readable_dec f c : readable f c ∨ ¬ readable f c.
Proof. destruct f; cbn; match goal with |- context [is_Some ?o] => destruct o; [left; eauto|right; by intros [? ?]] end. Qed.
Lemma literacy_opened dir : NoDup dir.*1 →
  (all_files_readable dir → ∃ l, open_literacy_lesson dir = Some l ∧ literacy_contents dir l) ∧
  (∀ l, open_literacy_lesson dir = Some l → all_files_readable dir).
Proof.
  intros Hd. unfold open_literacy_lesson.
  destruct (answers_spec dir Hd false dir ∅ (λ _ H, H) Hd) as [A1 A2]. destruct (answers_spec dir Hd true dir ∅ (λ _ H, H) Hd) as [B1 B2].
  assert (∀ ans exc, (∀ s, ans !! s = match find_file dir (answer_name false s) with Some c => as_text c | None => (∅ : gmap string string) !! s end) →
    (∀ s, exc !! s = match find_file dir (answer_name true s) with Some c => as_text c | None => (∅ : gmap string string) !! s end) →
    ∀ l, (all_readable dir not_answer → try_fold (literacy_step dir ans exc) (omap literacy_kind dir.*1) l = Some (after dir dir l)) ∧
    (¬ all_readable dir not_answer → try_fold (literacy_step dir ans exc) (omap literacy_kind dir.*1) l = None)) as HF.
  { intros ans exc Ha He l. apply (fold_spec dir Hd ans exc); [| |done|done].
    - intros s. rewrite Ha. unfold answer_name. by destruct (find_file _ _).
    - intros s. rewrite He. unfold answer_name. by destruct (find_file _ _). }
  split.
  - intros Hr. destruct A1 as (ans & -> & Ha); [intros n c f Hin Hk _; by apply (Hr n c f)|].
    destruct B1 as (exc & -> & He); [intros n c f Hin Hk _; by apply (Hr n c f)|]. cbn [mbind option_bind].
    destruct (HF ans exc Ha He new_literacy_lesson) as [HF1 _]. rewrite HF1; [|intros n c f Hin Hk _; by apply (Hr n c f)].
    cbn [mbind option_bind]. eexists. split; [done|]. unfold literacy_contents, literacy_sorted, after.
    cbn [ll_dependencies ll_encompassed ll_superseded ll_examples ll_exceptions new_literacy_lesson app].
    split_and!; [done|done|done| | | |].
    + apply merge_sort_Permutation.
    + apply Sorted_merge_sort. apply _.
    + apply merge_sort_Permutation.
    + apply Sorted_merge_sort. apply _.
  - intros l Hl n c f Hin Hk. destruct (readable_dec f c) as [?|Hr]; [done|]. exfalso.
    assert (∀ P : literacy_file → Prop, P f → ¬ all_readable dir P) as Hn by (intros P HP H; apply Hr; by apply (H n c f)).
    destruct (literacy_answers dir false _ ∅) as [ans|] eqn:Ea; [|done]. destruct (literacy_answers dir true _ ∅) as [exc|] eqn:Ee; [|done].
    cbn [mbind option_bind] in Hl.
    assert (¬ ¬ all_readable dir (is_answer false)) as Hna by (intros H; by specialize (A2 H)).
    assert (¬ ¬ all_readable dir (is_answer true)) as Hne by (intros H; by specialize (B2 H)).
    assert (not_answer f ∨ is_answer false f ∨ is_answer true f) as [Hf|[Hf|Hf]] by (destruct f; cbn; tauto).
    2: { by apply Hna, (Hn (is_answer false)). }
    2: { by apply Hne, (Hn (is_answer true)). }
    apply Hna. intros Ra. apply Hne. intros Re. destruct (A1 Ra) as (ans' & [= <-] & Ha). destruct (B1 Re) as (exc' & [= <-] & He).
    destruct (HF ans exc Ha He new_literacy_lesson) as [_ HF2]. rewrite HF2 in Hl; [done|]. by apply Hn.
Qed.
Lemma literacy_opens_iff dir : NoDup dir.*1 → is_Some (open_literacy_lesson dir) ↔ all_files_readable dir.
Proof.
  intros Hd. destruct (literacy_opened dir Hd) as [H1 H2]. split.
  - intros [l Hl]. by eapply H2.
  - intros H. destruct (H1 H) as (l & Hl & _). by exists l.
Qed.
Lemma literacy_opened_contents dir l : NoDup dir.*1 → open_literacy_lesson dir = Some l → literacy_contents dir l.
Proof.
  intros Hd Hl. destruct (literacy_opened dir Hd) as [H1 H2]. destruct (H1 (H2 l Hl)) as (l' & Hl' & H). rewrite Hl in Hl'. by injection Hl' as <-.
Qed.
(** The order in which the files are listed does not matter. *)
Lemma literacy_order dir dir' : NoDup dir.*1 → dir ≡ₚ dir' → open_literacy_lesson dir = open_literacy_lesson dir'.
Proof.
  intros Hd Hp. assert (NoDup dir'.*1) as Hd' by by rewrite <-Hp.
  assert (all_files_readable dir ↔ all_files_readable dir') as Hr by (unfold all_files_readable; by setoid_rewrite Hp).
  destruct (open_literacy_lesson dir) as [l|] eqn:El.
  - destruct (proj2 (literacy_opens_iff dir' Hd')) as [l' El'].
    { apply Hr, literacy_opens_iff; [done|]. by exists l. }
    rewrite El'. f_equal. apply literacy_opened_contents in El as (A1 & A2 & A3 & A4 & A5 & A6 & A7); [|done].
    apply literacy_opened_contents in El' as (B1 & B2 & B3 & B4 & B5 & B6 & B7); [|done].
    assert (∀ e, file_examples dir e = file_examples dir' e) as E1.
    { intros e. unfold file_examples. destruct (literacy_kind e.1) as [[]|]; try done. by rewrite (find_file_perm dir dir'). }
    assert (∀ e, file_exceptions dir e = file_exceptions dir' e) as E2.
    { intros e. unfold file_exceptions. destruct (literacy_kind e.1) as [[]|]; try done. by rewrite (find_file_perm dir dir'). }
    destruct l, l'; cbn in *. subst. f_equal.
    + by rewrite (find_file_perm dir dir').
    + by rewrite (find_file_perm dir dir').
    + by rewrite (find_file_perm dir dir').
    + apply (Sorted_unique example_le); [done|done|]. rewrite A4, B4. rewrite (list_fmap_ext _ _ dir (λ _ e _, E1 e)). by rewrite Hp.
    + apply (Sorted_unique example_le); [done|done|]. rewrite A6, B6. rewrite (list_fmap_ext _ _ dir (λ _ e _, E2 e)). by rewrite Hp.
  - destruct (open_literacy_lesson dir') as [l'|] eqn:El'; [|done]. exfalso.
    assert (is_Some (open_literacy_lesson dir)) as [l Hl].
    { apply literacy_opens_iff; [done|]. apply Hr, literacy_opens_iff; [done|]. by exists l'. }
    by rewrite El in Hl.
Qed.

(** ** Generated courses *)
Lemma literacy_dirs_in dirs s dir : (s, dir) ∈ literacy_dirs dirs ↔ lesson_dir dirs s dir.
Proof.
  unfold literacy_dirs, lesson_dir. rewrite elem_of_list_omap. split.
  - intros ([n d] & Hin & H). destruct (strip_suffix ".lesson" n) as [id|] eqn:E; [|done]. apply strip_suffix_spec in E as ->.
    destruct id; [done|]. by injection H as <- <-.
  - intros [Hs Hin]. eexists. split; [exact Hin|]. cbn. rewrite strip_suffix_app. by destruct s.
Qed.
Lemma literacy_dirs_NoDup dirs : NoDup dirs.*1 → NoDup (literacy_dirs dirs).*1.
Proof.
  induction dirs as [|[n d] dirs IH]; cbn [fmap list_fmap fst]; intros H; [constructor|]. apply NoDup_cons in H as [Hn H]. unfold literacy_dirs. cbn [omap list_omap].
  fold (literacy_dirs dirs). destruct (strip_suffix ".lesson" n) as [id|] eqn:E; [|by apply IH]. destruct id as [|x id]; [by apply IH|].
  cbn [fmap list_fmap fst]. apply NoDup_cons. split; [|by apply IH]. intros ([s d'] & Es & Hin)%elem_of_list_fmap. cbn in Es. subst s.
  apply Hn. apply literacy_dirs_in in Hin as [_ Hin]. apply elem_of_list_fmap. exists (String x id +:+ ".lesson", d'). split; [|done].
  by apply strip_suffix_spec in E.
Qed.
Lemma open_all_spec {A} (f : list (string * content) → option A) ds l : open_all f ds = Some l →
  Forall2 (λ d x, x.1 = d.1 ∧ f d.2 = Some x.2) ds l.
Proof.
  revert l. induction ds as [|[s d] ds IH]; intros l; cbn [open_all]; [by intros [= <-]|].
  destruct (f d) as [a|] eqn:E; cbn; [|done]. destruct (open_all f ds) as [l'|]; cbn; [|done]. intros [= <-]. constructor; [done|by apply IH].
Qed.
Lemma open_all_fst {A} (f : list (string * content) → option A) ds l : open_all f ds = Some l → l.*1 = ds.*1.
Proof. intros H%open_all_spec. induction H as [|d x ds l [E _] _ IH]; [done|]. cbn. by f_equal. Qed.
Lemma open_all_in {A} (f : list (string * content) → option A) ds l s a : open_all f ds = Some l →
  (s, a) ∈ l ↔ ∃ d, (s, d) ∈ ds ∧ f d = Some a ∧ (s, a) ∈ l.
Proof.
  intros H%open_all_spec. split; [|by intros (d & _ & _ & ?)]. intros Hin. apply elem_of_list_lookup in Hin as [i Hi].
  destruct (Forall2_lookup_r _ _ _ _ _ H Hi) as ([s' d] & Hd & [E1 E2]). cbn in E1, E2. subst s'. exists d. split_and!; [|done|].
  - by eapply elem_of_list_lookup_2.
  - by eapply elem_of_list_lookup_2.
Qed.
Lemma open_all_from {A} (f : list (string * content) → option A) ds l s d : open_all f ds = Some l → (s, d) ∈ ds → ∃ a, f d = Some a ∧ (s, a) ∈ l.
Proof.
  intros H%open_all_spec Hin. apply elem_of_list_lookup in Hin as [i Hi].
  destruct (Forall2_lookup_l _ _ _ _ _ H Hi) as ([s' a] & Ha & [E1 E2]). cbn in E1, E2. subst s'. exists a. split; [done|]. by eapply elem_of_list_lookup_2.
Qed.

Lemma full_id_in c ids suf x : x ∈ ids → full_id c ids suf x = under c x +:+ suf.
Proof. intros H. unfold full_id. by rewrite bool_decide_true. Qed.
Lemma full_id_two c ids suf x : x ∈ ids → full_id c ids ("::" +:+ suf) x = id_of c [x; suf].
Proof. intros H. rewrite full_id_in by done. unfold under, id_of. cbn [comps]. by rewrite sapp_nil, !sapp_assoc. Qed.
Lemma full_id_out c ids suf x : x ∉ ids → full_id c ids suf x = x.
Proof. intros H. unfold full_id. by rewrite bool_decide_false. Qed.
Lemma full_id_expanded c ids (inside : uid → Prop) suf y x : (∀ s, s ∈ ids ↔ inside s) →
  x = full_id c ids ("::" +:+ suf) y ↔ expanded inside (λ s, id_of c [s; suf]) y x.
Proof.
  intros H. unfold expanded. rewrite <-H. destruct (decide (y ∈ ids)) as [Hy|Hy].
  - rewrite full_id_two by done. naive_solver.
  - rewrite full_id_out by done. naive_solver.
Qed.
Lemma sort_ids_in l x : x ∈ sort_ids l ↔ x ∈ l.
Proof. unfold sort_ids. by rewrite merge_sort_Permutation. Qed.

Lemma mjoin_cons {A} (x : list A) l : mjoin (x :: l) = x ++ mjoin l.
Proof. done. Qed.
Section generated.
  Context (ord : ∀ A, list (uid * A) → list (uid * A)) (Hord : ∀ A l, ord A l ≡ₚ l).
  Context (dictation : bool) (instructions : option content) (dirs : list (string * list (string * content))) (cm : course_manifest) (oc : open_course).
  Context (Hg : generate_literacy ord dictation instructions dirs cm = Some oc).
  Lemma generated_literacy : ∃ ls, open_all open_literacy_lesson (literacy_dirs dirs) = Some ls ∧
    oc_lessons oc = mjoin (literacy_manifests dictation (cm_id cm) ls.*1 <$> ord _ ls) ∧
    cm_id (oc_manifest oc) = cm_id cm.
  Proof using Hg.
    unfold generate_literacy in Hg. destruct (open_all _ _) as [ls|]; [|done]. cbn in Hg.
    destruct (match instructions with Some c => as_text c | None => Some "" end); [|done]. injection Hg as <-. exists ls. done.
  Qed.
  Lemma literacy_ids ls s : open_all open_literacy_lesson (literacy_dirs dirs) = Some ls → s ∈ ls.*1 ↔ literacy_inside dirs s.
  Proof using.
    intros H. rewrite (open_all_fst _ _ _ H), elem_of_list_fmap. unfold literacy_inside. split.
    - intros ([s' d] & -> & Hin). exists d. by apply literacy_dirs_in.
    - intros (d & Hin). exists (s, d). split; [done|]. by apply literacy_dirs_in.
  Qed.
  Lemma reading_spec ls s l : open_all open_literacy_lesson (literacy_dirs dirs) = Some ls → literacy_inside dirs s →
    reading_of (cm_id cm) dirs s l (reading_lesson (cm_id cm) ls.*1 s l).1 (reading_lesson (cm_id cm) ls.*1 s l).2.
  Proof using.
    intros Hls Hs. pose proof (literacy_ids ls) as Hids. unfold reading_of, reading_lesson.
    cbn [fst snd lm_id lm_course_id lm_dependencies lm_encompassed lm_superseded].
    assert (full_id (cm_id cm) ls.*1 "::reading" s = id_of (cm_id cm) [s; "reading"]) as E by by apply (full_id_two _ _ "reading"), Hids.
    split; [done|]. split; [done|].
    assert (∀ y x, x = full_id (cm_id cm) ls.*1 "::reading" y ↔ expanded (literacy_inside dirs) (λ s, id_of (cm_id cm) [s; "reading"]) y x) as HE.
    { intros y x. apply (full_id_expanded _ _ _ "reading"). intros s'. by apply Hids. }
    split_and!.
    - intros x. rewrite sort_ids_in, elem_of_list_fmap. setoid_rewrite HE. naive_solver.
    - intros x w. rewrite merge_sort_Permutation, elem_of_list_fmap. setoid_rewrite <-HE. split.
      + intros ([y w'] & [= -> ->] & Hin). by exists y.
      + intros (y & Hin & ->). by exists (y, w).
    - intros x. rewrite sort_ids_in, elem_of_list_fmap. setoid_rewrite HE. naive_solver.
    - rewrite E. by rewrite under_id.
  Qed.
  Lemma dictation_spec ls s l : open_all open_literacy_lesson (literacy_dirs dirs) = Some ls → literacy_inside dirs s →
    dictation_of (cm_id cm) dirs s l (dictation_lesson (cm_id cm) ls.*1 s l).1 (dictation_lesson (cm_id cm) ls.*1 s l).2.
  Proof using.
    intros Hls Hs. pose proof (literacy_ids ls) as Hids. unfold dictation_of, dictation_lesson.
    cbn [fst snd lm_id lm_course_id lm_dependencies lm_encompassed lm_superseded].
    assert (full_id (cm_id cm) ls.*1 "::dictation" s = id_of (cm_id cm) [s; "dictation"]) as E by by apply (full_id_two _ _ "dictation"), Hids.
    assert (full_id (cm_id cm) ls.*1 "::reading" s = id_of (cm_id cm) [s; "reading"]) as E' by by apply (full_id_two _ _ "reading"), Hids.
    split; [done|]. split; [done|].
    assert (∀ y x, x = full_id (cm_id cm) ls.*1 "::dictation" y ↔ expanded (literacy_inside dirs) (λ s, id_of (cm_id cm) [s; "dictation"]) y x) as HE.
    { intros y x. apply (full_id_expanded _ _ _ "dictation"). intros s'. by apply Hids. }
    split_and!.
    - intros x. rewrite sort_ids_in, elem_of_app, elem_of_list_singleton, elem_of_list_omap, E'.
      assert (∀ y, (if bool_decide (full_id (cm_id cm) ls.*1 "::dictation" y = y) then None else Some (full_id (cm_id cm) ls.*1 "::dictation" y)) = Some x ↔
        literacy_inside dirs y ∧ x = id_of (cm_id cm) [y; "dictation"]) as Hy0; [|naive_solver].
      intros y. destruct (decide (y ∈ ls.*1)) as [Hy|Hy].
      + rewrite (full_id_two _ _ "dictation" y Hy). rewrite bool_decide_false.
        * split; [intros [= <-]; split; [by apply Hids|done]|]. by intros [_ ->].
        * intros Ey. apply (f_equal String.length) in Ey. unfold id_of in Ey. cbn [comps] in Ey. rewrite !slen_app in Ey. cbn in Ey. lia.
      + rewrite full_id_out by done. rewrite bool_decide_true by done. split; [done|]. intros [Hin _]. exfalso. apply Hy. by apply Hids.
    - intros x w. rewrite merge_sort_Permutation, elem_of_list_fmap. setoid_rewrite <-HE. split.
      + intros ([y w'] & [= -> ->] & Hin). by exists y.
      + intros (y & Hin & ->). by exists (y, w).
    - intros x. rewrite sort_ids_in, elem_of_list_fmap. setoid_rewrite HE. naive_solver.
    - rewrite E. by rewrite under_id.
  Qed.
  (** Which lessons there are. *)
  Lemma literacy_lessons lm es : (lm, es) ∈ oc_lessons oc → ∃ s dir l, lesson_dir dirs s dir ∧ open_literacy_lesson dir = Some l ∧
    (reading_of (cm_id cm) dirs s l lm es ∨ dictation = true ∧ dictation_of (cm_id cm) dirs s l lm es).
  Proof using Hg Hord.
    destruct generated_literacy as (ls & Hls & -> & _). rewrite elem_of_mjoin_fmap. intros ([s l] & Hin & H). rewrite Hord in Hin.
    apply (open_all_in _ _ _ _ _ Hls) in Hin as (d & Hd & Ho & _). apply literacy_dirs_in in Hd. exists s, d, l. split; [done|]. split; [done|].
    assert (literacy_inside dirs s) as Hs by by exists d.
    pose proof (reading_spec ls s l Hls Hs) as HR. pose proof (dictation_spec ls s l Hls Hs) as HD.
    unfold literacy_manifests in H. cbn [fst snd] in H. destruct dictation.
    - apply elem_of_cons in H as [H|H%elem_of_list_singleton]; [left|right; split; [done|]]; by rewrite <-H in *.
    - apply elem_of_list_singleton in H. left. by rewrite <-H in *.
  Qed.
  Notation names_of := (names_of dictation (cm_id cm)).
  Lemma literacy_lesson_ids : ∃ ss, (∀ s, s ∈ ss ↔ literacy_inside dirs s) ∧ (NoDup dirs.*1 → NoDup ss) ∧
    ((λ le, lm_id le.1) <$> oc_lessons oc) = mjoin (names_of <$> ss) ∧
    course_ids oc = cm_id cm :: mjoin ((λ s, mjoin ((λ n, [n; id_of n ["exercise"]]) <$> names_of s)) <$> ss).
  Proof using Hg Hord.
    destruct generated_literacy as (ls & Hls & E & Ec). exists (ord _ ls).*1.
    assert (∀ s, s ∈ (ord _ ls).*1 ↔ literacy_inside dirs s) as Hin by (intros s; rewrite Hord; by apply literacy_ids).
    split; [done|]. split.
    { intros Hn. rewrite Hord, (open_all_fst _ _ _ Hls). by apply literacy_dirs_NoDup. }
    unfold course_ids. rewrite E, Ec.
    assert (∀ x, x ∈ ord _ ls → ((λ le, lm_id le.1) <$> literacy_manifests dictation (cm_id cm) ls.*1 x) = names_of x.1 ∧
      mjoin ((λ le, lm_id le.1 :: (em_id <$> le.2)) <$> literacy_manifests dictation (cm_id cm) ls.*1 x) =
      mjoin ((λ n, [n; id_of n ["exercise"]]) <$> names_of x.1)) as Hx.
    { intros [s l] Hsl. assert (literacy_inside dirs s) as Hs by (apply Hin, elem_of_list_fmap; by exists (s, l)).
      destruct (reading_spec ls s l Hls Hs) as (R1 & _ & _ & _ & _ & R2). destruct (dictation_spec ls s l Hls Hs) as (D1 & _ & _ & _ & _ & D2).
      unfold literacy_manifests, names_of. cbn [fst snd].
      destruct dictation; cbn [fmap list_fmap mjoin list_join]; rewrite R1, R2, ?D1, ?D2; done. }
    clear Hin E. induction (ord _ ls) as [|x xs IH]; [done|]. destruct (Hx x) as [X1 X2]; [by left|].
    destruct IH as [I1 I2]; [intros y Hy; apply Hx; by right|]. rewrite !fmap_cons, !mjoin_cons, !fmap_app. split.
    - by rewrite I1, X1.
    - rewrite mjoin_app, X2. f_equal. f_equal. by injection I2.
  Qed.
  Lemma literacy_distinct : NoDup dirs.*1 → NoDup (course_ids oc).
  Proof using Hg Hord.
    intros Hn. destruct literacy_lesson_ids as (ss & _ & Hss & _ & ->). specialize (Hss Hn). set (C := cm_id cm) in *.
    assert (∀ s n, n ∈ names_of s → n = id_of C [s; "reading"] ∨ n = id_of C [s; "dictation"]) as Hnames.
    { intros s n. unfold names_of. destruct dictation; rewrite !elem_of_cons, elem_of_nil; naive_solver. }
    assert (∀ a s, id_of a [s; "reading"] = id_of (id_of a [s]) ["reading"]) as S1 by (intros; by rewrite <-(id_of_app _ [_])).
    assert (∀ a s, id_of a [s; "dictation"] = id_of (id_of a [s]) ["dictation"]) as S2 by (intros; by rewrite <-(id_of_app _ [_])).
    assert (∀ a x, id_of a [x] = a +:+ ("::" +:+ x)) as S0 by (intros; unfold id_of; cbn [comps]; by rewrite sapp_nil).
    assert (∀ a b x, id_of a [x] = id_of b [x] → a = b) as I by (intros a b x; rewrite !S0; apply sapp_inv_r).
    assert (∀ s s', id_of C [s] = id_of C [s'] → s = s') as J.
    { intros s s'. rewrite !S0. intros E%sapp_inv_l. by apply (sapp_inv_l "::") in E. }
    assert (∀ s s' n, n ∈ names_of s → n ∈ names_of s' → s = s') as K.
    { intros s s' n [-> | ->]%Hnames [E|E]%Hnames; rewrite ?S1, ?S2 in E.
      - by apply I, J in E.
      - exfalso. rewrite (S0 (id_of C [s])), (S0 (id_of C [s'])) in E. revert E. by apply ends_differ.
      - exfalso. rewrite (S0 (id_of C [s])), (S0 (id_of C [s'])) in E. revert E. by apply ends_differ.
      - by apply I, J in E. }
    assert (∀ s n m, n ∈ names_of s → n ≠ id_of m ["exercise"]) as L.
    { intros s n m [-> | ->]%Hnames; rewrite ?S1, ?S2, !(S0 _ "exercise"), ?(S0 _ "reading"), ?(S0 _ "dictation"); by apply ends_differ. }
    apply NoDup_cons. split.
    - intros (s & _ & (n & Hns & Hx)%elem_of_mjoin_fmap)%elem_of_mjoin_fmap.
      assert (String.length C < String.length n) as Hlen.
      { apply Hnames in Hns as [-> | ->]; unfold id_of; cbn [comps]; rewrite !slen_app; cbn; lia. }
      apply elem_of_cons in Hx as [Hx|Hx%elem_of_list_singleton]; apply (f_equal String.length) in Hx.
      + lia.
      + unfold id_of in Hx. rewrite slen_app in Hx. lia.
    - apply NoDup_mjoin_fmap; [done| |].
      + intros s Hs. apply NoDup_mjoin_fmap.
        * unfold names_of. destruct dictation; [|apply NoDup_singleton]. apply NoDup_cons. split; [|apply NoDup_singleton].
          intros E%elem_of_list_singleton. rewrite S1, S2, (S0 _ "reading"), (S0 _ "dictation") in E. revert E. by apply ends_differ.
        * intros n Hns. apply NoDup_cons. split; [|apply NoDup_singleton]. intros E%elem_of_list_singleton. by apply (L s n n).
        * intros n m z Hns Hms Hz Hz'. apply elem_of_cons in Hz as [->|Hz%elem_of_list_singleton]; apply elem_of_cons in Hz' as [E|E%elem_of_list_singleton].
          -- done.
          -- exfalso. by apply (L s n m).
          -- exfalso. rewrite Hz in E. by apply (L s m n).
          -- rewrite Hz in E. by apply I in E.
      + intros s s' z Hs Hs' (n & Hns & Hz)%elem_of_mjoin_fmap (m & Hms & Hz')%elem_of_mjoin_fmap.
        apply elem_of_cons in Hz as [->|Hz%elem_of_list_singleton]; apply elem_of_cons in Hz' as [E|E%elem_of_list_singleton].
        * subst. by apply (K s s' m).
        * exfalso. by apply (L s n m).
        * exfalso. rewrite Hz in E. by apply (L s' m n).
        * rewrite Hz in E. apply I in E. subst. by apply (K s s' m).
  Qed.
  Lemma literacy_consistent : consistent oc.
  Proof using Hg Hord.
    destruct generated_literacy as (ls & _ & _ & Ec). intros lm exs H. apply literacy_lessons in H as (s & d & l & _ & _ & H). rewrite Ec.
    destruct H as [(E1 & E2 & _ & _ & _ & ->)|(_ & E1 & E2 & _ & _ & _ & ->)]; (split; [done|]); intros em ->%elem_of_list_singleton; by rewrite E1.
  Qed.
End generated.
