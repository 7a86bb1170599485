(** Proofs about reading a library from the disk. *)
From stdpp Require Import gmap strings list.
From Verif Require Import Graph GraphSpec Library LibrarySpec LibraryQueries Options Generators GenKb FileSystem FileSpec FileProofs BuildProofs Walk WalkSpec.
Local Open Scope string_scope.
Local Open Scope list_scope.

(** * Lists *)
Lemma try_map_iff {A B : Type} (f : A → option B) l l' : try_map f l = Some l' ↔ Forall2 (λ a b, f a = Some b) l l'.
Proof.
  split; [apply try_map_spec|]. induction 1 as [|a b l l' E _ IH]; [done|]. cbn [try_map]. rewrite E. cbn. rewrite IH. done.
Qed.
Lemma Forall2_permuted {A B : Type} (R : A → B → Prop) l l' : l ≡ₚ l' → ∀ k, Forall2 R l k → ∃ k', k ≡ₚ k' ∧ Forall2 R l' k'.
Proof.
  induction 1 as [|x l l' _ IH|x y l|l1 l2 l3 _ IH1 _ IH2]; intros k H.
  - exists k. done.
  - apply Forall2_cons_inv_l in H as (b & k1 & Hb & H & ->). destruct (IH k1 H) as (k' & P & H'). exists (b :: k'). split; [by rewrite P|by constructor].
  - apply Forall2_cons_inv_l in H as (b & k1 & Hb & H & ->). apply Forall2_cons_inv_l in H as (c & k2 & Hc & H & ->).
    exists (c :: b :: k2). split; [apply Permutation_swap|]. by repeat constructor.
  - destruct (IH1 k H) as (k1 & P1 & H1). destruct (IH2 k1 H1) as (k2 & P2 & H2). exists k2. split; [by rewrite P1|done].
Qed.
Lemma same_members {A : Type} (l l' : list A) : NoDup l → NoDup l' → (∀ x, x ∈ l ↔ x ∈ l') → l ≡ₚ l'.
Proof. apply NoDup_Permutation. Qed.
Lemma alike_app {A : Type} (R : A → A → Prop) l1 l1' l2 l2' : alike R l1 l1' → alike R l2 l2' → alike R (l1 ++ l2) (l1' ++ l2').
Proof. intros (k1 & P1 & H1) (k2 & P2 & H2). exists (k1 ++ k2). split; [by rewrite P1, P2|by apply Forall2_app]. Qed.
(** Answers of a function that agree with a relation up to [R]. *)
Lemma try_map_alike {A B : Type} (P : A → B → Prop) (R : B → B → Prop) (f : A → option B) l l' k :
  l ≡ₚ l' → Forall2 P l k → (∀ a b, a ∈ l → P a b → ∃ b', f a = Some b' ∧ R b b') → ∃ k', try_map f l' = Some k' ∧ alike R k k'.
Proof.
  intros Hp HP Hf. destruct (Forall2_permuted _ _ _ Hp _ HP) as (k1 & Pk & H1).
  assert (∃ k', try_map f l' = Some k' ∧ Forall2 R k1 k') as (k' & E & H'); [|exists k'; split; [done|by exists k1]].
  assert (Hf' : ∀ a b, a ∈ l' → P a b → ∃ b', f a = Some b' ∧ R b b') by (intros a b Ha; apply Hf; by rewrite Hp).
  clear Hp HP Hf Pk. induction H1 as [|a b l' k1 Hab _ IH]; [by exists []|].
  destruct IH as (k' & E & H'); [intros a' b' Ha'; apply Hf'; by right|]. destruct (Hf' a b ltac:(left) Hab) as (b' & Eb & Rb).
  exists (b' :: k'). cbn [try_map]. rewrite Eb. cbn. rewrite E. split; [done|by constructor].
Qed.

(** * Assets *)
Lemma normal_path_there f dir r : normal_path f dir r = true ↔ there f dir r.
Proof.
  unfold there, normal_path. destruct r as [p|p]; [|by split].
  rewrite path_exists_true. split; [by intros H q [= <-]|]. intros H. by apply H.
Qed.
Lemma normal_some_there f dir o : normal_some f dir o = true ↔ ∀ r, o = Some r → there f dir r.
Proof. destruct o as [r|]; cbn; [|done]. rewrite normal_path_there. split; [by intros H ? [= <-]|]. intros H. by apply H. Qed.
Lemma normal_basic_there f dir a : normal_basic f dir a = true ↔ basic_there f dir (Some a).
Proof.
  unfold basic_there. destruct a as [|r]; cbn; [by split|]. rewrite normal_path_there. split; [by intros H ? [= <-]|]. intros H. by apply H.
Qed.
Lemma normal_unit_there f dir i m : normal_unit f dir i m = true ↔ basic_there f dir i ∧ basic_there f dir m.
Proof.
  unfold normal_unit. rewrite andb_true_iff. f_equiv.
  - destruct i as [a|]; [apply normal_basic_there|]. by split.
  - destruct m as [a|]; [apply normal_basic_there|]. by split.
Qed.
Lemma normal_exercise_there f dir a : normal_exercise f dir a = true ↔ exercise_there f dir a.
Proof.
  destruct a as [a|front back| |backup|]; cbn; [apply normal_basic_there| |done|apply normal_some_there|done].
  rewrite andb_true_iff. f_equiv; [apply normal_path_there|apply normal_some_there].
Qed.

Section proofs.
  Context (rd : readers) (walk : files → path → list path) (Hw : walks walk).

  (** * Entries of a walk *)
  Lemma found_nodup f root deep name : NoDup (found walk f root deep name).
  Proof using Hw. apply NoDup_filter. by destruct (Hw f root). Qed.
  Lemma found_spec f root deep name p : p ∈ found walk f root deep name ↔
    ∃ rel s, p = root ++ rel ++ [name] ∧ deep (S (length rel)) = true ∧ f !! p = Some (File s).
  Proof using Hw.
    unfold found. rewrite elem_of_list_filter. destruct (Hw f root) as [_ H]. rewrite H. clear H. split.
    - intros ((Hd & Hn & Hl) & ([k ->] & Hk) & Hp).
      assert (k ≠ []) as Hk' by (intros ->; apply Hk; by rewrite app_nil_r).
      apply last_Some in Hl as [q E]. destruct (exists_last Hk') as (rel & x & ->). rewrite app_assoc in E.
      apply app_inj_tail in E as [_ ->]. rewrite !app_length in Hd. cbn in Hd.
      replace (length root + (length rel + 1) - length root) with (S (length rel)) in Hd by lia.
      unfold is_dir in Hn. destruct (f !! (root ++ rel ++ [name])) as [[|s]|] eqn:E; [done| |done]. by exists rel, s.
    - intros (rel & s & -> & Hd & E). split; [split; [|split]|split; [split|]].
      + rewrite !app_length. cbn. replace (length root + (length rel + 1) - length root) with (S (length rel)) by lia. done.
      + unfold is_dir. by rewrite E.
      + rewrite app_assoc. by rewrite last_snoc.
      + by exists (rel ++ [name]).
      + intros E'. apply (f_equal length) in E'. rewrite !app_length in E'. cbn in E'. lia.
      + by rewrite E.
  Qed.
  (** At depth two, they are the directories with such a file. *)
  Lemma found_two f root name : ∃ ds, found walk f root (Nat.eqb 2) name = (λ d, root ++ [d; name]) <$> ds ∧
    NoDup ds ∧ ∀ d, d ∈ ds ↔ ∃ s, f !! (root ++ [d; name]) = Some (File s).
  Proof using Hw.
    set (l := found walk f root (Nat.eqb 2) name).
    assert (Hl : ∀ p, p ∈ l → ∃ d s, p = root ++ [d; name] ∧ f !! p = Some (File s)).
    { intros p Hp. apply found_spec in Hp as (rel & s & -> & Hd & E). apply Nat.eqb_eq in Hd. destruct rel as [|d [|? ?]]; [done| |done].
      exists d, s. done. }
    assert (Hn : NoDup l) by apply found_nodup.
    assert (∃ ds, l = (λ d, root ++ [d; name]) <$> ds) as [ds E].
    { clear Hn. clearbody l. induction l as [|p l IH]; [by exists []|]. destruct IH as [ds ->]; [intros q Hq; apply Hl; by right|].
      destruct (Hl p ltac:(left)) as (d & _ & -> & _). by exists (d :: ds). }
    exists ds. split; [done|]. rewrite E in Hn. split; [by eapply NoDup_fmap_1|]. intros d. split.
    - intros Hd. destruct (Hl (root ++ [d; name])) as (d' & s & _ & E'); [|by exists s]. rewrite E. apply elem_of_list_fmap. by exists d.
    - intros [s Hs]. assert (H : root ++ [d; name] ∈ l) by (apply found_spec; by exists [d], s). rewrite E in H.
      apply elem_of_list_fmap in H as (d' & Ed & Hd'). apply app_inv_head in Ed. by injection Ed as ->.
  Qed.

  (** * Exercises *)
  Lemma read_exercise_spec f lm dir em : read_exercise rd f lm (dir ++ ["exercise_manifest.json"]) = Some em ↔ exercise_reads rd f lm dir em.
  Proof using.
    unfold read_exercise, exercise_reads, read_file. rewrite parent_snoc. split.
    - destruct (f !! (dir ++ ["exercise_manifest.json"])) as [[|s]|] eqn:E; cbn; [done| |done].
      destruct (read_exercise_text rd s) as [[em' asset]|] eqn:Es; cbn; [|done].
      destruct (normal_exercise f dir asset) eqn:En; cbn; [|done]. destruct (exercise_ids_ok lm em') eqn:Ei; [|done]. intros [= ->].
      exists s, asset. unfold exercise_ids_ok in Ei. apply andb_true_iff in Ei as [Ei E3]. apply andb_true_iff in Ei as [E1 E2].
      apply negb_true_iff, bool_decide_eq_false in E1. apply bool_decide_eq_true in E2, E3.
      split; [done|]. split; [done|]. split; [by apply normal_exercise_there|]. done.
    - intros (s & asset & E & Es & Ha & E1 & E2 & E3). rewrite E. cbn. rewrite Es. cbn.
      apply normal_exercise_there in Ha. rewrite Ha. unfold exercise_ids_ok.
      rewrite (bool_decide_eq_false_2 _ E1), (bool_decide_eq_true_2 _ E2), (bool_decide_eq_true_2 _ E3). done.
  Qed.
  (** * Lessons *)
  Lemma two_names (dir : list string) d name : dir ++ [d; name] = (dir ++ [d]) ++ [name].
  Proof using. by rewrite <- app_assoc. Qed.
  Lemma read_lesson_sound f cm dir x : read_lesson rd walk f cm (dir ++ ["lesson_manifest.json"]) = Some x → lesson_reads rd f cm dir x.
  Proof using Hw.
    unfold read_lesson, lesson_reads, read_file. rewrite parent_snoc.
    destruct (f !! (dir ++ ["lesson_manifest.json"])) as [[|s]|] eqn:E; cbn [mbind option_bind lf_instructions lf_material lf_manifest andb negb fst snd]; [done| |done].
    destruct (read_lesson_text rd s) as [[lm i m]|] eqn:Es; cbn [mbind option_bind lf_instructions lf_material lf_manifest andb negb fst snd]; [|done].
    destruct (normal_unit f dir i m) eqn:En; cbn [mbind option_bind lf_instructions lf_material lf_manifest andb negb fst snd]; [|done]. destruct (lesson_ids_ok cm lm) eqn:Ei; [|done].
    destruct (try_map _ _) as [es|] eqn:Et; cbn [mbind option_bind lf_instructions lf_material lf_manifest andb negb fst snd]; [|done]. intros [= <-]. apply try_map_iff in Et.
    destruct (found_two f dir "exercise_manifest.json") as (ds & Ef & Hn & Hds). rewrite Ef in Et. apply Forall2_fmap_l in Et.
    apply andb_true_iff in Ei as [E1 E2]. apply negb_true_iff, bool_decide_eq_false in E1. apply bool_decide_eq_true in E2.
    apply normal_unit_there in En as [Hi Hm]. exists s, i, m, ds. cbn. repeat (split; [done|]).
    eapply Forall2_impl; [exact Et|]. intros d em H. cbn in H. rewrite two_names in H. by apply read_exercise_spec.
  Qed.
  Lemma read_lesson_complete f cm dir x : lesson_reads rd f cm dir x →
    ∃ x', read_lesson rd walk f cm (dir ++ ["lesson_manifest.json"]) = Some x' ∧ same_lesson x x'.
  Proof using Hw.
    intros (s & i & m & ds & E & Es & Hi & Hm & E1 & E2 & Hn & Hds & H). destruct x as [lm es]. cbn in *.
    unfold read_lesson, read_file. rewrite parent_snoc, E. cbn [mbind option_bind]. rewrite Es. cbn [mbind option_bind lf_instructions lf_material lf_manifest].
    rewrite (proj2 (normal_unit_there f dir i m) (conj Hi Hm)). unfold lesson_ids_ok.
    rewrite (bool_decide_eq_false_2 _ E1), (bool_decide_eq_true_2 _ E2). cbn [negb andb].
    destruct (found_two f dir "exercise_manifest.json") as (ds' & Ef & Hn' & Hds'). rewrite Ef.
    assert (Hp : ds ≡ₚ ds') by (apply same_members; [done|done|intros d; by rewrite Hds, Hds']).
    destruct (try_map_alike (λ p em, ∃ d, p = dir ++ [d; "exercise_manifest.json"] ∧ exercise_reads rd f lm (dir ++ [d]) em) eq
      (read_exercise rd f lm) ((λ d, dir ++ [d; "exercise_manifest.json"]) <$> ds) ((λ d, dir ++ [d; "exercise_manifest.json"]) <$> ds') es)
      as (es' & Et & (k & Pk & Ek)).
    - by rewrite Hp.
    - apply Forall2_fmap_l. eapply Forall2_impl; [exact H|]. intros d em Hd. by exists d.
    - intros p em _ (d & -> & Hd). exists em. split; [|done]. rewrite two_names. by apply read_exercise_spec.
    - rewrite Et. exists (lm, es'). split; [done|]. split; [done|]. cbn. assert (k = es') as <-; [|done].
      clear -Ek. induction Ek as [|a b l l' -> _ IH]; [done|]. by rewrite IH.
  Qed.
  (** * Courses *)
  Lemma read_course_sound f dir c : read_course rd walk f (dir ++ ["course_manifest.json"]) = Some c → course_reads rd f dir c.
  Proof using Hw.
    unfold read_course, course_reads, read_file. rewrite parent_snoc.
    destruct (f !! (dir ++ ["course_manifest.json"])) as [[|s]|] eqn:E; cbn [mbind option_bind lf_instructions lf_material lf_manifest andb negb fst snd]; [done| |done].
    destruct (read_course_text rd s) as [cf|] eqn:Es; cbn [mbind option_bind lf_instructions lf_material lf_manifest andb negb fst snd]; [|done].
    destruct (normal_unit f dir _ _) eqn:En; cbn [mbind option_bind lf_instructions lf_material lf_manifest andb negb fst snd]; [|done]. destruct (bool_decide (cm_id (cf_manifest cf) = "")) eqn:Ei; cbn [mbind option_bind lf_instructions lf_material lf_manifest andb negb fst snd]; [done|].
    destruct (generated rd f dir cf) as [[cm gen]|] eqn:Eg; cbn [mbind option_bind lf_instructions lf_material lf_manifest andb negb fst snd]; [|done].
    destruct (try_map _ _) as [ls|] eqn:Et; cbn [mbind option_bind lf_instructions lf_material lf_manifest andb negb fst snd]; [|done]. intros [= <-]. apply try_map_iff in Et.
    destruct (found_two f dir "lesson_manifest.json") as (ds & Ef & Hn & Hds). rewrite Ef in Et. apply Forall2_fmap_l in Et.
    apply bool_decide_eq_false in Ei. apply normal_unit_there in En as [Hi Hm]. exists s, cf, cm, gen, ls, ds. do 5 (split; [done|]).
    split. { unfold generated in Eg. destruct (cf_generator cf) as [config|]; [|by injection Eg as <- <-].
      destruct (generate rd f dir (cf_manifest cf) config) as [[gen' m]|]; cbn in Eg; [|done]. injection Eg as <- <-. by exists m. }
    split; [done|]. split; [done|]. split; [|done].
    eapply Forall2_impl; [exact Et|]. intros d em H. cbn in H. rewrite two_names in H. by apply read_lesson_sound.
  Qed.
  Lemma read_course_complete f dir c : course_reads rd f dir c →
    ∃ c', read_course rd walk f (dir ++ ["course_manifest.json"]) = Some c' ∧ same_course c c'.
  Proof using Hw.
    intros (s & cf & cm & gen & ls & ds & E & Es & Hi & Hm & E1 & Hg & Hn & Hds & H & ->).
    unfold read_course, read_file. rewrite parent_snoc, E. cbn [mbind option_bind]. rewrite Es. cbn [mbind option_bind].
    rewrite (proj2 (normal_unit_there f dir _ _) (conj Hi Hm)), (bool_decide_eq_false_2 _ E1). cbn [negb andb].
    assert (Eg : generated rd f dir cf = Some (cm, gen)).
    { unfold generated. destruct (cf_generator cf) as [config|]; [|by destruct Hg as [-> ->]]. destruct Hg as (m & -> & ->). done. }
    rewrite Eg. cbn [mbind option_bind fst snd].
    destruct (found_two f dir "lesson_manifest.json") as (ds' & Ef & Hn' & Hds'). rewrite Ef.
    assert (Hp : ds ≡ₚ ds') by (apply same_members; [done|done|intros d; by rewrite Hds, Hds']).
    destruct (try_map_alike (λ p x, ∃ d, p = dir ++ [d; "lesson_manifest.json"] ∧ lesson_reads rd f cm (dir ++ [d]) x) same_lesson
      (read_lesson rd walk f cm) ((λ d, dir ++ [d; "lesson_manifest.json"]) <$> ds) ((λ d, dir ++ [d; "lesson_manifest.json"]) <$> ds') ls)
      as (ls' & Et & Hls).
    - by rewrite Hp.
    - apply Forall2_fmap_l. eapply Forall2_impl; [exact H|]. intros d em Hd. by exists d.
    - intros p x _ (d & -> & Hd). rewrite two_names. by apply read_lesson_complete.
    - rewrite Et. eexists. split; [done|]. split; [done|]. cbn. apply alike_app; [|done]. by apply alike_refl.
  Qed.

  (** * Libraries *)
  Section library.
    Context (cwd : path) (f : files) (root : given) (ignored : list given) (skip : path → Prop).
    Let place := locate cwd root.
    Context (Hskip : ∀ rel, is_ignored cwd root ignored (place ++ rel) = false ↔ ¬ skip (place ++ rel)).

    Lemma course_paths_spec : ∃ dirs, course_paths walk cwd f root ignored = (λ d, d ++ ["course_manifest.json"]) <$> dirs ∧
      NoDup dirs ∧ ∀ d, d ∈ dirs ↔ course_dir f place skip d.
    Proof using Hw Hskip.
      set (l := course_paths walk cwd f root ignored).
      assert (Hl : ∀ p, p ∈ l ↔ ∃ d, p = d ++ ["course_manifest.json"] ∧ course_dir f place skip d).
      { intros p. unfold l, course_paths. rewrite elem_of_list_filter, found_spec. fold place. split.
        - intros (Hi & rel & s & -> & Hd & E). apply Hskip in Hi. apply Nat.leb_le in Hd. exists (place ++ rel). rewrite <- app_assoc.
          split; [done|]. split; [|split; [exists s; by rewrite <- app_assoc|by rewrite <- app_assoc]]. split; [by exists rel|].
          intros E'. apply (f_equal length) in E'. rewrite app_length in E'. lia.
        - intros (d & -> & ([rel ->] & Hne) & [s Hs] & Hsk). rewrite <- app_assoc in *. split; [by apply Hskip|]. exists rel, s.
          split; [done|]. split; [|done]. apply Nat.leb_le. destruct rel; [by rewrite app_nil_r in Hne|]. cbn. lia. }
      assert (Hn : NoDup l) by (apply NoDup_filter, found_nodup).
      assert (∃ ds, l = (λ d, d ++ ["course_manifest.json"]) <$> ds) as [ds E].
      { assert (Hl' : ∀ p, p ∈ l → ∃ d, p = d ++ ["course_manifest.json"]) by (intros p Hp; apply Hl in Hp as (d & -> & _); by exists d).
        clear Hn Hl. clearbody l. induction l as [|p l IH]; [by exists []|]. destruct IH as [ds ->]; [intros q Hq; apply Hl'; by right|].
        destruct (Hl' p ltac:(left)) as (d & ->). by exists (d :: ds). }
      exists ds. split; [done|]. rewrite E in Hn. split; [by eapply NoDup_fmap_1|]. intros d. split.
      - intros Hd. destruct (proj1 (Hl (d ++ ["course_manifest.json"]))) as (d' & Ed & Hd'); [rewrite E; apply elem_of_list_fmap; by exists d|].
        by apply app_inj_tail in Ed as [-> _].
      - intros Hd. assert (H : d ++ ["course_manifest.json"] ∈ l) by (apply Hl; by exists d). rewrite E in H.
        apply elem_of_list_fmap in H as (d' & Ed & Hd'). by apply app_inj_tail in Ed as [-> _].
    Qed.
    Lemma scan_sound cs : scan_courses rd walk cwd f root ignored = Some cs → library_reads rd f place skip cs.
    Proof using Hw Hskip.
      intros H. unfold scan_courses in H. apply try_map_iff in H. destruct course_paths_spec as (dirs & E & Hn & Hd). rewrite E in H.
      apply Forall2_fmap_l in H. exists dirs. split; [done|]. split; [done|]. eapply Forall2_impl; [exact H|].
      intros d c Hc. by apply read_course_sound.
    Qed.
    Lemma scan_complete cs : library_reads rd f place skip cs → ∃ cs', scan_courses rd walk cwd f root ignored = Some cs' ∧ same_courses cs cs'.
    Proof using Hw Hskip.
      intros (dirs & Hn & Hd & H). destruct course_paths_spec as (dirs' & E & Hn' & Hd'). unfold scan_courses. rewrite E.
      apply (try_map_alike (λ p c, ∃ d, p = d ++ ["course_manifest.json"] ∧ course_reads rd f d c) same_course
        (read_course rd walk f) ((λ d, d ++ ["course_manifest.json"]) <$> dirs)).
      - assert (Hp : dirs ≡ₚ dirs') by (apply same_members; [done|done|intros d; by rewrite Hd, Hd']). by rewrite Hp.
      - apply Forall2_fmap_l. eapply Forall2_impl; [exact H|]. intros d c Hc. by exists d.
      - intros p c _ (d & -> & Hc). by apply read_course_complete.
    Qed.
  End library.
End proofs.
