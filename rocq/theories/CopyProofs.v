(** Libraries that are copied or moved. *)
From stdpp Require Import gmap strings list.
From Verif Require Import Graph GraphSpec Library LibrarySpec LibraryQueries Options FileSystem FileSpec FileProofs BuildProofs Walk WalkSpec WalkProofs WalkMore WalkBuild Benchmark.
Local Open Scope string_scope.
Local Open Scope list_scope.

Section copy.
  Context (walk : files → path → list path) (Hw : walks walk) (src dst : path) (f : files) (Htree : tree f) (Hsrc : f !! src = Some Dir)
    (Happart : ¬ src `prefix_of` dst) (Happart' : ¬ dst `prefix_of` src) (Hempty : ∀ r, r ≠ [] → f !! (dst ++ r) = None).
  Lemma not_inside r : ¬ dst `prefix_of` src ++ r.
  Proof using Happart Happart'. intros H. destruct (prefix_weak_total _ _ (src ++ r) H ltac:(by apply prefix_app_r)); done. Qed.
  Lemma not_over r : ¬ src ++ r `prefix_of` dst.
  Proof using Happart. intros H. apply Happart. etransitivity; [|exact H]. by apply prefix_app_r. Qed.
  (** While the copy is made. *)
  Definition copying (f0 : files) (l1 : list path) (f1 : files) : Prop :=
    (∀ p, ¬ dst `prefix_of` p → f1 !! p = f0 !! p) ∧
    ∀ r, f1 !! (dst ++ r) = f !! (src ++ r) ∨ (f1 !! (dst ++ r) = None ∧ src ++ r ∉ l1).
  Lemma begun n a n' f0 : create_dir_all dst n f = Over a n' f0 →
    (∀ p, p `prefix_of` dst → f0 !! p = Some Dir) ∧ (∀ p, ¬ p `prefix_of` dst → f0 !! p = f !! p) ∧ copying f0 [] f0.
  Proof using Hsrc Hempty.
    intros H. apply create_dir_all_over in H as [H1 H2]. split; [done|].
    assert (H3 : ∀ p, ¬ p `prefix_of` dst → f0 !! p = f !! p).
    { intros p Hp. rewrite H1. destruct (f !! p); [done|]. by case_decide. }
    split; [done|]. split; [done|]. intros r. destruct r as [|x r].
    - left. rewrite !app_nil_r, Hsrc. by apply H2.
    - right. split; [|by apply not_elem_of_nil]. rewrite H3; [by apply Hempty|]. intros [k E]. apply (f_equal length) in E. rewrite !app_length in E. cbn in E. lia.
  Qed.
  Lemma src_above r r' x : r = r' ++ [x] → ∀ y, f !! (src ++ r) = Some y → f !! (src ++ r') = Some Dir.
  Proof using Htree. intros -> y H. rewrite app_assoc in H. destruct Htree as [_ Ht]. by eapply Ht. Qed.
  Lemma src_prefix r : ∀ r' y, r' `prefix_of` r → r' ≠ r → f !! (src ++ r) = Some y → f !! (src ++ r') = Some Dir.
  Proof using Htree.
    induction r as [|x r IH] using rev_ind; intros r' y [k E] Hne H; [symmetry in E; apply app_nil in E as [-> _]; done|].
    destruct k as [|z k _] using rev_ind; [rewrite app_nil_r in E; done|]. rewrite app_assoc in E. apply app_inj_tail in E as [E _].
    pose proof (src_above _ _ _ eq_refl _ H) as H'. destruct (decide (r' = r)) as [->|Hne']; [done|]. eapply IH; [by exists k|done|exact H'].
  Qed.
  Context (f0 : files) (H0 : ∀ p, p `prefix_of` dst → f0 !! p = Some Dir) (H0' : ∀ p, ¬ p `prefix_of` dst → f0 !! p = f !! p).
  Lemma source_kept l1 f1 r : copying f0 l1 f1 → f1 !! (src ++ r) = f !! (src ++ r).
  Proof using Happart Happart' H0'. intros [H _]. rewrite H by apply not_inside. apply H0', not_over. Qed.
  Lemma entry_step l1 r n f1 a n' f2 : f !! (src ++ r) ≠ None → copying f0 l1 f1 → copy_entry src dst (src ++ r) n f1 = Over a n' f2 → copying f0 (l1 ++ [src ++ r]) f2.
  Proof using Htree Happart Happart' H0 H0'.
    intros Hr Hc H. pose proof Hc as [C1 C2]. unfold copy_entry in H. rewrite drop_app in H. apply bind_over in H as (b & n1 & f1' & H1 & H). apply look_over in H1 as (-> & -> & ->).
    unfold is_dir in H. rewrite (source_kept _ _ _ Hc) in H. destruct (f !! (src ++ r)) as [[|s]|] eqn:E; [| |done].
    - apply create_dir_all_over in H as [D1 D2]. split.
      + intros p Hp. rewrite D1, <- C1 by done. destruct (f1 !! p) eqn:Ep; [done|]. rewrite decide_False; [done|]. intros Hpre.
        destruct (prefix_weak_total _ _ (dst ++ r) Hpre ltac:(by apply prefix_app_r)) as [Hd|Hd]; [|done].
        rewrite C1, (H0 p Hd) in Ep by done. done.
      + intros r'. destruct (decide (r' = r)) as [->|Hne]; [left; rewrite E; by apply D2|]. rewrite D1. destruct (C2 r') as [Heq|[Hn Hnin]].
        * rewrite Heq. destruct (f !! (src ++ r')) as [y|] eqn:Er'; [by left|]. case_decide as Hd; [|by left].
          destruct Hd as [k Hk]. rewrite <- app_assoc in Hk. apply app_inv_head in Hk. exfalso.
          assert (f !! (src ++ r') = Some Dir) by (eapply src_prefix; [by exists k|done|exact E]). congruence.
        * rewrite Hn. case_decide as Hd.
          -- left. destruct Hd as [k Hk]. rewrite <- app_assoc in Hk. apply app_inv_head in Hk. symmetry. eapply src_prefix; [by exists k|done|exact E].
          -- right. split; [done|]. rewrite not_elem_of_app, elem_of_list_singleton. split; [done|]. intros Heq. by apply app_inv_head in Heq.
    - unfold copy_file in H. apply bind_over in H as (c & n2 & f2' & H2 & H). apply look_over in H2 as (-> & -> & ->). unfold read_file in H. rewrite (source_kept _ _ _ Hc), E in H.
      apply write_file_over in H as (-> & _). split.
      + intros p Hp. rewrite lookup_insert_ne; [by apply C1|]. intros <-. apply Hp. by apply prefix_app_r.
      + intros r'. destruct (decide (r' = r)) as [->|Hne]; [left; by rewrite lookup_insert, E|]. rewrite lookup_insert_ne by (intros Heq; by apply app_inv_head in Heq).
        destruct (C2 r') as [Heq|[Hn Hnin]]; [by left|]. right. split; [done|]. rewrite not_elem_of_app, elem_of_list_singleton. split; [done|]. intros Heq. by apply app_inv_head in Heq.
  Qed.
  Lemma source_listed p : p ∈ src :: walk f0 src → ∃ r, p = src ++ r ∧ f !! (src ++ r) ≠ None.
  Proof using Hw Hsrc Happart H0'.
    intros [->|Hp]%elem_of_cons; [exists []; rewrite app_nil_r; by rewrite Hsrc|]. apply Hw in Hp as [[[r ->] _] Hp]. exists r. split; [done|]. rewrite H0' in Hp by apply not_over. done.
  Qed.
  Lemma source_all r : f !! (src ++ r) ≠ None → src ++ r ∈ src :: walk f0 src.
  Proof using Hw Happart H0'.
    intros H. destruct r as [|x r]; [rewrite app_nil_r; by left|]. right. apply Hw. split; [|by rewrite H0' by apply not_over].
    split; [by apply prefix_app_r|]. intros E. apply (f_equal length) in E. rewrite app_length in E. cbn in E. lia.
  Qed.
End copy.

(** The copy has what the source has, and nothing else changes. *)
Lemma copied walk : walks walk → ∀ src dst n f n' f', tree f → f !! src = Some Dir → ¬ src `prefix_of` dst → ¬ dst `prefix_of` src →
  (∀ r, r ≠ [] → f !! (dst ++ r) = None) → copy_library walk src dst n f = Over () n' f' →
  (∀ r, f' !! (dst ++ r) = f !! (src ++ r)) ∧ ∀ p, ¬ dst `prefix_of` p → ¬ p `prefix_of` dst → f' !! p = f !! p.
Proof.
  intros Hw src dst n f n' f' Ht Hs H1 H2 He H. unfold copy_library in H. apply bind_over in H as ([] & n1 & f0 & HA & H).
  destruct (begun src dst f Hs He _ _ _ _ HA) as (B1 & B2 & B3). apply bind_over in H as (l & n2 & f1 & HB & H). apply look_over in HB as (-> & -> & ->).
  unfold path_exists in H. rewrite B2, Hs in H by done.
  assert (copying src dst f f0 (src :: walk f0 src) f') as [C1 C2].
  { eapply each_over; [|exact B3|exact H]. intros l1 p l2 m1 g1 m2 g2 a E Hc Hk. destruct (source_listed walk Hw src dst f Hs H1 f0 B2 p) as (r & -> & Hr).
    - rewrite E. apply elem_of_app. right. by left.
    - by eapply entry_step. }
  split.
  - intros r. destruct (C2 r) as [?|[Hn Hin]]; [done|]. destruct (f !! (src ++ r)) as [y|] eqn:E; [|done]. exfalso. apply Hin. eapply source_all; [done..|]. by rewrite E.
  - intros p Hp Hp'. rewrite C1 by done. by apply B2.
Qed.
(** It can be made into an empty directory. *)
Lemma copy_can walk : walks walk → parents_first walk → ∀ src dst f, tree f → f !! src = Some Dir → ¬ src `prefix_of` dst → ¬ dst `prefix_of` src →
  f !! dst = Some Dir → (∀ r, r ≠ [] → f !! (dst ++ r) = None) → ∃ f', copy_library walk src dst None f = Over () None f'.
Proof.
  intros Hw Hp src dst f Ht Hs H1 H2 Hd He.
  assert (Hup : ∀ r p y, p `prefix_of` r → f !! r = Some y → p = r ∨ f !! p = Some Dir).
  { intros r p y Hpre Hr. destruct (decide (p = r)) as [|Hne]; [by left|right]. apply (src_prefix [] f Ht r p y Hpre Hne Hr). }
  destruct (create_dir_all_run dst f) as [f0 E0].
  { apply Ht. } { intros q Hq. right. destruct (Hup _ _ _ Hq Hd) as [->|?]; done. }
  destruct (begun src dst f Hs He _ _ _ _ E0) as (B1 & B2 & B3). unfold copy_library. unfold bind at 1. rewrite E0. unfold bind at 1, look, path_exists. rewrite B2, Hs by done.
  assert (∀ l2 l1 f1, src :: walk f0 src = l1 ++ l2 → copying src dst f f0 l1 f1 → ∃ f', each (copy_entry src dst) l2 None f1 = Over () None f') as Hrun.
  2: { by apply (Hrun _ []). }
  induction l2 as [|p l2 IH]; intros l1 f1 El Hc; [by eexists|]. cbn [each].
  destruct (source_listed walk Hw src dst f Hs H1 f0 B2 p) as (r & -> & Hr); [rewrite El; apply elem_of_app; right; by left|].
  assert (∃ f2, copy_entry src dst (src ++ r) None f1 = Over () None f2) as [f2 E2].
  { pose proof Hc as [C1 C2]. unfold copy_entry. rewrite drop_app. unfold bind at 1, look, is_dir. rewrite (source_kept src dst f H1 H2 f0 B2 _ _ _ Hc).
    destruct (f !! (src ++ r)) as [[|s]|] eqn:E; [| |done].
    - assert (Hpre : ∀ q, q `prefix_of` dst ++ r → f1 !! q = None ∨ f1 !! q = Some Dir).
      { intros q Hq. destruct (decide (dst `prefix_of` q)) as [[r' ->]|Hn].
        - destruct Hq as [k Hk]. rewrite <- app_assoc in Hk. apply app_inv_head in Hk. destruct (C2 r') as [->|[? _]]; [|by left]. right.
          destruct (decide (r' = r)) as [->|Hne]; [done|]. eapply src_prefix; [done|by exists k|done|exact E].
        - right. rewrite C1 by done. apply B1. destruct (prefix_weak_total _ _ (dst ++ r) Hq ltac:(by apply prefix_app_r)); done. }
      apply create_dir_all_run; [|done]. destruct (decide (dst = [])) as [->|Hne]; [exfalso; apply H2; apply prefix_nil|].
      rewrite C1; [apply B1, prefix_nil|]. intros [k Hk]. symmetry in Hk. apply app_nil in Hk as [? _]. done.
    - unfold copy_file, bind, look, read_file. rewrite (source_kept src dst f H1 H2 f0 B2 _ _ _ Hc), E.
      destruct r as [|x r _] using rev_ind; [rewrite app_nil_r in E; congruence|].
      eexists. apply write_file_run.
      + rewrite app_assoc, parent_snoc. pose proof (src_above src f Ht _ _ _ eq_refl _ E) as Ed.
        destruct (C2 r) as [->|[_ Hn]]; [done|]. exfalso. apply Hn. destruct l1 as [|a l1]; [injection El as El _; apply (f_equal length) in El; rewrite !app_length in El; cbn in El; lia|].
        injection El as <- El. destruct r as [|y r]; [rewrite app_nil_r; by left|]. right. apply (Hp f0 src l1 _ l2 _ El).
        * split; [by apply prefix_app_r|]. intros Eq. apply (f_equal length) in Eq. rewrite app_length in Eq. cbn in Eq. lia.
        * split; [rewrite app_assoc; by apply prefix_app_r|]. intros Eq. apply (f_equal length) in Eq. rewrite !app_length in Eq. cbn in Eq. lia.
        * rewrite B2 by by apply not_over. by rewrite Ed.
      + destruct (C2 (r ++ [x])) as [->|[-> _]]; [by rewrite E|done]. }
  unfold bind. rewrite E2. apply (IH (l1 ++ [src ++ r])); [by rewrite El, <- app_assoc|]. by eapply entry_step.
Qed.

(** * A library in another place *)
Section move.
  Context (rd : readers) (f : files) (src : path) (f' : files) (dst : path) (Hsame : same_tree f src f' dst).
  Lemma there_moved r x : there f (src ++ r) x → there f' (dst ++ r) x.
  Proof using Hsame. intros H p ->. rewrite <- app_assoc, Hsame, app_assoc. by apply H. Qed.
  Lemma basic_moved r o : basic_there f (src ++ r) o → basic_there f' (dst ++ r) o.
  Proof using Hsame. intros H x E. apply there_moved. by apply H. Qed.
  Lemma exercise_moved r a : exercise_there f (src ++ r) a → exercise_there f' (dst ++ r) a.
  Proof using Hsame.
    destruct a as [a|front back| |backup|]; cbn; [apply basic_moved| |done| |done].
    - intros [H1 H2]. split; [by apply there_moved|]. intros x E. apply there_moved. by apply H2.
    - intros H x E. apply there_moved. by apply H.
  Qed.
  Lemma moved_file r (k : path) x : f !! ((src ++ r) ++ k) = x ↔ f' !! ((dst ++ r) ++ k) = x.
  Proof using Hsame. by rewrite <- !app_assoc, Hsame. Qed.
  Lemma exercise_read_moved lm r em : exercise_reads rd f lm (src ++ r) em → exercise_reads rd f' lm (dst ++ r) em.
  Proof using Hsame. intros (t & a & E & Es & Ha & H). exists t, a. split; [by apply moved_file|]. split; [done|]. split; [by apply exercise_moved|]. done. Qed.
  Lemma lesson_moved cm r l : lesson_reads rd f cm (src ++ r) l → lesson_reads rd f' cm (dst ++ r) l.
  Proof using Hsame.
    intros (s & i & m & ds & E & Es & Hi & Hm & E2 & E3 & Hn & Hds & He).
    exists s, i, m, ds. split; [by apply moved_file|]. split; [done|]. split; [by apply basic_moved|]. split; [by apply basic_moved|]. split; [done|].
    split; [done|]. split; [done|]. split; [intros y; rewrite Hds; by setoid_rewrite moved_file|].
    eapply Forall2_impl; [exact He|]. intros y em Hy. cbv beta in Hy |- *. rewrite <- (app_assoc src r [y]) in Hy. rewrite <- (app_assoc dst r [y]). by apply exercise_read_moved.
  Qed.
  Lemma course_moved r c : generates_anywhere rd → course_reads rd f (src ++ r) c → course_reads rd f' (dst ++ r) c.
  Proof using Hsame.
    intros Hg (s & cf & cm & gen & ls & ds & E & Es & Hi & Hm & E1 & Hgen & Hn & Hds & Hl & ->).
    exists s, cf, cm, gen, ls, ds. split; [by apply moved_file|]. split; [done|]. split; [by apply basic_moved|]. split; [by apply basic_moved|]. split; [done|].
    split.
    { destruct (cf_generator cf); [|done]. destruct Hgen as (m & Hgen & ->). exists m. split; [|done]. rewrite <- Hgen. apply Hg. intros k. by rewrite <- !app_assoc, Hsame. }
    split; [done|]. split; [intros x; rewrite Hds; by setoid_rewrite moved_file|]. split; [|done].
    eapply Forall2_impl; [exact Hl|]. intros x l Hx. cbv beta in Hx |- *. rewrite <- (app_assoc src r [x]) in Hx. rewrite <- (app_assoc dst r [x]). by apply lesson_moved.
  Qed.
  Lemma library_moved ignored cs : generates_anywhere rd → all_relative ignored →
    library_reads rd f src (below_any src ignored) cs → library_reads rd f' dst (below_any dst ignored) cs.
  Proof using Hsame.
    intros Hg Hrel (dirs & Hn & Hd & H).
    assert (Hab : ∀ d, d ∈ dirs → ∃ r, d = src ++ r) by (intros d [[[r ->] _] _]%Hd; by exists r).
    assert (∃ rs, dirs = (app src) <$> rs) as [rs ->].
    { clear -Hab. induction dirs as [|d dirs IH]; [by exists []|]. destruct (Hab d) as [r ->]; [by left|]. destruct IH as [rs ->]; [intros d Hin; apply Hab; by right|]. by exists (r :: rs). }
    exists ((app dst) <$> rs).
    assert (Hcd : ∀ r, course_dir f src (below_any src ignored) (src ++ r) ↔ course_dir f' dst (below_any dst ignored) (dst ++ r)).
    { assert (Habove : ∀ (p r : path), above p (p ++ r) ↔ r ≠ []).
      { intros p r. split; [intros [_ H1] ->; by rewrite app_nil_r in H1|]. intros H1. split; [by apply prefix_app_r|]. intros E. apply H1. rewrite <- (app_nil_r p) in E at 1. by apply app_inv_head in E. }
      intros r. unfold course_dir. rewrite !Habove. setoid_rewrite moved_file. f_equiv. f_equiv. f_equiv. unfold below_any. f_equiv. intros i. split.
      - intros [Hi Hpre]. split; [done|]. unfold locate in *. rewrite (Hrel i Hi) in *. rewrite <- app_assoc in *. apply prefix_app. by apply prefix_app_inv in Hpre.
      - intros [Hi Hpre]. split; [done|]. unfold locate in *. rewrite (Hrel i Hi) in *. rewrite <- app_assoc in *. apply prefix_app. by apply prefix_app_inv in Hpre. }
    split; [|split].
    - apply NoDup_fmap_1 in Hn. apply NoDup_fmap_2_strong; [|done]. intros x y _ _ E. by apply app_inv_head in E.
    - intros d. split.
      + intros (r & -> & Hr)%elem_of_list_fmap. apply Hcd, Hd, elem_of_list_fmap. by exists r.
      + intros Hc. pose proof Hc as [[[r ->] _] _]. apply Hcd, Hd, elem_of_list_fmap in Hc as (r' & E & Hr'). apply app_inv_head in E as ->. apply elem_of_list_fmap. by exists r'.
    - apply Forall2_fmap_l. apply (Forall2_fmap_l (app src)) in H. eapply Forall2_impl; [exact H|]. intros r c Hr. by apply course_moved.
  Qed.
End move.
Lemma scan_moved rd walk walk' : walks walk → walks walk' → generates_anywhere rd → ∀ f src f' dst cwd cwd' ignored cs, same_tree f src f' dst → all_relative ignored →
  scan_courses rd walk cwd f (Given true src) ignored = Some cs → ∃ cs', scan_courses rd walk' cwd' f' (Given true dst) ignored = Some cs' ∧ same_courses cs cs'.
Proof.
  intros Hw Hw' Hg f src f' dst cwd cwd' ignored cs Hs Hr H. apply (ignored_complete rd walk' Hw' cwd' f' (Given true dst)); [done|]. cbn [names].
  eapply library_moved; [done|done|done|]. by apply (ignored_exact rd walk Hw cwd f (Given true src)).
Qed.
Lemma opens_moved rd walk walk' o o' : walks walk → walks walk' → generates_anywhere rd → generates_consistently rd → order_ok o → order_ok o' →
  ∀ f src f' dst cwd cwd' ignored lib, same_tree f src f' dst → all_relative ignored →
  open_from_disk rd walk o cwd f (Given true src) ignored = Some lib → ∃ lib', open_from_disk rd walk' o' cwd' f' (Given true dst) ignored = Some lib' ∧ agree lib lib'.
Proof.
  intros Hw Hw' Hg Hg' Ho Ho' f src f' dst cwd cwd' ignored lib Hs Hr H. unfold open_from_disk in *.
  destruct (scan_courses rd walk cwd f _ ignored) as [cs|] eqn:E; [|done]. cbn [mbind option_bind] in H.
  pose proof (ignored_exact rd walk Hw cwd f (Given true src) _ _ eq_refl E) as Hold.
  destruct (scan_moved rd walk walk' Hw Hw' Hg _ _ _ _ _ cwd' _ _ Hs Hr E) as (cs' & -> & Hc). cbn [mbind option_bind].
  destruct (same_opened cs cs' o o' Hc (reads_consistent _ _ _ _ _ Hg' Hold) Ho Ho') as [H1 H2].
  destruct (open_library o' cs') as [lib'|] eqn:E'; [|destruct H1 as [[? ?] _]; [by rewrite H|done]]. exists lib'. split; [done|]. by apply H2.
Qed.
