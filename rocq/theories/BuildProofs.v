(** Facts about the builders. *)
From stdpp Require Import gmap strings list.
From Coq Require Import Ascii.
From Verif Require Import Library StrFacts FileSystem FileSpec FileProofs ConfigProofs.
Local Open Scope string_scope.
Local Open Scope list_scope.

(** ** Paths *)
Lemma prefixes_in (p q : list string) : q ∈ (λ n, take n p) <$> seq 0 (S (length p)) ↔ q `prefix_of` p.
Proof.
  rewrite elem_of_list_fmap. split.
  - intros (n & -> & _). exists (drop n p). symmetry. apply take_drop.
  - intros [r ->]. exists (length q). split; [symmetry; apply take_app|]. apply elem_of_seq. rewrite app_length. lia.
Qed.
Lemma parent_decompose (p : list string) : p ≠ [] → ∃ x, p = parent p ++ [x].
Proof.
  destruct p as [|x p _] using rev_ind; [done|]. intros _. exists x. rewrite parent_snoc. done.
Qed.
Lemma above_parent p q : q ≠ [] → above p q ↔ p `prefix_of` parent q.
Proof.
  intros H. destruct (parent_decompose q H) as [x E]. revert E. generalize (parent q). intros r ->. unfold above. split.
  - intros [[s E] Hne]. destruct s as [|y s _] using rev_ind; [rewrite app_nil_r in E; done|]. rewrite app_assoc in E. apply app_inj_tail in E as [-> _]. exists s. done.
  - intros [s ->]. split; [exists (s ++ [x]); rewrite app_assoc; done|]. intros E. apply (f_equal length) in E. rewrite !app_length in E. cbn in E. lia.
Qed.

(** ** Directories on the way *)
Definition dirs_for (p : list string) (f f' : files) : Prop :=
  ∀ q, f' !! q = match f !! q with Some x => Some x | None => if decide (q `prefix_of` p) then Some Dir else None end.
Lemma create_dir_all_over p n f a n' f' : create_dir_all p n f = Over a n' f' → dirs_for p f f' ∧ ∀ q, q `prefix_of` p → f' !! q = Some Dir.
Proof.
  intros H. eapply (each_over _ (λ l g, (∀ q, g !! q = match f !! q with Some x => Some x | None => if decide (q ∈ l) then Some Dir else None end) ∧ ∀ q, q ∈ l → g !! q = Some Dir)) in H as [H1 H2].
  - split; [|intros q Hq; apply H2, prefixes_in, Hq]. intros q. rewrite H1. destruct (f !! q); [done|].
    destruct (decide (q `prefix_of` p)) as [Hq|Hq]; [rewrite decide_True by (apply prefixes_in; done)|rewrite decide_False by (rewrite prefixes_in; done)]; done.
  - intros l1 x l2 n1 f1 n2 f2 a' _ [H1 H2] H3. apply ensure_dir_over in H3 as [-> H3].
    assert (add_dir x f1 !! x = Some Dir) as Hx.
    { rewrite add_dir_lookup, decide_True by done. destruct H3 as [-> | ->]; done. }
    split.
    + intros q. rewrite add_dir_lookup, H1. destruct (f !! q); [done|]. destruct (decide (q ∈ l1)).
      * rewrite decide_True by (apply elem_of_app; auto). done.
      * destruct (decide (q = x)) as [->|Hq]; [rewrite decide_True by (apply elem_of_app; right; apply elem_of_list_singleton; done); done|].
        rewrite decide_False; [done|]. rewrite elem_of_app, elem_of_list_singleton. tauto.
    + intros q [Hq| ->%elem_of_list_singleton]%elem_of_app; [|done]. rewrite add_dir_lookup, (H2 q Hq). done.
  - split; [|intros q Hq; inversion Hq]. intros q. destruct (f !! q); done.
Qed.
Lemma create_dir_all_run p f : f !! [] = Some Dir → (∀ q, q `prefix_of` p → f !! q = None ∨ f !! q = Some Dir) →
  ∃ f', create_dir_all p None f = Over () None f'.
Proof.
  intros H0 Hp.
  assert (∀ m i f1, m + i = S (length p) → (∀ q, q `prefix_of` p → f1 !! q = None ∨ f1 !! q = Some Dir) → (∀ j, j < i → f1 !! take j p = Some Dir) → f1 !! [] = Some Dir →
    ∃ f', each ensure_dir ((λ n, take n p) <$> seq i m) None f1 = Over () None f') as H.
  { induction m as [|m IH]; intros i f1 Hm Hf Hj H1; [eexists; done|]. cbn [seq fmap list_fmap each].
    assert (take i p `prefix_of` p) as Hpre by (exists (drop i p); symmetry; apply take_drop).
    destruct (ensure_dir_costs (take i p) f1) as [Hrun _].
    { destruct (Hf _ Hpre) as [E|E]; [left|auto]. split; [done|]. destruct i as [|i]; [rewrite take_0 in E; congruence|].
      unfold parent. rewrite take_take, take_length. replace (min _ _) with i by lia. apply Hj. lia. }
    unfold bind. rewrite Hrun. assert (add_dir (take i p) f1 !! take i p = Some Dir) as Hi.
    { rewrite add_dir_lookup, decide_True by done. destruct (Hf _ Hpre) as [-> | ->]; done. }
    apply (IH (S i) (add_dir (take i p) f1)); [lia| | |].
    - intros q Hq. rewrite add_dir_lookup. destruct (Hf q Hq) as [-> | ->]; [|auto]. case_decide; auto.
    - intros j Hji. destruct (decide (j = i)) as [->|Hne]; [done|]. rewrite add_dir_lookup, Hj by lia. done.
    - rewrite add_dir_lookup, H1. done. }
  apply (H (S (length p)) 0 f); [lia|done|lia|done].
Qed.

(** ** Sequences of files *)
Notation writes := (list (list string * string)) (only parsing).
Definition wrote (ws : writes) (f f' : files) : Prop := ∀ p, f' !! p = after_writing ws f p.
Definition ready (ws : writes) (f : files) : Prop :=
  f !! [] = Some Dir ∧ apart ws ∧ ∀ w, w ∈ ws → f !! w.1 = None ∧ ∀ q, above q w.1 → f !! q = None ∨ f !! q = Some Dir.
Lemma last_at_app p ws1 ws2 : last_at p (ws1 ++ ws2) = match last_at p ws2 with Some s => Some s | None => last_at p ws1 end.
Proof. unfold last_at. rewrite filter_app, last_app. destruct (last (filter _ ws2)); done. Qed.
Lemma last_at_none p ws : last_at p ws = None ↔ ∀ w, w ∈ ws → w.1 ≠ p.
Proof.
  unfold last_at. rewrite fmap_None, last_None. split.
  - intros H w Hw E. apply (elem_of_nil w). rewrite <- H. apply elem_of_list_filter. done.
  - intros H. destruct (filter _ ws) as [|w l] eqn:E; [done|]. exfalso. assert (w ∈ filter (λ w : list string * string, w.1 = p) ws) as Hw by (rewrite E; left).
    apply elem_of_list_filter in Hw as [H1 H2]. apply (H w H2 H1).
Qed.
Lemma last_at_some p ws s : last_at p ws = Some s → (p, s) ∈ ws.
Proof.
  unfold last_at. intros ([q t] & Hl & E)%fmap_Some. cbn in E. subst t. apply last_Some in Hl as [l Hl].
  assert ((q, s) ∈ filter (λ w : list string * string, w.1 = p) ws) as Hw by (rewrite Hl; apply elem_of_app; right; left).
  apply elem_of_list_filter in Hw as [H1 H2]. cbn in H1. subst q. done.
Qed.
Lemma wrote_nil f : wrote [] f f.
Proof. intros p. unfold after_writing. change (last_at p []) with (@None string). cbv iota. destruct (f !! p); [done|]. case_decide as H; [inversion H|done]. Qed.
Lemma wrote_app ws1 ws2 f f1 f2 : wrote ws1 f f1 → wrote ws2 f1 f2 → wrote (ws1 ++ ws2) f f2.
Proof.
  intros H1 H2 p. rewrite H2. unfold after_writing. rewrite H1, last_at_app. unfold after_writing. destruct (last_at p ws2); [done|].
  destruct (last_at p ws1); [done|]. destruct (f !! p); [done|].
  destruct (decide (Exists (λ w, above p w.1) ws1)) as [E1|E1].
  - rewrite decide_True by (apply Exists_app; auto). done.
  - destruct (decide (Exists (λ w, above p w.1) ws2)) as [E2|E2]; [rewrite decide_True by (apply Exists_app; auto)|rewrite decide_False by (rewrite Exists_app; tauto)]; done.
Qed.
Lemma apart_app ws1 ws2 : apart (ws1 ++ ws2) → apart ws1 ∧ apart ws2 ∧ ∀ v w, v ∈ ws1 → w ∈ ws2 → ¬ v.1 `prefix_of` w.1 ∧ ¬ w.1 `prefix_of` v.1.
Proof.
  intros H. split; [|split].
  - intros i j v w Hi Hj. apply H; apply lookup_app_l_Some; done.
  - intros i j v w Hi Hj Hne. apply (H (length ws1 + i) (length ws1 + j)); [| |lia]; rewrite lookup_app_r by lia; rewrite Nat.add_comm, Nat.add_sub; done.
  - intros v w [i Hi]%elem_of_list_lookup [j Hj]%elem_of_list_lookup.
    assert ((ws1 ++ ws2) !! i = Some v) as Li by (apply lookup_app_l_Some; done).
    assert ((ws1 ++ ws2) !! (length ws1 + j) = Some w) as Lj by (rewrite lookup_app_r by lia; rewrite Nat.add_comm, Nat.add_sub; done).
    apply lookup_lt_Some in Hi. split; [eapply H; [exact Li|exact Lj|lia]|eapply H; [exact Lj|exact Li|lia]].
Qed.
Lemma ready_app ws1 ws2 f : ready (ws1 ++ ws2) f → ready ws1 f ∧ ∀ f1, wrote ws1 f f1 → ready ws2 f1.
Proof.
  intros (H0 & HA & HW). destruct (apart_app _ _ HA) as (A1 & A2 & A12). split.
  - split; [done|]. split; [done|]. intros w Hw. apply HW, elem_of_app. auto.
  - intros f1 H1. split; [|split; [done|]].
    + rewrite H1. unfold after_writing. rewrite (proj2 (last_at_none [] ws1)), H0; [done|]. intros w Hw E. destruct (HW w) as [H _]; [apply elem_of_app; auto|]. congruence.
    + intros w Hw. destruct (HW w) as [Hn Ha]; [apply elem_of_app; auto|]. split.
      * rewrite H1. unfold after_writing. rewrite (proj2 (last_at_none _ ws1)), Hn.
        -- rewrite decide_False; [done|]. rewrite Exists_exists. intros (v & Hv & [Hp _]). apply (proj2 (A12 v w Hv Hw)). done.
        -- intros v Hv E. apply (proj1 (A12 v w Hv Hw)). rewrite E. done.
      * intros q Hq. rewrite H1. unfold after_writing. rewrite (proj2 (last_at_none _ ws1)).
        -- destruct (Ha q Hq) as [-> | ->]; [|auto]. case_decide; auto.
        -- intros v Hv E. apply (proj1 (A12 v w Hv Hw)). rewrite E. apply Hq.
Qed.

Lemma while_writing_refl ws : Reflexive (while_writing ws).
Proof. intros f p. auto. Qed.
Lemma while_writing_trans ws : Transitive (while_writing ws).
Proof.
  intros f g h H1 H2 p. destruct (H2 p) as [E2|[(N2 & E2 & X2)|(s & t & M & S & E2)]].
  - rewrite E2. apply H1.
  - destruct (H1 p) as [E1|[(N1 & E1 & X1)|(s & t & M & S & E1)]]; [|congruence..]. right. left. rewrite <- E1. auto.
  - right. right. eauto.
Qed.
(** [m] writes [ws]: it writes nothing else, in whatever way it ends; if it ends well, they are
    written; and it does end well when they are new (and [G] holds). *)
Definition builds (G : Prop) (ws : writes) (m : io ()) : Prop :=
  (∀ n f a n' f', m n f = Over a n' f' → wrote ws f f') ∧
  (∀ f, G → ready ws f → ∃ f', m None f = Over () None f') ∧
  (∀ all, ws ⊆ all → keeps (while_writing all) m).
Lemma builds_give G : builds G [] (give ()).
Proof.
  split; [|split].
  - intros n f a n' f' [= _ _ <-]. apply wrote_nil.
  - intros f _ _. eexists. done.
  - intros all _. apply keeps_give, while_writing_refl.
Qed.
Lemma builds_look {A : Type} (G : Prop) (q : files → A) : builds G [] (bind (look q) (λ _, give ())).
Proof.
  split; [|split].
  - intros n f a n' f' [= _ _ <-]. apply wrote_nil.
  - intros f _ _. eexists. done.
  - intros all _. apply keeps_bind; [apply while_writing_trans|apply keeps_look, while_writing_refl|]. intros _. apply keeps_give, while_writing_refl.
Qed.
Lemma builds_then (G G1 G2 : Prop) ws1 ws2 m1 m2 : (G → G1 ∧ G2) → builds G1 ws1 m1 → builds G2 ws2 m2 → builds G (ws1 ++ ws2) (m1 >>> m2).
Proof.
  intros HG (A1 & B1 & C1) (A2 & B2 & C2). split; [|split].
  - intros n f a n' f' H. apply bind_over in H as (a1 & n1 & f1 & H1 & H2). eapply wrote_app; eauto.
  - intros f G' H. apply HG in G' as [G1' G2']. apply ready_app in H as [R1 R2]. destruct (B1 f G1' R1) as [f1 E1]. unfold bind. rewrite E1.
    apply B2; [done|]. apply R2. eapply A1. exact E1.
  - intros all Hall. apply keeps_bind; [apply while_writing_trans| |].
    + apply C1. intros w Hw. apply Hall, elem_of_app. auto.
    + intros _. apply C2. intros w Hw. apply Hall, elem_of_app. auto.
Qed.
Lemma builds_each {A : Type} (G : A → Prop) (F : A → writes) (k : A → io ()) l : (∀ x, builds (G x) (F x) (k x)) →
  builds (∀ x, x ∈ l → G x) (mjoin (F <$> l)) (each k l).
Proof.
  intros H. induction l as [|x l IH]; [apply builds_give|]. cbn [each]. rewrite fmap_cons. change (mjoin (F x :: (F <$> l))) with (F x ++ mjoin (F <$> l)).
  eapply builds_then; [|apply H|apply IH]. intros HG. split; [apply HG; left|]. intros y Hy. apply HG. right. done.
Qed.

(** ** One file *)
Lemma dirs_while all p : Exists (λ w : list string * string, p `prefix_of` w.1) all → keeps (while_writing all) (create_dir_all p).
Proof.
  intros H. apply keeps_each; [apply while_writing_refl|apply while_writing_trans|]. intros q Hq%prefixes_in n g.
  destruct (ensure_dir_final q n g) as [-> | ->]; [apply while_writing_refl|]. intros r. rewrite add_dir_lookup. destruct (g !! r); [auto|].
  case_decide; [subst; right; left|auto]. split; [done|]. split; [done|]. eapply Exists_impl; [exact H|]. intros w Hw. etrans; done.
Qed.
Lemma file_while all p s : (p, s) ∈ all → keeps (while_writing all) (write_file p s).
Proof.
  intros H n f. destruct (write_file_final p s n f) as [-> | (u & Hu & ->)]; [apply while_writing_refl|]. intros q.
  destruct (decide (q = p)) as [->|Hq]; [right; right; exists u, s; rewrite lookup_insert; auto|left; apply lookup_insert_ne; done].
Qed.
Lemma wrote_one p s f f1 : p ≠ [] → dirs_for (parent p) f f1 → wrote [(p, s)] f (<[p := File s]> f1).
Proof.
  intros Hp Hd q. unfold after_writing. destruct (decide (q = p)) as [->|Hq].
  - rewrite lookup_insert. unfold last_at. rewrite filter_cons_True by done. done.
  - rewrite lookup_insert_ne by done. rewrite (proj2 (last_at_none q [(p, s)])) by (intros w ->%elem_of_list_singleton; cbn; congruence).
    rewrite Hd. destruct (f !! q); [done|]. destruct (decide (q `prefix_of` parent p)) as [H|H].
    + rewrite decide_True; [done|]. apply Exists_cons. left. apply above_parent; done.
    + rewrite decide_False; [done|]. rewrite Exists_cons, Exists_nil. intros [H'|[]]. apply H, (above_parent q p Hp), H'.
Qed.
Lemma one_in (w : list string * string) all : [w] ⊆ all → w ∈ all.
Proof. intros H. apply H. left. Qed.
Lemma above_one all p s q : (p, s) ∈ all → q `prefix_of` p → Exists (λ w : list string * string, q `prefix_of` w.1) all.
Proof. intros H1 H2. apply Exists_exists. exists (p, s). done. Qed.
Lemma snoc_nonempty {A : Type} (l : list A) x : l ++ [x] ≠ [].
Proof. destruct l; done. Qed.
Lemma builds_manifest G dir x s : builds G [(dir ++ [x], s)] (create_dir_all dir >>> write_file (dir ++ [x]) s).
Proof.
  split; [|split].
  - intros n f a n' f' H. apply bind_over in H as (a1 & n1 & f1 & H1 & H2). apply create_dir_all_over in H1 as [H1 _]. apply write_file_over in H2 as (-> & _).
    apply wrote_one; [apply snoc_nonempty|]. rewrite parent_snoc. done.
  - intros f _ (H0 & _ & HW). destruct (HW (dir ++ [x], s)) as [Hn Ha]; [left|]. cbn in Hn, Ha.
    destruct (create_dir_all_run dir f H0) as [f1 E1].
    { intros q Hq. apply Ha, above_parent; [apply snoc_nonempty|]. rewrite parent_snoc. done. }
    unfold bind. rewrite E1. apply create_dir_all_over in E1 as [D1 D2]. eexists. apply write_file_run; [rewrite parent_snoc; apply D2; done|].
    rewrite D1, Hn. rewrite decide_False; [done|]. intros [r E]. apply (f_equal length) in E. rewrite !app_length in E. cbn in E. lia.
  - intros all Hall%one_in. apply keeps_bind; [apply while_writing_trans| |intros _; apply file_while; done].
    apply dirs_while. eapply above_one; [done|]. exists [x]. done.
Qed.
Lemma prefix_parent dir name : name ≠ [] → dir `prefix_of` parent (dir ++ name).
Proof.
  intros H. apply (above_parent dir (dir ++ name)); [intros E; apply app_eq_nil in E as [_ ?]; done|]. split; [exists name; done|].
  intros E. apply (f_equal length) in E. rewrite app_length in E. destruct name; [done|]. cbn in E. lia.
Qed.
Lemma builds_asset dir a : builds (ab_name a ≠ []) [asset_file dir a] (build_asset dir a).
Proof.
  unfold asset_file. split; [|split].
  - intros n f b n' f' H. apply bind_over in H as (a1 & n1 & f1 & H1 & H). apply create_dir_all_over in H1 as [D1 D1'].
    apply bind_over in H as (a2 & n2 & f2 & H2 & H). apply require_over in H2 as (H2 & -> & ->). apply negb_true_iff in H2.
    assert (ab_name a ≠ []) as Hname.
    { intros E. rewrite E, app_nil_r in H2. unfold path_exists in H2. rewrite D1' in H2 by done. done. }
    apply bind_over in H as (a3 & n3 & f3 & H3 & H). apply create_dir_all_over in H3 as [D2 D2']. apply write_file_over in H as (-> & _).
    apply wrote_one; [intros E; apply app_eq_nil in E as [_ ?]; done|]. intros q. rewrite D2, D1. destruct (f !! q); [done|].
    destruct (decide (q `prefix_of` dir)) as [Hq|Hq]; [|done]. rewrite decide_True; [done|]. etrans; [exact Hq|apply prefix_parent; done].
  - intros f Hname (H0 & _ & HW). destruct (HW (dir ++ ab_name a, ab_contents a)) as [Hn Ha]; [left|]. cbn in Hn, Ha.
    assert (dir ++ ab_name a ≠ []) as Hne by (intros E; apply app_eq_nil in E as [_ ?]; done).
    destruct (create_dir_all_run dir f H0) as [f1 E1].
    { intros q Hq. apply Ha, above_parent; [done|]. etrans; [exact Hq|apply prefix_parent; done]. }
    unfold build_asset. unfold bind at 1. rewrite E1. apply create_dir_all_over in E1 as [D1 D1'].
    assert (f1 !! (dir ++ ab_name a) = None) as Hn1.
    { rewrite D1, Hn. rewrite decide_False; [done|]. intros [r E]. apply (f_equal length) in E. rewrite !app_length in E. destruct (ab_name a); [done|]. cbn in E. lia. }
    unfold bind at 1. unfold require, bind at 1, look, path_exists. rewrite Hn1. cbn [negb]. unfold give at 1.
    destruct (create_dir_all_run (parent (dir ++ ab_name a)) f1) as [f2 E2].
    { apply D1'. apply prefix_nil. }
    { intros q Hq. rewrite D1. destruct (Ha q) as [-> | ->]; [apply above_parent; done| |auto]. case_decide; auto. }
    unfold bind. rewrite E2. apply create_dir_all_over in E2 as [D2 D2']. eexists. apply write_file_run; [apply D2'; done|].
    rewrite D2, Hn1. rewrite decide_False; [done|]. intros Hp. apply above_parent in Hp; [|done]. destruct Hp as [_ Hp]. done.
  - intros all Hall%one_in. assert (∀ q, q `prefix_of` dir ++ ab_name a → keeps (while_writing all) (create_dir_all q)) as HD.
    { intros q Hq. apply dirs_while. eapply above_one; done. }
    unfold build_asset. apply keeps_bind; [apply while_writing_trans|apply HD; exists (ab_name a); done|intros _].
    apply keeps_bind; [apply while_writing_trans|apply keeps_require; [apply while_writing_refl|apply while_writing_trans]|intros _].
    apply keeps_bind; [apply while_writing_trans|apply HD|intros _; apply file_while; done]. unfold parent. eexists. symmetry. apply take_drop.
Qed.

(** ** Builders *)
Lemma builds_more (G G' : Prop) ws m : (G → G') → builds G' ws m → builds G ws m.
Proof. intros H (A & B & C). split; [done|]. split; [|done]. intros f HG. apply B. auto. Qed.
Lemma builds_ext G ws m m' : (∀ n f, m n f = m' n f) → builds G ws m → builds G ws m'.
Proof.
  intros H (A & B & C). split; [|split].
  - intros n f a n' f' E. rewrite <- H in E. eauto.
  - intros f HG Hr. rewrite <- H. eauto.
  - intros all Hall n f. rewrite <- H. apply C. done.
Qed.
Lemma assets_join dir l : mjoin ((λ a, [asset_file dir a]) <$> l) = asset_file dir <$> l.
Proof. induction l as [|a l IH]; [done|]. rewrite !fmap_cons. change (asset_file dir a :: mjoin ((λ a, [asset_file dir a]) <$> l) = asset_file dir a :: (asset_file dir <$> l)). rewrite IH. done. Qed.
Lemma builds_assets dir l : builds (assets_named l) (asset_file dir <$> l) (each (build_asset dir) l).
Proof. rewrite <- assets_join. apply (builds_each (λ a, ab_name a ≠ [])). intros a. apply builds_asset. Qed.
Lemma builds_exercise dir b : builds (assets_named (eb_assets b)) (exercise_files dir b) (build_exercise dir b).
Proof.
  unfold exercise_files. rewrite <- (app_nil_r (asset_file dir <$> eb_assets b)).
  eapply builds_ext; [|eapply (builds_then _ True _ [_]); [|apply (builds_manifest _ dir "exercise_manifest.json")|eapply builds_then; [|apply builds_assets|apply (builds_look (A := bool) True)]]].
  - intros n f. apply bind_assoc.
  - intros H. split; [done|exact H].
  - intros H. split; [exact H|done].
Qed.
Lemma builds_lesson dir b : builds (assets_named (lb_assets b) ∧ ∀ e, e ∈ lb_exercises b → assets_named (eb_assets e)) (lesson_files dir b) (build_lesson dir b).
Proof.
  unfold lesson_files. rewrite <- (app_nil_r (mjoin _)).
  eapply builds_ext; [|eapply (builds_then _ True _ [_]); [|apply (builds_manifest _ dir "lesson_manifest.json")|eapply builds_then; [|apply builds_assets|eapply builds_then; [|
    apply (builds_each (λ e, assets_named (eb_assets e)) (λ e, exercise_files (dir ++ [eb_dir e]) e)); intros e; apply builds_exercise|apply (builds_look (A := bool) True)]]]].
  - intros n f. apply bind_assoc.
  - intros H. split; [done|exact H].
  - intros [H1 H2]. split; [exact H1|exact H2].
  - intros H. split; [exact H|done].
Qed.
Lemma builds_course parent b : builds (names_given b) (course_files parent b) (build_course parent b).
Proof.
  unfold course_files. cbv zeta. rewrite <- (app_nil_r (mjoin _)).
  eapply builds_ext; [|eapply (builds_then _ True _ [_]); [|apply (builds_manifest _ (parent ++ [cb_dir b]) "course_manifest.json")|eapply builds_then; [|apply builds_assets|eapply builds_then; [|
    apply (builds_each (λ l, assets_named (lb_assets l) ∧ ∀ e, e ∈ lb_exercises l → assets_named (eb_assets e)) (λ l, lesson_files ((parent ++ [cb_dir b]) ++ [lb_dir l]) l)); intros l; apply builds_lesson|apply (builds_look (A := bool) True)]]]].
  - intros n f. apply bind_assoc.
  - intros H. split; [done|exact H].
  - intros [H1 H2]. split; [exact H1|exact H2].
  - intros H. split; [exact H|done].
Qed.

(** ** Consequences *)
Lemma course_exact parent b n f a n' f' : build_course parent b n f = Over a n' f' → ∀ p, f' !! p = after_writing (course_files parent b) f p.
Proof. destruct (builds_course parent b) as (H & _). apply H. Qed.
Lemma course_while parent b n f : while_writing (course_files parent b) f (final (build_course parent b n f)).
Proof. destruct (builds_course parent b) as (_ & _ & H). apply H. done. Qed.
Lemma course_inside parent b w : w ∈ course_files parent b → above (parent ++ [cb_dir b]) w.1 ∨ w.1 = parent ++ [cb_dir b].
Proof.
  assert (∀ (d : list string) r, above d (d ++ r) ∨ d ++ r = d) as HA.
  { intros d [|x r]; [right; apply app_nil_r|]. left. split; [exists (x :: r); done|]. intros E. apply (f_equal length) in E. rewrite app_length in E. cbn in E. lia. }
  unfold course_files. cbv zeta. generalize (parent ++ [cb_dir b]). intros d [->|[H|H]%elem_of_app]%elem_of_cons; [apply HA| |].
  - apply elem_of_list_fmap in H as (a & -> & _). apply HA.
  - apply elem_of_list_join in H as (ws & Hw & (l & -> & _)%elem_of_list_fmap). unfold lesson_files in Hw.
    apply elem_of_cons in Hw as [->|[Hw|Hw]%elem_of_app]; [rewrite <- app_assoc; apply HA| |].
    + apply elem_of_list_fmap in Hw as (a & -> & _). cbn [fst asset_file]. rewrite <- app_assoc. apply HA.
    + apply elem_of_list_join in Hw as (ws & Hw & (e & -> & _)%elem_of_list_fmap). apply elem_of_cons in Hw as [->|Hw]; [cbn [fst]; rewrite <- !app_assoc; apply HA|].
      apply elem_of_list_fmap in Hw as (a & -> & _). cbn [fst asset_file]. rewrite <- !app_assoc. apply HA.
Qed.
(** Whatever happens, nothing outside the directory of the course changes, except directories that were missing on the way. *)
Lemma course_outside parent b n f p : let g := final (build_course parent b n f) in
  ¬ parent ++ [cb_dir b] `prefix_of` p → g !! p = f !! p ∨ (f !! p = None ∧ g !! p = Some Dir ∧ p `prefix_of` parent).
Proof.
  cbv zeta. intros Hp. destruct (course_while parent b n f p) as [H|[(H1 & H2 & H3)|(s & t & H & _)]]; [auto| |].
  - right. split; [done|]. split; [done|]. apply Exists_exists in H3 as (w & Hw & Hpre). 
    assert (parent ++ [cb_dir b] `prefix_of` w.1) as Hd by (destruct (course_inside _ _ _ Hw) as [[? _]| ->]; done).
    destruct (prefix_weak_total _ _ _ Hpre Hd) as [H|H]; [|done]. destruct H as [r E].
    destruct r as [|x r _] using rev_ind; [rewrite app_nil_r in E; exfalso; apply Hp; rewrite E; done|]. rewrite app_assoc in E. apply app_inj_tail in E as [-> _]. exists r. done.
  - exfalso. apply Hp. destruct (course_inside _ _ _ H) as [[? _]|E]; cbn in *; [done|]. rewrite E. done.
Qed.
Lemma tree_prefix f p q : tree f → q `prefix_of` p → f !! p = Some Dir → f !! q = Some Dir.
Proof.
  intros [H0 H] [r ->]. induction r as [|x r IH] using rev_ind; [rewrite app_nil_r; done|]. rewrite app_assoc. intros E. apply IH. eapply H. exact E.
Qed.
Lemma tree_none f p q : tree f → p `prefix_of` q → f !! p = None → f !! q = None.
Proof.
  intros [H0 H] [r ->] Hp. induction r as [|x r IH] using rev_ind; [rewrite app_nil_r; done|]. rewrite app_assoc.
  destruct (f !! ((p ++ r) ++ [x])) eqn:E; [|done]. apply H in E. congruence.
Qed.
Lemma course_builds parent b f : tree f → f !! parent = Some Dir → f !! (parent ++ [cb_dir b]) = None → names_given b → apart (course_files parent b) →
  ∃ f', build_course parent b None f = Over () None f'.
Proof.
  intros Ht Hp Hn HN HA. destruct (builds_course parent b) as (_ & H & _). apply H; [done|]. split; [apply Ht|]. split; [done|]. intros w Hw.
  assert (parent ++ [cb_dir b] `prefix_of` w.1) as Hd by (destruct (course_inside _ _ _ Hw) as [[? _]| ->]; done).
  split; [eapply tree_none; done|]. intros q [Hq _]. destruct (prefix_weak_total _ _ _ Hq Hd) as [H1|H1].
  - destruct H1 as [r E]. destruct r as [|x r _] using rev_ind.
    + left. rewrite app_nil_r in E. rewrite <- E. done.
    + right. rewrite app_assoc in E. apply app_inj_tail in E as [-> _]. eapply tree_prefix; [done| |done]. exists r. done.
  - left. eapply tree_none; done.
Qed.
Lemma apart_last ws p s : apart ws → (p, s) ∈ ws → last_at p ws = Some s.
Proof.
  intros HA Hin. destruct (last_at p ws) as [t|] eqn:E.
  - apply last_at_some in E. apply elem_of_list_lookup in Hin as [i Hi], E as [j Hj]. destruct (decide (i = j)) as [->|Hne]; [congruence|].
    exfalso. apply (HA i j _ _ Hi Hj Hne). done.
  - exfalso. apply (proj1 (last_at_none _ _) E _ Hin). done.
Qed.
Lemma course_contains parent b n f a n' f' : build_course parent b n f = Over a n' f' → apart (course_files parent b) →
  ∀ p s, (p, s) ∈ course_files parent b → f' !! p = Some (File s).
Proof. intros H HA p s Hin. rewrite (course_exact _ _ _ _ _ _ _ H). unfold after_writing. erewrite apart_last; done. Qed.
Lemma course_exists parent b n f a n' f' : build_course parent b n f = Over a n' f' →
  ∀ p, f' !! p ≠ None ↔ (f !! p ≠ None ∨ ∃ w, w ∈ course_files parent b ∧ p `prefix_of` w.1).
Proof.
  intros H p. rewrite (course_exact _ _ _ _ _ _ _ H). unfold after_writing. destruct (last_at p _) as [s|] eqn:E.
  - apply last_at_some in E. split; [intros _; right; exists (p, s); done|done].
  - destruct (f !! p) eqn:Ef; [split; [intros _; left; done|done]|]. case_decide as D.
    + split; [|done]. intros _. right. apply Exists_exists in D as (w & Hw & [? _]). eauto.
    + split; [done|]. intros [?|(w & Hw & Hpre)]; [done|]. exfalso. apply D, Exists_exists. exists w. split; [done|]. split; [done|].
      intros Eq. apply (proj1 (last_at_none _ _) E w Hw). done.
Qed.
