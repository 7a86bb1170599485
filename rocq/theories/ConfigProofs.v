(** Facts about the configuration directory and the preferences. *)
From stdpp Require Import gmap strings list.
From Coq Require Import Ascii.
From Verif Require Import Library StrFacts FileSystem FileSpec FileProofs.
Local Open Scope string_scope.
Local Open Scope list_scope.

Lemma starts_refl s : starts s s.
Proof. exists "". apply sapp_nil. Qed.
Lemma starts_empty s : starts "" s.
Proof. exists s. done. Qed.
Lemma starts_app s t u : starts (s +:+ t) u → starts s u.
Proof. intros [v <-]. exists (t +:+ v). rewrite sapp_assoc. done. Qed.

Lemma bind_assoc {A B C : Type} (m : io A) (k : A → io B) (l : B → io C) n f : bind (bind m k) l n f = bind m (λ a, bind (k a) l) n f.
Proof. unfold bind. destruct (m n f); done. Qed.
Lemma bind_ext {A B : Type} (m : io A) (k k' : A → io B) n f : (∀ a n f, k a n f = k' a n f) → bind m k n f = bind m k' n f.
Proof. intros H. unfold bind. destruct (m n f); auto. Qed.

(** A run that takes some number of steps. *)
Definition costs {A : Type} (m : io A) (f : files) (a : A) (f' : files) : Prop :=
  m None f = Over a None f' ∧ ∃ k, ∀ j, m (Some (k + j)) f = Over a (Some j) f'.
Lemma costs_bind {A B : Type} (m : io A) (k : A → io B) f a f1 b f2 : costs m f a f1 → costs (k a) f1 b f2 → costs (bind m k) f b f2.
Proof.
  intros [H1 [c1 H2]] [H3 [c2 H4]]. split; unfold bind; [rewrite H1; done|]. exists (c1 + c2). intros j.
  replace (c1 + c2 + j) with (c1 + (c2 + j)) by lia. rewrite H2. done.
Qed.
Lemma costs_give {A : Type} (a : A) f : costs (give a) f a f.
Proof. split; [done|]. exists 0. done. Qed.
Lemma costs_look {A : Type} (q : files → A) f : costs (look q) f (q f) f.
Proof. split; [done|]. exists 0. done. Qed.
Lemma costs_require q f : q f = true → costs (require q) f () f.
Proof. intros H. eapply costs_bind; [apply costs_look|]. rewrite H. apply costs_give. Qed.
Lemma costs_step c f f' : c f = Some f' → costs (step c) f () f'.
Proof. intros H. split; [unfold step; rewrite H; done|]. exists 1. intros j. unfold step. cbn. rewrite H. done. Qed.
(** Interrupted in the middle. *)
Lemma costs_then {A B : Type} (m : io A) (k : A → io B) f a f1 j r : costs m f a f1 → k a (Some j) f1 = r → ∃ n, bind m k (Some n) f = r.
Proof. intros [_ [c H]] Hr. exists (c + j). unfold bind. rewrite H. done. Qed.

(** ** Writing, interrupted *)
Lemma write_all_final p s : ∀ n f t, f !! p = Some (File t) →
  ∃ u, starts u s ∧ final (write_all p s n f) = <[p := File (t +:+ u)]> f.
Proof.
  induction s as [|c s IH]; intros n f t Hp; cbn [write_all].
  - exists "". split; [apply starts_empty|]. cbn. rewrite sapp_nil, insert_id; done.
  - unfold bind, step, append_char. destruct n as [[|n]|].
    + exists "". split; [apply starts_empty|]. cbn. rewrite sapp_nil, insert_id; done.
    + rewrite Hp. cbn. edestruct (IH (Some n) (<[p:=File (t +:+ String c "")]> f)) as (u & [v <-] & ->); [apply lookup_insert|].
      exists (String c u). split; [exists v; done|]. rewrite insert_insert, sapp_assoc. done.
    + rewrite Hp. cbn. edestruct (IH None (<[p:=File (t +:+ String c "")]> f)) as (u & [v <-] & ->); [apply lookup_insert|].
      exists (String c u). split; [exists v; done|]. rewrite insert_insert, sapp_assoc. done.
Qed.
Lemma write_file_final p s n f : final (write_file p s n f) = f ∨ ∃ u, starts u s ∧ final (write_file p s n f) = <[p := File u]> f.
Proof.
  unfold write_file, bind, step, make_file. destruct n as [[|n]|]; [left; done|..];
    (destruct (is_dir f (parent p) && negb (is_dir f p)); [|left; done]; right; cbn;
     edestruct write_all_final as (u & Hu & ->); [apply lookup_insert|]; exists u; split; [done|]; rewrite insert_insert; done).
Qed.
Lemma write_file_begun p a s f : f !! parent p = Some Dir → f !! p ≠ Some Dir → write_file p (String a s) (Some 1) f = Interrupted (<[p := File ""]> f).
Proof.
  intros H1 H2. unfold write_file, bind, step, make_file. rewrite (proj2 (is_dir_true f (parent p)) H1).
  destruct (is_dir f p) eqn:E; [apply is_dir_true in E; done|]. cbn. done.
Qed.

(** ** Directories *)
Definition add_dir (p : path) (f : files) : files := match f !! p with Some _ => f | None => <[p := Dir]> f end.
Lemma add_dir_lookup p f q : add_dir p f !! q = match f !! q with Some n => Some n | None => if decide (q = p) then Some Dir else None end.
Proof.
  unfold add_dir. destruct (decide (q = p)) as [->|Hq].
  - destruct (f !! p) eqn:E; [done|]. rewrite lookup_insert. done.
  - destruct (f !! p) eqn:E; [|rewrite lookup_insert_ne by done]; destruct (f !! q); done.
Qed.
Lemma ensure_dir_over p n f a n' f' : ensure_dir p n f = Over a n' f' → f' = add_dir p f ∧ (f !! p = None ∨ f !! p = Some Dir).
Proof.
  intros H. apply bind_over in H as (b & n1 & f1 & H1 & H2). apply look_over in H1 as (-> & -> & ->). unfold add_dir.
  destruct (is_dir f p) eqn:E.
  - injection H2 as _ _ <-. apply is_dir_true in E. rewrite E. auto.
  - apply step_over in H2. unfold make_dir, path_exists in H2. destruct (is_dir f (parent p)); [|done]. destruct (f !! p); [done|]. injection H2 as <-. auto.
Qed.
Lemma ensure_dir_costs p f : (f !! p = None ∧ f !! parent p = Some Dir) ∨ f !! p = Some Dir → costs (ensure_dir p) f () (add_dir p f).
Proof.
  intros H. eapply costs_bind; [apply costs_look|]. unfold add_dir. destruct H as [[H1 H2]|H].
  - unfold is_dir. rewrite H1. apply costs_step. unfold make_dir, path_exists. rewrite H1, (proj2 (is_dir_true _ _) H2). done.
  - rewrite (proj2 (is_dir_true _ _) H), H. apply costs_give.
Qed.
Lemma ensure_dir_final p n f : final (ensure_dir p n f) = f ∨ final (ensure_dir p n f) = add_dir p f.
Proof.
  unfold ensure_dir, bind, look, step, make_dir, add_dir, path_exists. destruct (is_dir f p); [auto|].
  destruct n as [[|n]|]; [auto|..]; (destruct (is_dir f (parent p)); [|auto]; destruct (f !! p); cbn; auto).
Qed.

Section config.
  Context (root : list string) (text : string).
  Notation t := (trane_dir root).
  Notation fi := (filters_dir root).
  Notation se := (sessions_dir root).
  Notation pr := (preferences_path root).
  (** The directories. *)
  Definition config_dirs : io () :=
    require (λ f, is_dir f root) >>>
    (b <-- look (λ f, path_exists f t) ;;; if (b : bool) then require (λ f, is_dir f t) else step (make_dir t)) >>>
    ensure_dir fi >>> ensure_dir se.
  Definition config_text : io () :=
    b <-- look (λ f, path_exists f pr) ;;; if (b : bool) then require (λ f, is_file f pr) else write_file pr text.
  Lemma config_split n f : init_config root text n f = bind config_dirs (λ _, config_text) n f.
  Proof.
    unfold config_dirs. rewrite (bind_assoc _ _ (λ _, config_text)). apply bind_ext. intros [] n1 f1. rewrite (bind_assoc _ _ (λ _, config_text)). apply bind_ext. intros [] n2 f2.
    rewrite (bind_assoc _ _ (λ _, config_text)). apply bind_ext. intros [] n3 f3. apply bind_ext. intros [] n4 f4. done.
  Qed.
  Lemma names_differ : t ≠ fi ∧ t ≠ se ∧ t ≠ pr ∧ fi ≠ se ∧ fi ≠ pr ∧ se ≠ pr ∧ root ≠ t ∧ root ≠ fi ∧ root ≠ se ∧ root ≠ pr.
  Proof.
    assert (∀ (a b c : list string), length b ≠ length c → a ++ b ≠ a ++ c) as L by (intros a b c H E; apply app_inv_head in E; congruence).
    assert (∀ (a b : list string), 0 < length b → a ≠ a ++ b) as L' by (intros a b H E; apply (f_equal length) in E; rewrite app_length in E; lia).
    unfold filters_dir, sessions_dir, preferences_path, trane_dir. rewrite <- !app_assoc. cbn [app].
    repeat split; try (apply L; cbn; lia); try (apply L'; cbn; lia); intros E; apply app_inv_head in E; discriminate E.
  Qed.
  Definition dirs_added (f : files) : files := add_dir se (add_dir fi (add_dir t f)).
  Definition config_added (f : files) : files := match f !! pr with Some _ => dirs_added f | None => <[pr := File text]> (dirs_added f) end.
  Lemma dirs_added_lookup f q : dirs_added f !! q =
    match f !! q with Some n => Some n | None => if decide (q = t ∨ q = fi ∨ q = se) then Some Dir else None end.
  Proof.
    unfold dirs_added. rewrite !add_dir_lookup. destruct (f !! q); [done|].
    destruct (decide (q = t)); [rewrite decide_True by tauto; done|].
    destruct (decide (q = fi)); [rewrite decide_True by tauto; done|].
    destruct (decide (q = se)); [rewrite decide_True by tauto; done|]. rewrite decide_False by tauto. done.
  Qed.
  Lemma config_added_lookup f q : config_added f !! q = match f !! q with Some n => Some n | None => config_node root text q end.
  Proof.
    destruct names_differ as (?&?&H1&?&H2&H3&_). unfold config_added, config_node. destruct (decide (q = pr)) as [->|Hq].
    - destruct (f !! pr) eqn:E; [rewrite dirs_added_lookup, E; done|]. rewrite lookup_insert. rewrite decide_False by naive_solver. done.
    - destruct (f !! pr) eqn:E; [|rewrite lookup_insert_ne by done]; rewrite dirs_added_lookup; destruct (f !! q); try done; case_decide; done.
  Qed.
  Lemma config_dirs_over n f a n' f' : config_dirs n f = Over a n' f' →
    f' = dirs_added f ∧ f !! root = Some Dir ∧ (∀ p, p = t ∨ p = fi ∨ p = se → f !! p = None ∨ f !! p = Some Dir).
  Proof.
    intros H. destruct names_differ as (N1&N2&N3&N4&N5&N6&_). unfold config_dirs in H. apply bind_over in H as (a1 & n1 & f1 & H & H').
    apply bind_over in H' as (a2 & n2 & f2 & H3 & H'). apply bind_over in H' as (a3 & n3 & f3 & H2 & H').
    apply require_over in H as (H & -> & ->). apply is_dir_true in H.
    assert (f2 = add_dir t f ∧ (f !! t = None ∨ f !! t = Some Dir)) as [-> Ht].
    { apply bind_over in H3 as (b & n4 & f4 & H4 & H3). apply look_over in H4 as (-> & -> & ->). unfold add_dir, path_exists in *. destruct (f !! t) eqn:E.
      - apply require_over in H3 as (H3 & -> & ->). apply is_dir_true in H3. split; [done|]. right. congruence.
      - apply step_over in H3. unfold make_dir in H3. destruct (_ && _); [|done]. injection H3 as <-. auto. }
    apply ensure_dir_over in H2 as [-> Hfi]. apply ensure_dir_over in H' as [-> Hse].
    rewrite !add_dir_lookup in Hse. rewrite add_dir_lookup in Hfi. split; [done|]. split; [done|].
    rewrite decide_False in Hfi by done. rewrite !decide_False in Hse by done.
    intros p [->|[->| ->]]; [done|..]; [destruct (f !! fi)|destruct (f !! se)]; naive_solver.
  Qed.
  Lemma config_dirs_costs f : f !! root = Some Dir → (∀ p, p = t ∨ p = fi ∨ p = se → f !! p = None ∨ f !! p = Some Dir) →
    costs config_dirs f () (dirs_added f).
  Proof.
    intros Hr Hd. destruct names_differ as (N1&N2&N3&N4&N5&N6&_).
    assert (Pt : parent t = root) by apply parent_snoc. assert (Pf : parent fi = t) by apply parent_snoc. assert (Ps : parent se = t) by apply parent_snoc.
    assert (Ht : add_dir t f !! t = Some Dir).
    { rewrite add_dir_lookup, decide_True by done. destruct (Hd t) as [-> | ->]; auto. }
    unfold config_dirs. eapply costs_bind; [apply costs_require, is_dir_true, Hr|]. eapply costs_bind; [|eapply costs_bind].
    - eapply costs_bind; [apply costs_look|]. instantiate (1 := add_dir t f). unfold path_exists, add_dir. destruct (f !! t) eqn:E.
      + apply costs_require, is_dir_true. destruct (Hd t); naive_solver.
      + apply costs_step. unfold make_dir, path_exists. rewrite Pt, E, (proj2 (is_dir_true _ _) Hr). done.
    - apply ensure_dir_costs. rewrite Pf, Ht, add_dir_lookup, decide_False by done. destruct (Hd fi) as [-> | ->]; auto.
    - assert (Ht2 : add_dir fi (add_dir t f) !! t = Some Dir) by (rewrite add_dir_lookup, Ht; done).
      apply ensure_dir_costs. rewrite Ps, Ht2. rewrite !add_dir_lookup, !decide_False by done. destruct (Hd se) as [-> | ->]; auto.
  Qed.
  Lemma config_dirs_final n f : final (config_dirs n f) !! pr = f !! pr ∧
    ∀ p, final (config_dirs n f) !! p = f !! p ∨ (f !! p = None ∧ final (config_dirs n f) !! p = Some Dir ∧ (p = t ∨ p = fi ∨ p = se)).
  Proof.
    destruct names_differ as (N1&N2&N3&N4&N5&N6&_).
    set (R := λ f f' : gmap (list string) node, ∀ p, f' !! p = f !! p ∨ (f !! p = None ∧ f' !! p = Some Dir ∧ (p = t ∨ p = fi ∨ p = se))).
    assert (Reflexive R) as HR by (intros g p; auto).
    assert (Transitive R) as HT by (intros g1 g2 g3 H1 H2 p; destruct (H1 p) as [?|(?&?&?)], (H2 p) as [?|(?&?&?)]; [left; congruence|right; split; [congruence|auto]|right; split; [done|split; [congruence|done]]|congruence]).
    assert (∀ p g, p = t ∨ p = fi ∨ p = se → R g (add_dir p g)) as HA.
    { intros p g Hp q. rewrite add_dir_lookup. destruct (g !! q); [auto|]. case_decide; [subst; auto|auto]. }
    assert (∀ p, p = t ∨ p = fi ∨ p = se → keeps R (ensure_dir p)) as HE.
    { intros p Hp m g. destruct (ensure_dir_final p m g) as [-> | ->]; [apply HR|auto]. }
    assert (keeps R config_dirs) as HK.
    { apply keeps_bind; [done|apply keeps_require; done|intros _]. apply keeps_bind; [done| |intros _; apply keeps_bind; [done|apply HE; auto|intros _; apply HE; auto]].
      apply keeps_bind; [done|apply keeps_look; done|]. intros [].
      - apply keeps_require; done.
      - apply keeps_step; [done|]. intros g g'. unfold make_dir, path_exists. destruct (is_dir g (parent t)); [|done]. destruct (g !! t) eqn:E; [done|].
        intros [= <-]. specialize (HA t g (or_introl eq_refl)). unfold add_dir in HA. rewrite E in HA. done. }
    split; [|apply HK]. destruct (HK n f pr) as [?|(_ & _ & [?|[?|?]])]; [done|congruence..].
  Qed.
  Lemma config_text_final n f : final (config_text n f) = f ∨ f !! pr = None ∧ ∃ s, starts s text ∧ final (config_text n f) = <[pr := File s]> f.
  Proof.
    unfold config_text, bind, look, path_exists. destruct (f !! pr) eqn:E.
    - left. unfold require, bind, look. destruct (is_file f pr); done.
    - destruct (write_file_final pr text n f) as [H|H]; auto.
  Qed.

  (** What opening creates. *)
  Lemma config_over n f a n' f' : init_config root text n f = Over a n' f' → f' = config_added f ∧ config_free root f.
  Proof.
    rewrite config_split. intros H. apply bind_over in H as (a1 & n1 & f1 & H1 & H2). apply config_dirs_over in H1 as (-> & Hr & Hd).
    destruct names_differ as (N1&N2&N3&N4&N5&N6&_). unfold config_free, config_added.
    assert (Hp : dirs_added f !! pr = f !! pr).
    { rewrite dirs_added_lookup, decide_False by naive_solver. destruct (f !! pr); done. }
    unfold config_text in H2. apply bind_over in H2 as (b & n2 & f2 & H3 & H2). apply look_over in H3 as (-> & -> & ->).
    unfold path_exists in H2. rewrite Hp in H2. destruct (f !! pr) eqn:E.
    - apply require_over in H2 as (H2 & -> & ->). apply is_file_true in H2 as [s Hs]. split; [done|]. split; [done|]. split; [done|]. congruence.
    - apply write_file_over in H2 as (-> & _). split; [done|]. split; [done|]. split; [done|]. done.
  Qed.
  Lemma config_run f : config_free root f → init_config root text None f = Over () None (config_added f).
  Proof.
    intros (Hr & Hd & Hp). rewrite config_split. destruct (config_dirs_costs f Hr Hd) as [H _]. unfold bind. rewrite H.
    destruct names_differ as (N1&N2&N3&N4&N5&N6&_).
    assert (Hp' : dirs_added f !! pr = f !! pr).
    { rewrite dirs_added_lookup, decide_False by naive_solver. destruct (f !! pr); done. }
    unfold config_text, bind, look, path_exists, config_added. rewrite Hp'. destruct (f !! pr) as [[|s]|] eqn:E; [done|..].
    - unfold require, bind, look, is_file. rewrite Hp'. done.
    - apply write_file_run; [|congruence]. unfold preferences_path. rewrite parent_snoc, dirs_added_lookup, decide_True by auto. destruct (Hd t) as [-> | ->]; auto.
  Qed.
  Lemma config_exact n f a n' f' : init_config root text n f = Over a n' f' →
    ∀ p, f' !! p = match f !! p with Some x => Some x | None => config_node root text p end.
  Proof. intros H p. apply config_over in H as [-> _]. apply config_added_lookup. Qed.
  Lemma config_opens f : (∃ f', init_config root text None f = Over () None f') ↔ config_free root f.
  Proof. split; [intros [f' H]; apply config_over in H as [_ H]; done|intros H; exists (config_added f); apply config_run, H]. Qed.

  (** Interrupted anywhere: the preferences were not begun, or everything else is there. *)
  Lemma config_final n f : let g := final (init_config root text n f) in
    (g !! pr = f !! pr ∧ ∀ p, g !! p = f !! p ∨ (f !! p = None ∧ g !! p = Some Dir ∧ (p = t ∨ p = fi ∨ p = se))) ∨
    (f !! pr = None ∧ config_free root f ∧ ∃ s, starts s text ∧ g = <[pr := File s]> (dirs_added f)).
  Proof.
    cbv zeta. rewrite config_split. pose proof (config_dirs_final n f) as HF. unfold bind. destruct (config_dirs n f) as [a n1 f1| |] eqn:E; [|left; exact HF..].
    destruct (config_dirs_over _ _ _ _ _ E) as (-> & Hr & Hd). cbn in HF. destruct HF as [Hp HF].
    destruct (config_text_final n1 (dirs_added f)) as [-> | (H & s & Hs & ->)]; [left; done|]. right. rewrite Hp in H.
    split; [done|]. split; [|eauto]. split; [done|]. split; [done|]. congruence.
  Qed.
  Lemma config_frame n f p : let g := final (init_config root text n f) in
    g !! p = f !! p ∨ (f !! p = None ∧ ((g !! p = Some Dir ∧ (p = t ∨ p = fi ∨ p = se)) ∨ (p = pr ∧ ∃ s, starts s text ∧ g !! p = Some (File s)))).
  Proof.
    cbv zeta. destruct (config_final n f) as [[_ H]|(H1 & (Hr & Hd & _) & s & Hs & ->)].
    - destruct (H p) as [?|(?&?&?)]; auto.
    - destruct (decide (p = pr)) as [->|Hp]; [right; split; [done|]; right; split; [done|]; exists s; split; [done|apply lookup_insert]|].
      rewrite lookup_insert_ne by done. rewrite dirs_added_lookup. destruct (f !! p); [auto|]. case_decide; auto.
  Qed.
  Lemma config_resume n f f' : init_config root text None f = Over () None f' →
    let g := final (init_config root text n f) in g !! pr = f !! pr → init_config root text None g = Over () None f'.
  Proof.
    intros H. cbv zeta. intros Hp. apply config_over in H as [-> Hfree]. destruct Hfree as (Hr & Hd & Hpr). destruct names_differ as (N1&N2&N3&N4&N5&N6&N7&N8&N9&N10).
    set (g := final _) in *. pose proof (config_frame n f) as F. cbv zeta in F. fold g in F.
    assert (HF : ∀ p, g !! p = f !! p ∨ (f !! p = None ∧ g !! p = Some Dir ∧ (p = t ∨ p = fi ∨ p = se))).
    { intros p. destruct (F p) as [?|(H0 & [[??]|(-> & s & _ & H1)])]; [auto|auto|]. congruence. }
    assert (config_free root g) as Hg.
    { split; [destruct (HF root) as [?|(?&?&?)]; congruence|]. split; [|congruence]. intros p Hpp. destruct (HF p) as [-> | (?&->&?)]; auto. }
    rewrite (config_run g Hg). f_equal. apply map_eq. intros q. rewrite !config_added_lookup.
    destruct (HF q) as [-> | (H1 & H2 & H3)]; [done|]. rewrite H1, H2. unfold config_node. rewrite decide_True by done. done.
  Qed.

  Context {A : Type} (decode : string → option A).
  Lemma open_run f s : config_free root f → config_added f !! pr = Some (File s) →
    open_config decode root text None f = match decode s with Some x => Over x None (config_added f) | None => Fails (config_added f) end.
  Proof.
    intros H Hs. unfold open_config. unfold bind at 1. rewrite (config_run f H). unfold bind, look, get_preferences, read_file. rewrite Hs. cbn. destruct (decode s); done.
  Qed.
  (** Once everything exists, opening changes nothing. *)
  Lemma open_whole f n s : config_free root f → (∀ p, p = t ∨ p = fi ∨ p = se → f !! p = Some Dir) → f !! pr = Some (File s) →
    open_config decode root text n f = match decode s with Some x => Over x n f | None => Fails f end.
  Proof.
    intros (Hr & _ & _) Hd Hs. unfold open_config, init_config, bind, require, look, ensure_dir, bind, look, path_exists, is_dir, is_file, give.
    rewrite Hr. cbn. do 2 (rewrite ?(Hd t) by auto; cbn). rewrite (Hd fi) by auto. cbn. rewrite (Hd se) by auto. cbn. do 2 (rewrite ?Hs; cbn).
    unfold get_preferences, read_file. rewrite Hs. cbn. destruct (decode s); done.
  Qed.
  (** After any interruption, the library opens as if nothing had happened, or never again. *)
  Lemma config_crash n f x : config_free root f → f !! pr = None → decode text = Some x → (∀ s, starts s text → decode s = Some x ∨ decode s = None) →
    let g := final (init_config root text n f) in
    open_config decode root text None g = open_config decode root text None f ∨
    ∃ s, starts s text ∧ s ≠ text ∧ g !! pr = Some (File s) ∧
      ((decode s = Some x ∧ ∀ m, open_config decode root text m g = Over x m g) ∨ (decode s = None ∧ ∀ m, open_config decode root text m g = Fails g)).
  Proof.
    intros Hf Hp Hx Hcut. pose proof (config_final n f) as F. pose proof (config_resume n f _ (config_run f Hf)) as Rs. cbv zeta in F, Rs |- *.
    revert F Rs. generalize (final (init_config root text n f)). intros g [[H1 _]|(_ & _ & s & Hs & Hg)] Rs.
    - left. pose proof (Rs H1) as H.
      unfold open_config. unfold bind at 1. unfold bind at 2. rewrite H, (config_run f Hf). done.
    - destruct Hf as (Hr & Hd & _). destruct names_differ as (N1&N2&N3&N4&N5&N6&N7&N8&N9&N10).
      assert (Hgd : ∀ p, p = t ∨ p = fi ∨ p = se → g !! p = Some Dir).
      { intros p Hpp. rewrite Hg, lookup_insert_ne by (destruct Hpp as [->|[->| ->]]; congruence). rewrite dirs_added_lookup, decide_True by done.
        destruct (Hd p Hpp) as [-> | ->]; done. }
      assert (Hgp : g !! pr = Some (File s)) by (rewrite Hg; apply lookup_insert).
      assert (Hgf : config_free root g).
      { split; [|split; [auto|congruence]]. rewrite Hg, lookup_insert_ne by congruence. rewrite dirs_added_lookup, Hr. done. }
      destruct (decide (s = text)) as [->|Hne].
      + left. rewrite (open_whole g None text) by done. rewrite (open_run f text); [|split; [done|split; [done|congruence]]|].
        * rewrite Hx. f_equal. rewrite Hg. unfold config_added. rewrite Hp. done.
        * rewrite config_added_lookup, Hp. unfold config_node. rewrite decide_False by naive_solver. rewrite decide_True by done. done.
      + right. exists s. split; [done|]. split; [done|]. split; [done|].
        destruct (Hcut s Hs) as [E|E]; [left|right]; (split; [done|]); intros m; rewrite (open_whole g m s) by done; by rewrite E.
  Qed.
  (** And the second case does happen. *)
  Lemma config_stuck f : config_free root f → f !! pr = None → text ≠ "" → decode "" = None →
    ∃ n g, init_config root text (Some n) f = Interrupted g ∧ ∀ m, open_config decode root text m g = Fails g.
  Proof.
    intros (Hr & Hd & Hpd) Hp Ht H0. destruct text as [|a rest] eqn:Et; [done|]. destruct names_differ as (N1&N2&N3&N4&N5&N6&N7&N8&N9&N10).
    assert (Hp' : dirs_added f !! pr = None).
    { rewrite dirs_added_lookup, decide_False by naive_solver. rewrite Hp. done. }
    destruct (costs_then config_dirs (λ _, config_text) f () (dirs_added f) 1 (Interrupted (<[pr := File ""]> (dirs_added f)))) as [n Hn].
    { apply config_dirs_costs; done. }
    { unfold config_text, bind, look, path_exists. rewrite Hp', Et. apply write_file_begun; [|congruence].
      unfold preferences_path. rewrite parent_snoc, dirs_added_lookup, decide_True by auto. destruct (Hd t) as [-> | ->]; auto. }
    exists n, (<[pr := File ""]> (dirs_added f)). rewrite <- Et. split; [rewrite config_split; done|]. intros m. rewrite (open_whole _ m ""), H0; [done|..].
    - split; [|split].
      + rewrite lookup_insert_ne by congruence. rewrite dirs_added_lookup, Hr. done.
      + intros p Hpp. rewrite lookup_insert_ne by (destruct Hpp as [->|[->| ->]]; congruence). rewrite dirs_added_lookup, decide_True by done.
        destruct (Hd p Hpp) as [-> | ->]; auto.
      + rewrite lookup_insert. done.
    - intros p Hpp. rewrite lookup_insert_ne by (destruct Hpp as [->|[->| ->]]; congruence). rewrite dirs_added_lookup, decide_True by done.
      destruct (Hd p Hpp) as [-> | ->]; auto.
    - apply lookup_insert.
  Qed.
End config.

(** ** Preferences *)
Section preferences.
  Context {A : Type} (encode : A → string) (decode : string → option A).
  Lemma preferences_set p x n f a n' f' : decode (encode x) = Some x → set_preferences encode p x n f = Over a n' f' →
    get_preferences decode p f' = Some x ∧ ∀ q, q ≠ p → f' !! q = f !! q.
  Proof.
    intros Hcodec H. apply write_file_over in H as (-> & _). unfold get_preferences, read_file. rewrite lookup_insert. cbn. rewrite Hcodec.
    split; [done|]. intros q Hq. apply lookup_insert_ne. done.
  Qed.
  Lemma preferences_can p x f : (∃ f', set_preferences encode p x None f = Over () None f') ↔ f !! parent p = Some Dir ∧ f !! p ≠ Some Dir.
  Proof.
    split; [intros [f' H]; apply write_file_over in H as (_ & H); done|]. intros [H1 H2]. eexists. apply write_file_run; done.
  Qed.
  Lemma preferences_frame p x n f : let g := final (set_preferences encode p x n f) in
    (∀ q, q ≠ p → g !! q = f !! q) ∧ (g !! p = f !! p ∨ ∃ s, starts s (encode x) ∧ g !! p = Some (File s)).
  Proof.
    cbv zeta. unfold set_preferences. destruct (write_file_final p (encode x) n f) as [-> | (u & Hu & ->)]; [auto|].
    split; [intros q Hq; apply lookup_insert_ne; done|]. right. exists u. split; [done|apply lookup_insert].
  Qed.
  Lemma preferences_lost p x y f : decode (encode x) = Some x → decode "" = None → f !! parent p = Some Dir → get_preferences decode p f = Some y →
    ∃ n g, set_preferences encode p x (Some n) f = Interrupted g ∧ get_preferences decode p g = None.
  Proof.
    intros Hcodec H0 Hd Hy. destruct (encode x) as [|a rest] eqn:E; [congruence|].
    exists 1, (<[p := File ""]> f). unfold set_preferences. rewrite E. split.
    - apply write_file_begun; [done|]. unfold get_preferences, read_file in Hy. destruct (f !! p) as [[]|]; done.
    - unfold get_preferences, read_file. rewrite lookup_insert. cbn. done.
  Qed.
End preferences.
