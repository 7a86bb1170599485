(** Opening a library with its preferences. *)
From stdpp Require Import gmap strings list.
From Verif Require Import Graph GraphSpec Library LibrarySpec LibraryQueries Options OptionsProofs Generators FileSystem FileSpec FileProofs ConfigProofs Walk WalkSpec WalkProofs WalkMore WalkBuild.
Local Open Scope string_scope.
Local Open Scope list_scope.

Section trane.
  Context (rd : readers) (walk : files → path → list path) (o : order) (decode : string → option preferences) (text : string).

  Lemma trane_over cwd working root n f r n' f' : open_trane rd walk o decode text cwd working root n f = Over r n' f' ↔
    ∃ x, open_config decode (locate cwd root) text n f = Over x n' f' ∧
      open_from_disk rd walk o cwd f' (join_given working root) (pf_ignored x) = Some r.1 ∧
      r.2 = create_scheduler_options (pf_batch_size x) ∧ verify_options r.2 = true.
  Proof using.
    unfold open_trane. unfold bind at 1. destruct (open_config decode (locate cwd root) text n f) as [x n1 f1|f1|f1].
    2,3: split; [done|by intros (x & ? & _)]. unfold bind, look. split.
    - destruct (open_from_disk _ _ _ _ _ _ _) as [lib|] eqn:E; [|done]. destruct (verify_options _) eqn:Ev; [|done].
      intros [= <- <- <-]. exists x. cbn [fst snd]. done.
    - intros (x' & [= <- <- <-] & -> & E & Ev). rewrite <- E, Ev. destruct r as [lib op]. done.
  Qed.
  (** The preferences are those of the file, if there is one. *)
  Lemma config_reads root n f x n' f' : open_config decode root text n f = Over x n' f' →
    get_preferences decode (preferences_path root) f' = Some x ∧ config_free root f' ∧
    (∀ p, p = trane_dir root ∨ p = filters_dir root ∨ p = sessions_dir root → f' !! p = Some Dir) ∧
    ∀ p y, f !! p = Some y → f' !! p = Some y.
  Proof using.
    intros H. unfold open_config in H. apply bind_over in H as ([] & n1 & f1 & H1 & H2). apply bind_over in H2 as (y & n2 & f2 & H2 & H3).
    apply look_over in H2 as (-> & -> & ->). destruct (get_preferences decode _ f1) as [y|] eqn:E; [|done]. injection H3 as <- <- <-. split; [done|].
    pose proof (config_exact _ _ _ _ _ _ _ H1) as Hx. apply config_over in H1 as [_ (Hr & Hd & Hp)].
    assert (Hdirs : ∀ p, p = trane_dir root ∨ p = filters_dir root ∨ p = sessions_dir root → f1 !! p = Some Dir).
    { intros p Hp'. rewrite Hx. destruct (Hd p Hp') as [->| ->]; [|done]. unfold config_node. by rewrite decide_True. }
    split; [split; [by rewrite Hx, Hr|split; [intros p Hp'; right; by apply Hdirs|]]|].
    - intros E'. unfold get_preferences, read_file in E. by rewrite E' in E.
    - split; [done|]. intros p y' Ey. by rewrite Hx, Ey.
  Qed.

  (** Relative roots. *)
  Lemma absolute_root cwd cwd' working working' root n f : is_absolute root = true →
    open_trane rd walk o decode text cwd working root n f = open_trane rd walk o decode text cwd' working' root n f.
  Proof using. destruct root as [abs r]. cbn. intros ->. done. Qed.
  Lemma resolved_root cwd r n f :
    open_trane rd walk o decode text cwd (Given true cwd) (Given false r) n f = open_trane rd walk o decode text cwd (Given true cwd) (Given true (cwd ++ r)) n f.
  Proof using. done. Qed.
  Lemma missing_root cwd working r n f : f !! (cwd ++ r) ≠ Some Dir →
    open_trane rd walk o decode text cwd working (Given false r) n f = Fails f.
  Proof using.
    intros H. unfold open_trane, open_config, init_config. unfold bind, require, look. change (locate cwd (Given false r)) with (cwd ++ r).
    unfold bind. destruct (is_dir f (cwd ++ r)) eqn:E; [apply is_dir_true in E; done|]. done.
  Qed.
  Lemma config_place cwd working r n f x n' f' : open_trane rd walk o decode text cwd (Given true working) (Given false r) n f = Over x n' f' →
    f' !! trane_dir (cwd ++ r) = Some Dir ∧ (f !! trane_dir (working ++ r) = None → ¬ trane_dir (cwd ++ r) `prefix_of` trane_dir (working ++ r) → f' !! trane_dir (working ++ r) = None).
  Proof using.
    intros H. apply trane_over in H as (y & H & _). change (locate cwd (Given false r)) with (cwd ++ r) in H. split; [apply config_reads in H as (_ & _ & H & _); auto|].
    intros Hn Hp. unfold open_config in H. apply bind_over in H as ([] & n1 & f1 & H1 & H2). apply bind_over in H2 as (z & n2 & f2 & H2 & H3).
    apply look_over in H2 as (-> & -> & ->). destruct (get_preferences _ _ _); [|done]. injection H3 as _ _ <-.
    rewrite (config_exact _ _ _ _ _ _ _ H1), Hn. unfold config_node.
    assert (∀ q, trane_dir (working ++ r) ≠ trane_dir (cwd ++ r) ++ q) as N by (intros q E; apply Hp; rewrite E; by apply prefix_app_r).
    rewrite !decide_False; [done|apply N|]. intros [E|[E|E]]; [apply (N []); by rewrite app_nil_r|by apply N in E..].
  Qed.

  (** Preferences that were changed. *)
  Context (encode : preferences → string).
  Lemma stuck_with_zero cwd working root x n f n' f' : decode (encode x) = Some x → pf_batch_size x = Some 0 →
    set_preferences encode (preferences_path (locate cwd root)) x n f = Over () n' f' →
    ∀ m r m' g, open_trane rd walk o decode text cwd working root m f' ≠ Over r m' g.
  Proof.
    intros Hcodec Hx Hs m r m' g H. apply trane_over in H as (y & H & _ & E & Ev). apply config_reads in H as (Hy & _ & _ & Hold).
    apply (preferences_set encode decode) in Hs as [Hs _]; [|done]. unfold get_preferences, read_file in Hs, Hy.
    destruct (f' !! preferences_path (locate cwd root)) as [[|s]|] eqn:Ef; [done| |done]. rewrite (Hold _ _ Ef) in Hy. cbn in Hs, Hy.
    rewrite Hs in Hy. injection Hy as <-. rewrite E, Hx, created_options, bool_decide_true in Ev by done. done.
  Qed.
  Lemma reopens : walks walk → generates_locally rd → generates_consistently rd → order_ok o → ∀ cwd working root x x' n f lib options n1 f1 n2 n3 f2, decode (encode x') = Some x' →
    is_absolute root = true →
    open_trane rd walk o decode text cwd working root n f = Over (lib, options) n1 f1 →
    get_preferences decode (preferences_path (names root)) f1 = Some x →
    set_preferences encode (preferences_path (names root)) x' n2 f1 = Over () n3 f2 →
    pf_ignored x' = pf_ignored x → pf_batch_size x' ≠ Some 0 →
    tree f1 → (∀ s, f1 !! (trane_dir (names root) ++ ["course_manifest.json"]) ≠ Some (File s)) →
    ∀ m, ∃ lib', open_trane rd walk o decode text cwd working root m f2 = Over (lib', create_scheduler_options (pf_batch_size x')) m f2 ∧ agree lib lib'.
  Proof.
    intros Hw Hg Hg' Ho cwd working root x x' n f lib options n1 f1 n2 n3 f2 Hcodec Ha H1 Hx Hs Hi Hb Htree Hnc m.
    apply trane_over in H1 as (y & H & Hopen & _ & _). cbn [fst] in Hopen.
    replace (locate cwd root) with (names root) in H by (unfold locate; by rewrite Ha).
    apply config_reads in H as (Hy & (Hr & _ & _) & Hd & _). rewrite Hx in Hy. injection Hy as <-.
    replace (join_given working root) with root in Hopen by (unfold join_given; by rewrite Ha).
    set (P := preferences_path (names root)) in *. unfold set_preferences in Hs. apply write_file_over in Hs as (-> & _).
    assert (∃ t, f1 !! P = Some (File t)) as [t Ht] by (unfold get_preferences, read_file in Hx; destruct (f1 !! P) as [[|t]|]; [done| |done]; by exists t).
    set (f2 := <[P := File (encode x')]> f1).
    assert (Hne : ∀ p, p ≠ P → f2 !! p = f1 !! p) by (intros p Hp; unfold f2; by rewrite lookup_insert_ne).
    assert (Hsame : ∀ cs, scan_courses rd walk cwd f1 root (pf_ignored x) = Some cs → library_reads rd f1 (names root) (λ p, is_ignored cwd root (pf_ignored x) p = true) cs ∧
      ∃ cs', scan_courses rd walk cwd f2 root (pf_ignored x) = Some cs' ∧ same_courses cs cs').
    { intros cs E. set (skip := λ p, is_ignored cwd root (pf_ignored x) p = true).
      assert (Hskip : ∀ rel, is_ignored cwd root (pf_ignored x) (locate cwd root ++ rel) = false ↔ ¬ skip (locate cwd root ++ rel)) by (intros rel; unfold skip; by rewrite not_true_iff_false).
      apply (scan_sound rd walk Hw _ _ _ _ skip Hskip) in E. split; [by replace (names root) with (locate cwd root) by (unfold locate; by rewrite Ha)|].
      apply (scan_complete rd walk Hw _ _ _ _ skip Hskip). revert E. replace (locate cwd root) with (names root) by (unfold locate; by rewrite Ha). apply library_frame.
      - intros p s k Hk Hres. rewrite Hne; [done|]. intros ->. unfold P, preferences_path in Hk. rewrite last_snoc in Hk. injection Hk as <-. by destruct Hres as [?|[?|?]].
      - intros p Hp. destruct (decide (p = P)) as [->|?]; [unfold f2; by rewrite lookup_insert|by rewrite Hne].
      - intros d cm config ([[k Hk] Hne'] & [s Hc] & _). apply Hg. intros p Hp. symmetry. apply Hne. intros ->. unfold P, preferences_path, trane_dir in Hp.
        rewrite Hk, <- !app_assoc in Hp. destruct Hp as [q Hq]. rewrite <- app_assoc in Hq. apply app_inv_head in Hq. destruct k as [|k0 k]; [by rewrite app_nil_r in Hk|].
        injection Hq as <- Hq. destruct k as [|k1 k]; [subst d; by apply (Hnc s)|]. injection Hq as <- Hq. destruct k; [|done]. subst d.
        destruct Htree as [_ Htree]. apply Htree in Hc. change (names root ++ [".trane"; "user_preferences.json"]) with (names root ++ ([".trane"] ++ ["user_preferences.json"])) in Hc.
        rewrite app_assoc in Hc. change (f1 !! P = Some Dir) in Hc. congruence. }
    assert (Hcfg : open_config decode (names root) text m f2 = Over x' m f2).
    { rewrite (open_whole _ _ _ _ _ (encode x')).
      - by rewrite Hcodec.
      - split; [rewrite Hne; [done|]; apply names_differ|split].
        + intros p Hp. right. rewrite Hne; [by apply Hd|]. destruct (names_differ (names root)) as (?&?&?&?&?&?&_). destruct Hp as [->|[->| ->]]; done.
        + unfold f2. by rewrite lookup_insert.
      - intros p Hp. rewrite Hne; [by apply Hd|]. destruct (names_differ (names root)) as (?&?&?&?&?&?&_). destruct Hp as [->|[->| ->]]; done.
      - unfold f2. by rewrite lookup_insert. }
    unfold open_from_disk in Hopen. destruct (scan_courses rd walk cwd f1 root (pf_ignored x)) as [cs|] eqn:E; [|done]. cbn [mbind option_bind] in Hopen.
    destruct (Hsame cs eq_refl) as (Hr1 & cs' & E' & Hcs).
    destruct (same_opened cs cs' o o Hcs (reads_consistent _ _ _ _ _ Hg' Hr1) Ho Ho) as [H2 H3].
    destruct (open_library o cs') as [lib'|] eqn:El; [|destruct H2 as [[? ?] _]; [by rewrite Hopen|done]].
    exists lib'. split; [|by apply H3]. apply trane_over. exists x'. cbn [fst snd].
    replace (locate cwd root) with (names root) by (unfold locate; by rewrite Ha). split; [done|].
    replace (join_given working root) with root by (unfold join_given; by rewrite Ha). rewrite Hi. unfold open_from_disk. rewrite E'. cbn [mbind option_bind].
    split; [done|]. split; [done|]. rewrite created_options, bool_decide_false by done. done.
  Qed.
End trane.
