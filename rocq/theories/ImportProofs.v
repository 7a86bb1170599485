(** Lifetimes in which trials, deltas and rewards are also recorded directly: C95. *)
From stdpp Require Import gmap strings list.
From Coq Require Import ZArith Lia Reals Lra.
From Flocq Require Import Core IEEE754.BinarySingleNaN.
From Verif Require Import F32 F32Real F32More Graph GraphSpec Library LibrarySpec LibFacts Filters Options OptionsSpec OptionsProofs Batch BatchSpec Search SearchSpec SearchProofs WholeProofs FinishProofs
  Facade Sql Stores StoresSpec StoresProofs StoresSample Scorer ScorerSpec ScorerProofs Propagate UnitScorer UnitSpec Practice PracticeProofs PracticeSample CallSample RangeSpec RangeProofs RangeMore
  AskSpec Session SessionSpec SessionProofs SessionMore SessionSafe SessionSample.

Section import.
  Context (s : setting) (Hs : setting_ok s).
  Let g := lib_graph (g_lib s).
  Lemma life_ranges preferred ops z evs : session_run s (new_session preferred) ops = Some (z, evs) → Forall proper ops →
    ∀ now n u, let p := z_practice z in
    (∀ x, fst (unit_score (world_of s now p) n u (p_caches p)) = Val (Some x) → in_range x) ∧
    (∀ x, fst (exercise_entry (world_of s now p) u (p_caches p)) = Val x → entry_ok x).
  Proof using Hs.
    intros H Hops now n u p. pose proof (ranged_run s Hs _ _ _ _ H Hops) as Hr. split.
    - intros x Hx. destruct (ok_unit (world_of s now p) (world_ok s Hs now p Hr) (ok_ord s Hs) (ok_modest s Hs) n u _ (rn_caches _ Hr)) as [_ Hv].
      by apply (Hv _ Hx).
    - intros x Hx. destruct (ok_entry (world_of s now p) (world_ok s Hs now p Hr) u _ (rn_caches _ Hr)) as [_ Hv]. by apply Hv.
  Qed.

  (** Trials that are recorded directly are stored as given, in order, after those stored before. *)
  Lemma recorded preferred ops z evs : session_run s (new_session preferred) ops = Some (z, evs) →
    ∀ fuel search now es z' ev, session_step s fuel search now z (ZMaintain (MRecordScores false es)) = Some (z', ev) →
    ∀ u, stored (p_trials (z_practice z')) u = stored (p_trials (z_practice z)) u ++
      ((λ x, (bind_f32 (e_val x), e_ts x)) <$> filter (λ x, e_unit x = u) es).
  Proof using.
    intros H fuel search now es z' ev E u. apply good_run in H. cbn [session_step maintain] in E. injection E as <- <-.
    cbn [with_practice z_practice p_trials]. by destruct (record_spec bind_f32 false es _ H) as (_ & _ & Ht).
  Qed.

  (** They count at once after the caches forget the exercise, or after the library is opened again. *)
  Lemma forget_own e c : get_unit_type g e = Some Exercise → c_exercise (invalidate g e c) !! e = None.
  Proof using Hs.
    intros He. destruct (c_exercise (invalidate g e c) !! e) as [x|] eqn:E; [|done]. exfalso.
    destruct (invalidate_exercise (g_lib s) (ok_lib s Hs) e c e x E He) as [_ H]. apply H. by left.
  Qed.
  Lemma entry_fresh w e c : c_exercise c !! e = None → fst (exercise_entry w e c) = fst (exercise_entry w e no_caches).
  Proof using.
    intros H. unfold exercise_entry. rewrite H. cbn [no_caches c_exercise]. rewrite lookup_empty. by destruct (w_exercise w e).
  Qed.
  Lemma forgotten preferred ops z evs : session_run s (new_session preferred) ops = Some (z, evs) →
    ∀ fuel search now op z' ev e, get_unit_type g e = Some Exercise → op = ZMaintain (MForget e) ∨ (∃ b, op = ZReopen b) →
    session_step s fuel search now z op = Some (z', ev) →
    ∀ later, fst (exercise_entry (world_of s later (z_practice z')) e (p_caches (z_practice z'))) =
             fst (exercise_entry (world_of s later (z_practice z')) e no_caches).
  Proof using Hs.
    intros _ fuel search now op z' ev e He Hop E later. apply entry_fresh.
    destruct Hop as [-> | [b ->]]; cbn [session_step maintain] in E; injection E as <- <-.
    - cbn [with_practice z_practice with_caches p_caches]. by apply forget_own.
    - cbn [reopen z_practice p_caches no_caches c_exercise]. apply lookup_empty.
  Qed.

  Lemma life_nonempty preferred ops z evs : session_run s (new_session preferred) ops = Some (z, evs) → Forall proper ops →
    ∀ fuel search now q uf z' banned es, request_ok g q → stands_for q uf → lists_once uf →
    session_step s fuel search now z (ZBatch q) = Some (z', EBatch banned es) →
    ∃ cs, initial_candidates (with_options (oc_data (z_copies z)) (env_of s fuel now z (q_saved q))) (q_orders q) search (q_checks q) (q_time q) (q_filter q) = Found cs ∧
      ∀ c, c ∈ cs → flt (Batch.exercise_score c) f_4_5 = true ∨ ¬ covered_times (q_edges q) cs c 10 → es ≠ [].
  Proof using Hs.
    intros H Hops fuel search now q uf z' banned es (Hr & Ho & He) Hu Hl E.
    pose proof (copies_run s ops (new_session preferred) z evs preferred (conj eq_refl eq_refl) H) as [Cf Cr].
    pose proof (ranged_run s Hs _ _ _ _ H Hops) as Hran.
    cbn [session_step] in E. destruct (batch_event s _ _ _ _ _ _ _ E banned es eq_refl) as [-> Eb]. clear E.
    change (with_options (oc_data (z_copies z)) (env_of s fuel now z (q_saved q))) with (env_of_request s fuel now z q).
    set (env := env_of_request s fuel now z q) in *.
    assert (Hlib : opened (s_lib env)) by apply (ok_lib s Hs).
    pose proof (opened_ok _ Hlib) as K.
    unfold get_exercise_batch in Eb.
    destruct (initial_candidates env (q_orders q) search (q_checks q) (q_time q) (q_filter q)) as [cs| |] eqn:Ei; [|done|done].
    exists cs. split; [done|]. intros c Hc Hsc.
    assert (Hus : uses env (q_checks q) (q_time q) (q_filter q) uf) by exact Hu. rewrite (uses_initial _ _ _ _ _ _ _ Hus) in Ei.
    apply (batch_ids_of env K) in Eb as (cs' & batch & [= <-] & Hf & Hids).
    assert (Hin : ∀ c, c ∈ cs → score_in_range (Batch.exercise_score c)).
    { intros c0 Hc0. destruct (candidates_in_place env K _ Ho _ _ _ _ Ei Hc0) as [_ (v & Hv & ->)].
      destruct v as [v|]; [|split; reflexivity]. cbn [default].
      cbn [env env_of_request with_options env_of s_score] in Hv. apply told_some in Hv.
      destruct (ok_unit (world_of s now (z_practice z)) (world_ok s Hs now _ Hran) (ok_ord s Hs) (ok_modest s Hs) fuel (exercise_id c0) _ (rn_caches _ Hran)) as [_ Hx].
      by apply (Hx _ Hv). }
    assert (Hne : batch ≠ []).
    { eapply (batch_nonempty _ _ _ _ _ _ _ _ c Hr (graph_weights _ _ (k_inv _ K) He)); [..|exact Hf].
      - by eapply candidates_once.
      - intros c0 Hc0. rewrite Cf, created_one_window by auto. done.
      - done.
      - destruct Hsc as [Hlt|?]; [left|by right]. destruct (Hin c Hc) as [H1 H2].
        destruct (fge (Batch.exercise_score c) f_4_5) eqn:Eg; [|done]. exfalso.
        assert (Hb : fin (Batch.exercise_score c)). { by apply in_range_btw. }
        change (fge (Batch.exercise_score c) f_4_5) with (fle f_4_5 (Batch.exercise_score c)) in Eg.
        apply flt_true in Hlt; [|done|done]. apply fle_true in Eg; [|done|done]. lra. }
    intros ->. cbn [fmap list_fmap] in Hids. by destruct batch.
  Qed.
End import.

(** ** Infinite trials *)
Definition inf (b : bool) : f32 := B754_infinity b.
Definition positive (x : f32) : Prop := ∃ m e H, x = B754_finite false m e H.
Lemma btw_positive a b x : (0 < a)%R → btw a b x → positive x.
Proof.
  intros Ha [Hf [Hx _]]. unfold fin, val in *. destruct x as [sg|sg| |sg m e H]; try done.
  - cbn in Hx. lra.
  - destruct sg; [|by exists m, e, H]. exfalso. assert (Hlt : (B2R (B754_finite true m e H) < 0)%R); [|lra]. cbn [B2R]. by apply Float_prop.F2R_lt_0.
Qed.
Lemma positive_inf x b : positive x → fmul x (inf b) = inf b.
Proof. intros (m & e & H & ->). by destruct b. Qed.
Lemma nan_l (f : f32 → f32 → f32) : f = fadd ∨ f = fmul ∨ f = fdiv → ∀ x, f B754_nan x = B754_nan.
Proof. intros [-> |[-> | ->]] x; by destruct x. Qed.
Lemma nan_r x : fmul x B754_nan = B754_nan.
Proof. by destruct x. Qed.
Lemma fadd_zero_inf b : fadd fzero (inf b) = inf b.
Proof. done. Qed.

Section infinite.
  Context (powf : f32 → f32 → f32) (Hp : power_ok powf).
  Lemma weight_positive x : fle fzero x = true → positive (decay_weight powf x).
  Proof using Hp. intros H. eapply btw_positive; [|by apply decay_weight_btw]. pose proof v_0_1. lra. Qed.
  Definition pair (b : bool) : list trial := [Entry "exercise"%string (inf b) 0; Entry "exercise"%string (inf (negb b)) 0].
  Lemma cancel x y b : positive x → positive y → fst (fold_left add_weighted [(x, inf b); (y, inf (negb b))] (fzero, fzero)) = B754_nan.
  Proof using.
    intros Hx Hy. cbn [fold_left]. unfold add_weighted. cbn [fst snd]. rewrite !positive_inf by done. rewrite fadd_zero_inf. by destruct b.
  Qed.
  Lemma average_nan b : compute_weighted_avg powf (pair b) = B754_nan.
  Proof using Hp.
    unfold compute_weighted_avg, pair, time_weighted. cbn [fmap list_fmap e_ts e_val]. unfold ratio at 1.
    rewrite cancel by (apply weight_positive, elapsed_weeks_ok). rewrite (nan_l fdiv), nan_r by auto. by apply (nan_l fadd); auto.
  Qed.
  Lemma score_nan ty b now : ∃ sc, score_exercise powf ty (pair b) [] now = Some sc ∧ sc_value sc = B754_nan.
  Proof using Hp.
    unfold score_exercise. unfold pair at 1. replace (out_of_order (pair b)) with false by done.
    eexists. split; [reflexivity|]. cbn [sc_value]. rewrite average_nan, nan_r, (nan_l fadd) by auto. done.
  Qed.
End infinite.

Lemma powf_setting_ok powf lib : power_ok powf → opened lib → modest (lib_graph lib) → setting_ok (setting_of powf lib).
Proof.
  intros H0 H1 H2. split; cbn [setting_of g_lib g_powf g_ord g_listed g_order g_reward_order g_num_trials].
  - done.
  - done.
  - done.
  - by intros s.
  - by intros u l.
  - apply by_time_ok.
  - apply by_time_ok.
  - lia.
Qed.
Definition infinite_practice : practice :=
  Practice (fst (record_entries bind_f32 false empty_table (pair false))) empty_table empty_reward_store ∅ no_caches.
Lemma infinite_read : default [] (get_entries by_time (p_trials infinite_practice) "exercise" 10) = pair false ∨
  default [] (get_entries by_time (p_trials infinite_practice) "exercise" 10) = pair true.
Proof. first [by left; vm_compute | by right; vm_compute]. Qed.
Lemma infinite_import powf : power_ok powf → ∃ s ops z evs e x, setting_ok s ∧ g_powf s = powf ∧
  session_run s (new_session None) ops = Some (z, evs) ∧ get_unit_type (lib_graph (g_lib s)) e = Some Exercise ∧
  fst (unit_score (world_of s 0 (z_practice z)) 1 e (p_caches (z_practice z))) = Val (Some x) ∧ ¬ in_range x.
Proof.
  intros Hp. destruct two_lessons_small as (lib & Ho & Hg & Hm). set (s := setting_of powf lib).
  assert (Hc : ∃ y, compute_exercise s 0 infinite_practice "exercise" = Val y ∧ ca_score y = B754_nan).
  { assert (Hr : ∃ b, default [] (get_entries (g_order s) (p_trials infinite_practice) "exercise" (g_num_trials s)) = pair b).
    { destruct infinite_read as [H|H]; eauto. }
    destruct Hr as [b Hb]. destruct (score_nan powf Hp (exercise_type_of s "exercise") b 0) as (sc & E & En).
    eexists. split; [eapply (compute_short s 0 infinite_practice "exercise" (pair b) [] sc)|]; try done; cbn; lia. }
  destruct Hc as (y & Hy & Hn).
  eexists s, [at_ 0 (ZMaintain (MRecordScores false (pair false)))], _, _, "exercise"%string, B754_nan.
  split; [by apply powf_setting_ok|]. split; [done|]. split; [reflexivity|].
  assert (He : get_unit_type (lib_graph (g_lib s)) "exercise" = Some Exercise) by apply Hg. split; [done|]. split.
  - cbn [with_practice z_practice new_session maintain p_caches new_practice]. cbn [unit_score world_of w_graph]. rewrite He.
    unfold exercise_score, then_do, exercise_entry. cbn [no_caches c_exercise]. rewrite lookup_empty. cbn [world_of w_exercise].
    change (compute_exercise s 0 _ "exercise") with (compute_exercise s 0 infinite_practice "exercise"). rewrite Hy. cbn [done_with fst]. by rewrite Hn.
  - intros [H _]. done.
Qed.

(** ** Recorded but not seen *)
Lemma entry_cached w e c x : c_exercise c !! e = Some x → fst (exercise_entry w e c) = Val x.
Proof. intros H. unfold exercise_entry. by rewrite H. Qed.
Lemma unseen_import powf : power_ok powf → ∃ s ops z evs e, setting_ok s ∧ g_powf s = powf ∧ Forall proper ops ∧
  session_run s (new_session None) ops = Some (z, evs) ∧ get_unit_type (lib_graph (g_lib s)) e = Some Exercise ∧
  length (stored (p_trials (z_practice z)) e) = 1 ∧
  (∃ x, fst (exercise_entry (world_of s 0 (z_practice z)) e (p_caches (z_practice z))) = Val x ∧ ca_trials x = 0) ∧
  (∃ x, fst (exercise_entry (world_of s 0 (z_practice z)) e no_caches) = Val x ∧ ca_trials x = 1).
Proof.
  intros Hp. destruct two_lessons_small as (lib & Ho & Hg & Hm). set (s := setting_of powf lib).
  destruct (x_1 powf lib 0) as (x & Hx & Hn).
  assert (H0 : compute_exercise s 0 new_practice "exercise" = Val (Cached fzero f_1 None 0)).
  { apply (compute_short s 0 _ "exercise" [] [] (EScore fzero f_1 None)); try reflexivity; cbn; lia. }
  eexists s, [at_ 0 (ZCall (CAskExercise "exercise")); at_ 0 (ZMaintain (MRecordScores false [five]))], _, _, "exercise"%string.
  split; [by apply powf_setting_ok|]. split; [done|]. split.
  { apply Forall_cons_2; [exact I|]. apply Forall_cons_2; [|apply Forall_nil_2]. apply Forall_cons_2; [|apply Forall_nil_2]. by split. }
  split.
  { cbn [session_run at_ t_fuel t_search t_now t_op session_step call_step new_session z_practice]. unfold run. unfold exercise_entry.
    cbn [new_practice p_caches no_caches c_exercise]. rewrite lookup_empty. cbn [world_of w_exercise]. rewrite H0. cbn [snd]. reflexivity. }
  split; [apply Hg|].
  cbn [with_practice z_practice maintain with_caches p_caches p_trials p_deltas p_rewards p_banned new_practice set_exercise no_caches c_exercise]. split; [reflexivity|].
  split.
  - exists (Cached fzero f_1 None 0). split; [|done]. apply entry_cached, lookup_insert.
  - exists x. split; [|done]. unfold exercise_entry. cbn [no_caches c_exercise]. rewrite lookup_empty. cbn [world_of w_exercise].
    change (compute_exercise _ 0 _ "exercise") with (compute_exercise (setting_of powf lib) 0 (p_1) "exercise"). by rewrite Hx.
Qed.
