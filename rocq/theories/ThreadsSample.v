(** Threads that disturb each other: a stale score and a lost delta. *)
From stdpp Require Import gmap strings list relations.
From Coq Require Import ZArith Lia.
From Verif Require Import F32 Graph GraphSpec Library LibrarySpec SearchSpec Sql Stores StoresSpec StoresSample Options Scorer Propagate UnitScorer UnitSpec
  Practice PracticeSpec PracticeMore UnitSample PracticeSample Threads ThreadsSpec ThreadsProofs ThreadsMore.
Local Open Scope string_scope.
Local Open Scope list_scope.

(** The first steps of a thread, while the others wait. *)
Fixpoint begin {A} (n : nat) (m : act A) (s : shared) : option (shared * act A) :=
  match n, m with
  | 0, _ => Some (s, m)
  | S _, Ret _ => None
  | S n, Act f => match f s with Some (s, m) => begin n m s | None => None end
  end.
Lemma begin_moves i n : ∀ (m : act result) l s s' m', l !! i = Some m → begin n m s = Some (s', m') → moves s l s' (<[i := m']> l).
Proof.
  induction n as [|n IH]; intros m l s s' m' Hl H.
  - cbn in H. injection H as -> ->. rewrite list_insert_id by done. constructor.
  - destruct m as [|f]; [done|]. cbn in H. destruct (f s) as [[s1 m1]|] eqn:E; [|done].
    assert (Hi : i < length l) by by eapply lookup_lt_Some.
    eapply moves_trans; [exact (moves_step _ _ s l i f s1 m1 (moves_none _ _) Hl E)|].
    rewrite <- (list_insert_insert l i m' m1). apply (IH m1); [by rewrite list_lookup_insert|done].
Qed.
(** The first part of a thread. *)
Lemma prefix_moves {A} i (k : A → act result) : ∀ (m : act A) l s s' a, l !! i = Some (and_then m k) → finish m s = Some (s', a) →
  moves s l s' (<[i := k a]> l).
Proof.
  fix IH 1. intros [b|f] l s s' a Hl H.
  - cbn in H, Hl. injection H as -> ->. rewrite list_insert_id by done. constructor.
  - cbn in H. destruct (f s) as [[s1 m]|] eqn:E; [|done].
    assert (Hi : i < length l) by by eapply lookup_lt_Some.
    eapply moves_trans.
    { refine (moves_step _ _ s l i _ s1 (and_then m k) (moves_none _ _) Hl _). by rewrite E. }
    rewrite <- (list_insert_insert l i (k a) (and_then m k)).
    apply (IH m); [by rewrite list_lookup_insert|done].
Qed.

Section sample.
  Context (powf : f32 → f32 → f32) (lib : library) (Hlib : opened lib) (Hg : two_lessons_graph lib).
  Local Notation s := (setting_of powf lib).
  Definition give : request := Give 0 no_faults "exercise" Five 0.
  Definition ask : request := Ask 0 "exercise".

  Lemma nothing_new : score_exercise powf (exercise_type_of s "exercise") [] [] 0 = Some (EScore fzero f_1 None).
  Proof using. reflexivity. Qed.
  (** A question that has read the trials and the deltas while there were none. *)
  Lemma late_answer : ∃ m, begin 3 (request_steps s 1 ask) (Shared new_practice 0) = Some (Shared new_practice 0, m) ∧
    ∀ p, finish m (Shared p 0) = Some (Shared (with_caches (set_exercise <["exercise" := x_new]>) p) 0, Answer (Val x_new)).
  Proof using. eexists. split; [reflexivity|]. intros p. reflexivity. Qed.
  Lemma give_first : score_call s 1 0 no_faults "exercise" Five 0 new_practice = Some (p_1, true).
  Proof using Hg.
    rewrite (one_score s 0 0 "exercise" Five new_practice x_new 0).
    - reflexivity.
    - apply Hg.
    - done.
    - apply x_0.
    - apply (no_rewards lib _ _ (Ha lib Hg)); done.
    - apply delta_recorded.
    - reflexivity.
  Qed.
  Definition p_stale : practice := with_caches (set_exercise <["exercise" := x_new]>) p_1.
  Lemma stale_at_once : at_once s 1 new_practice [ask; give] p_stale [Answer (Val x_new); Accepted true].
  Proof using Hg.
    destruct late_answer as (m & H1 & H2). unfold at_once. cbn [fmap list_fmap].
    eapply moves_trans; [exact (begin_moves 0 3 _ [request_steps s 1 ask; request_steps s 1 give] _ _ _ eq_refl H1)|]. cbn [insert list_insert].
    pose proof (finish_give s 0 0 no_faults "exercise" Five 0 new_practice) as Hf. rewrite give_first in Hf. cbn [ends] in Hf.
    eapply moves_trans; [exact (finish_moves 1 _ [m; request_steps s 1 give] _ _ _ eq_refl Hf)|]. cbn [insert list_insert].
    exact (finish_moves 0 m [m; Ret (Accepted true)] _ _ _ eq_refl (H2 p_1)).
  Qed.
  Lemma stale : shown s 0 p_stale "exercise" ≠ fresh s 0 p_stale "exercise".
  Proof using.
    destruct (x_1 powf lib 0) as (x & Hx & Hn). unfold shown, fresh, exercise_entry, p_stale. cbn [with_caches p_caches set_exercise c_exercise no_caches].
    rewrite lookup_insert, lookup_empty. cbn [world_of w_exercise]. 
    change (compute_exercise s 0 _ "exercise") with (compute_exercise s 0 p_1 "exercise"). rewrite Hx. cbn [fst]. intros [= <-]. done.
  Qed.
  (** Two scores that are given before the other one is recorded. *)
  Definition p_both : practice := Practice trials_2 empty_table empty_reward_store ∅ no_caches.
  Lemma both_at_once : at_once s 1 new_practice [give; give] p_both [Accepted true; Accepted true].
  Proof using Hg.
    assert (He : get_unit_type (lib_graph lib) "exercise" = Some Exercise) by apply Hg.
    set (q := with_caches (set_exercise <["exercise" := x_new]>) new_practice).
    assert (A1 : finish (score_steps s 1 0 "exercise") (Shared new_practice 0) = Some (Shared q 0, Val (Some fzero))).
    { unfold score_steps. cbn [setting_of g_lib]. rewrite He. reflexivity. }
    assert (A2 : finish (score_steps s 1 0 "exercise") (Shared q 0) = Some (Shared q 0, Val (Some fzero))).
    { unfold score_steps. cbn [setting_of g_lib]. rewrite He. reflexivity. }
    assert (A3 : finish (trials_steps s 0 "exercise") (Shared q 0) = Some (Shared q 0, Val 0)) by reflexivity.
    assert (R1 : finish (record_steps s 1 no_faults "exercise" Five 0 (Some fzero) 0) (Shared q 0) = Some (Shared p_1 0, Accepted true)).
    { pose proof (finish_record s 1 no_faults "exercise" Five 0 q (Some fzero) 0) as H. unfold recorded in H. cbv zeta in H.
      cbn [setting_of g_lib g_listed] in H. rewrite (no_rewards lib _ _ (Ha lib Hg)) in H by done.
      change (ends (Some (Practice trials_1 empty_table empty_reward_store ∅ (invalidate (lib_graph lib) "exercise" (p_caches q)), true))
        (record_steps s 1 no_faults "exercise" Five 0 (Some fzero) 0) q) in H.
      unfold q in H at 1. cbn [with_caches p_caches new_practice] in H. rewrite (invalidate_own _ _ _ He) in H. exact H. }
    assert (R2 : finish (record_steps s 1 no_faults "exercise" Five 0 (Some fzero) 0) (Shared p_1 0) = Some (Shared p_both 0, Accepted true)).
    { pose proof (finish_record s 1 no_faults "exercise" Five 0 p_1 (Some fzero) 0) as H. unfold recorded in H. cbv zeta in H.
      cbn [setting_of g_lib g_listed] in H. rewrite (no_rewards lib _ _ (Ha lib Hg)) in H by done.
      change (ends (Some (Practice trials_2 empty_table empty_reward_store ∅ (invalidate (lib_graph lib) "exercise" no_caches), true))
        (record_steps s 1 no_faults "exercise" Five 0 (Some fzero) 0) p_1) in H.
      rewrite invalidate_none in H. exact H. }
    unfold at_once. cbn [fmap list_fmap request_steps]. unfold give at 1 2. cbn [request_steps]. unfold give_steps.
    eapply moves_trans; [eapply (prefix_moves 0); [reflexivity|exact A1]|]. cbn [insert list_insert].
    eapply moves_trans; [eapply (prefix_moves 1); [reflexivity|exact A2]|]. cbn [insert list_insert].
    eapply moves_trans; [eapply (prefix_moves 0); [reflexivity|exact A3]|]. cbn [insert list_insert].
    eapply moves_trans; [eapply (prefix_moves 1); [reflexivity|exact A3]|]. cbn [insert list_insert].
    eapply moves_trans; [eapply (finish_moves 0); [reflexivity|exact R1]|]. cbn [insert list_insert].
    eapply (finish_moves 1 _ [_; _]); [reflexivity|exact R2].
  Qed.
  Lemma both_in_turn rs p : rs ≡ₚ [give; give] → in_turn s 1 new_practice rs p → p_deltas p ≠ p_deltas p_both.
  Proof using Hg.
    intros Hrs. assert (rs = [give; give]) as ->.
    { assert (Forall (λ r, r = give) rs) by (rewrite Hrs; repeat constructor). apply Permutation_length in Hrs.
      destruct rs as [|r1 [|r2 [|]]]; try done. decompose_Forall_hyps. done. }
    unfold in_turn, give. cbn [fmap list_fmap call_of calls]. rewrite (call_1 powf lib _ _ (Ha lib Hg)) by done.
    destruct (call_2 powf lib _ _ (Ha lib Hg) ltac:(done) ltac:(done) 0 0) as [d ->]. intros [= <-].
    cbn [p_2 p_deltas p_both]. unfold record_entries. cbn [insert_entries]. unfold insert_entry. cbn [e_unit e_val e_ts].
    pose proof (delta_recorded d) as Hd. unfold record_entries in Hd. cbn [insert_entries] in Hd. unfold insert_entry in Hd. cbn [e_unit e_val e_ts] in Hd.
    revert Hd. generalize (bind_f32 d). intros [v|]; done.
  Qed.
  Lemma stale_in_turn rs p : rs ≡ₚ [ask; give] → in_turn s 1 new_practice rs p → shown s 0 p "exercise" = fresh s 0 p "exercise".
  Proof using Hg Hlib.
    intros Hrs H. assert (Hall : Forall (λ x, x.1 = 0%Z ∧ keeps_caches x.2) (call_of <$> rs)).
    { apply Forall_fmap. rewrite Hrs. repeat constructor. }
    refine (proj2 (history_scores s Hlib _ by_time_ok 1 0 _ p Hall H) "exercise" _); [done|apply Hg].
  Qed.
End sample.

Lemma some_stale : ∀ powf, ∃ lib, opened lib ∧ let s := setting_of powf lib in
  ∃ rs p out e, at_once s 1 new_practice rs p out ∧ Broken ∉ out ∧ shown s 0 p e ≠ fresh s 0 p e ∧
    ∀ rs' p', rs' ≡ₚ rs → in_turn s 1 new_practice rs' p' → shown s 0 p' e = fresh s 0 p' e.
Proof.
  intros powf. destruct two_lessons_opened as (lib & Ho & Hg). exists lib. split; [done|]. intros s.
  exists [ask; give], p_stale, [Answer (Val x_new); Accepted true], "exercise". split; [by apply stale_at_once|].
  split; [by intros [?|[?|?%elem_of_nil]%elem_of_cons]%elem_of_cons|]. split; [apply stale|]. by apply stale_in_turn.
Qed.
Lemma some_lost_delta : ∀ powf, ∃ lib, opened lib ∧ let s := setting_of powf lib in
  ∃ rs p out, at_once s 1 new_practice rs p out ∧ Forall (λ o, o = Accepted true) out ∧
    ∀ rs' p', rs' ≡ₚ rs → in_turn s 1 new_practice rs' p' → p_deltas p' ≠ p_deltas p.
Proof.
  intros powf. destruct two_lessons_opened as (lib & Ho & Hg). exists lib. split; [done|]. intros s.
  exists [give; give], p_both, [Accepted true; Accepted true]. split; [by apply both_at_once|].
  split; [by repeat constructor|]. by apply both_in_turn.
Qed.

(** One after the other is one of the ways. *)
Lemma in_turn_at_once s fuel : ∀ rs p p', in_turn s (S fuel) p rs p' → ∃ out, at_once s (S fuel) p rs p' out ∧ Broken ∉ out.
Proof.
  assert (G : ∀ rs before p p', in_turn s (S fuel) p rs p' → ∃ out, Broken ∉ out ∧
    moves (Shared p 0) ((Ret <$> before) ++ (request_steps s (S fuel) <$> rs)) (Shared p' 0) ((Ret <$> before) ++ (Ret <$> out))).
  { induction rs as [|r rs IH]; intros before p p' H.
    - injection H as ->. exists []. split; [apply not_elem_of_nil|]. constructor.
    - assert (E : ∃ p1 o, o ≠ Broken ∧ finish (request_steps s (S fuel) r) (Shared p 0) = Some (Shared p1 0, o) ∧ in_turn s (S fuel) p1 rs p').
      { unfold in_turn in H. destruct r as [now e|now f e sc ts]; cbn [fmap list_fmap call_of calls call_step] in H.
        - cbn [request_steps]. rewrite finish_then, finish_entry. destruct (run _ p) as [r p1]. cbn [snd] in H.
          exists p1, (Answer r). done.
        - pose proof (finish_give s fuel now f e sc ts p) as Hf. unfold ends in Hf.
          destruct (score_call _ _ _ _ _ _ _ p) as [[p1 ok]|]; [|done]. cbn [fmap option_fmap option_map fst] in H.
          exists p1, (Accepted ok). done. }
      destruct E as (p1 & o & Ho & Hf & Ht). destruct (IH (before ++ [o]) _ _ Ht) as (out & Hout & Hm).
      exists (o :: out). split; [by intros [?|?]%elem_of_cons|].
      eapply moves_trans; [eapply (finish_moves (length before)); [|exact Hf]|].
      + rewrite lookup_app_r by by rewrite fmap_length. by rewrite fmap_length, Nat.sub_diag.
      + rewrite insert_app_r_alt by by rewrite fmap_length. rewrite fmap_length, Nat.sub_diag. cbn [fmap list_fmap insert list_insert].
        rewrite !fmap_app in Hm. cbn [fmap list_fmap] in Hm. by rewrite <- !app_assoc in Hm. }
  intros rs p p' H. destruct (G rs [] p p' H) as (out & Hout & Hm). exists out. done.
Qed.
Lemma two_accepted : ∀ powf, ∃ lib rs p out, opened lib ∧ at_once (setting_of powf lib) 1 new_practice rs p out ∧ length (accepted rs out) = 2.
Proof.
  intros powf. destruct two_lessons_opened as (lib & Ho & Hg). eexists lib, _, _, _. split; [done|]. split; [by apply both_at_once|done].
Qed.
