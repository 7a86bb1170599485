(** Proofs about scores given and asked by several threads. *)
From stdpp Require Import gmap strings list.
From Coq Require Import ZArith.
From Verif Require Import F32 Graph Library Options Stores Scorer UnitScorer Practice Threads ThreadsSpec.

(** ** A thread that runs alone *)
Fixpoint finish {A} (m : act A) (s : shared) : option (shared * A) :=
  match m with
  | Ret a => Some (s, a)
  | Act f => match f s with Some (s, m) => finish m s | None => None end
  end.
Lemma finish_then {A B} (m : act A) (k : A → act B) : ∀ s,
  finish (and_then m k) s = match finish m s with Some (s, a) => finish (k a) s | None => None end.
Proof.
  revert m. fix IH 1. intros [a|f] s; [done|]. cbn [and_then finish].
  destruct (f s) as [[s' m]|]; [|done]. apply IH.
Qed.
Lemma moves_trans s l s' l' s'' l'' : moves s l s' l' → moves s' l' s'' l'' → moves s l s'' l''.
Proof. intros H. induction 1 as [|???????? IH]; [done|]. by eapply moves_step. Qed.
(** It can run to its end while the others wait. *)
Lemma finish_moves i : ∀ (m : act result) l s s' r, l !! i = Some m → finish m s = Some (s', r) → moves s l s' (<[i := Ret r]> l).
Proof.
  fix IH 1. intros [a|f] l s s' r Hl H.
  - cbn in H. injection H as -> ->. rewrite list_insert_id by done. constructor.
  - cbn in H. destruct (f s) as [[s1 m]|] eqn:E; [|done].
    assert (Hi : i < length l) by by eapply lookup_lt_Some.
    eapply moves_trans; [eapply moves_step; [constructor|done|done]|].
    rewrite <- (list_insert_insert l i (Ret r) m).
    apply (IH m); [by rewrite list_lookup_insert|done].
Qed.
(** If there is only one, it cannot do anything else. *)
Lemma moves_alone m s s' l' : moves s [m] s' l' → ∃ m', l' = [m'] ∧ finish m s = finish m' s'.
Proof.
  induction 1 as [|s1 l1 i f s2 a H (m' & -> & E) Hl Hf]; [by eexists|].
  destruct i as [|i]; [|done]. injection Hl as ->. exists a. split; [done|]. rewrite E. cbn. by rewrite Hf.
Qed.
Lemma at_once_alone s fuel p r p' o : at_once s fuel p [r] p' [o] ↔ finish (request_steps s fuel r) (Shared p 0) = Some (Shared p' 0, o).
Proof.
  unfold at_once. cbn [fmap list_fmap]. split.
  - intros H. apply moves_alone in H as (m & [= <-] & E). by rewrite E.
  - intros H. exact (finish_moves 0 _ [request_steps s fuel r] _ _ _ eq_refl H).
Qed.

(** ** The steps of one thread are those of the calls of Practice.v *)
Section alone.
  Context (s : setting).
  Local Notation g := (lib_graph (g_lib s)).

  Lemma finish_entry now e p : finish (entry_steps s now e) (Shared p 0) =
    Some (let '(r, p') := run (exercise_entry (world_of s now p) e) p in (Shared p' 0, r)).
  Proof.
    unfold entry_steps. rewrite finish_then. cbn [look finish s_practice]. unfold run, exercise_entry.
    destruct (c_exercise (p_caches p) !! e) as [x|]; [cbn; by destruct p|].
    rewrite finish_then. cbn [look finish s_practice]. rewrite finish_then. cbn [look finish s_practice].
    cbn [world_of w_exercise]. unfold compute_exercise.
    destruct (score_exercise _ _ _ _ _) as [sc|]; [|cbn; by destruct p]. cbv zeta.
    rewrite finish_then. cbn [lock_rewards finish s_practice].
    destruct (apply_reward _ _ _) as [b|]; rewrite finish_then; cbn; [|by destruct p]. done.
  Qed.
  Lemma finish_trials now e p : finish (trials_steps s now e) (Shared p 0) =
    Some (let '(r, p') := run (exercise_num_trials (world_of s now p) e) p in (Shared p' 0, r)).
  Proof.
    unfold trials_steps. rewrite finish_then. cbn [look finish s_practice]. unfold run, exercise_num_trials, then_do.
    destruct (c_exercise (p_caches p) !! e) as [x|] eqn:E.
    - unfold exercise_entry. rewrite E. cbn. by destruct p.
    - rewrite finish_then, finish_entry. unfold run.
      destruct (exercise_entry _ _ _) as [[x| | |] c] eqn:Hx; try done.
      rewrite finish_then. cbn [look finish s_practice with_caches p_caches].
      unfold exercise_entry in Hx. rewrite E in Hx. destruct (w_exercise _ _); try done.
      injection Hx as -> <-. cbn [set_exercise c_exercise]. by rewrite lookup_insert.
  Qed.
  Lemma finish_score fuel now u p : finish (score_steps s (S fuel) now u) (Shared p 0) =
    Some (let '(r, p') := run (unit_score (world_of s now p) (S fuel) u) p in (Shared p' 0, r)).
  Proof.
    unfold score_steps. destruct (get_unit_type g u) as [[| |]|] eqn:E.
    1: { rewrite finish_then, finish_entry. unfold run. cbn [unit_score]. cbn [world_of w_graph]. rewrite E.
         unfold exercise_score, then_do. destruct (exercise_entry _ _ _) as [[x| | |] c]; done. }
    all: cbn [change finish s_practice]; destruct (run _ p) as [r p']; done.
  Qed.
  Lemma finish_invalidate us : ∀ p, finish (invalidate_steps s us) (Shared p 0) =
    Some (Shared (with_caches (λ c, fold_left (λ c u, invalidate g u c) us c) p) 0, tt).
  Proof.
    induction us as [|u us IH]; intros p; [cbn; by destruct p|]. cbn [invalidate_steps]. rewrite finish_then.
    cbn [change finish s_practice s_readers]. by rewrite IH.
  Qed.
  Definition recorded (fuel : nat) f e sc ts (p : practice) (existing : option f32) (n : nat) : option (practice * bool) :=
    let delta := fsub (float_score sc) (default fzero existing) in
    let '(deltas, ok) :=
      if Nat.ltb 0 n then record_entries bind_f32 (f_delta f) (p_deltas p) [Entry e delta ts] else (p_deltas p, true) in
    if ok then
      let p := Practice (p_trials p) deltas (p_rewards p) (p_banned p) (p_caches p) in
      let '(trials, ok) := record_entries bind_f32 (f_score f) (p_trials p) [Entry e (float_score sc) ts] in
      if ok then
        let p := Practice trials (p_deltas p) (p_rewards p) (p_banned p) (invalidate g e (p_caches p)) in
        match Propagate.propagate_rewards g (g_listed s) fuel e sc ts with
        | None => None
        | Some rewards =>
            let '(store, updated) :=
              record_unit_rewards (g_reward_order s) (f_rewards f) (p_rewards p) (snd <$> map_to_list rewards) in
            let p := Practice (p_trials p) (p_deltas p) store (p_banned p) (p_caches p) in
            match updated with
            | Some us => Some (with_caches (λ c, fold_left (λ c u, invalidate g u c) us c) p, true)
            | None => Some (p, false)
            end
        end
      else Some (p, false)
    else Some (p, false).
  Definition ends (o : option (practice * bool)) (m : act result) (p : practice) : Prop :=
    match o with
    | Some (p', ok) => finish m (Shared p 0) = Some (Shared p' 0, Accepted ok)
    | None => ∃ p', finish m (Shared p 0) = Some (Shared p' 0, Broken)
    end.
  Lemma record_failed {A} (bind : A → option A) fault t es t' : record_entries bind fault t es = (t', false) → t' = t.
  Proof. unfold record_entries. destruct fault; [by intros [= ->]|]. destruct (insert_entries _ _ _); by intros [=]. Qed.
  Lemma finish_record fuel f e sc ts p existing n :
    ends (recorded fuel f e sc ts p existing n) (record_steps s fuel f e sc ts existing n) p.
  Proof.
    unfold ends, recorded, record_steps. cbv zeta. rewrite finish_then.
    set (delta := if Nat.ltb 0 n then _ else _ : table f32 * bool).
    assert (E : finish (if Nat.ltb 0 n then change (λ p, let '(t, ok) := record_entries bind_f32 (f_delta f) (p_deltas p)
        [Entry e (fsub (float_score sc) (default fzero existing)) ts] in (Practice (p_trials p) t (p_rewards p) (p_banned p) (p_caches p), ok)) else Ret true) (Shared p 0) =
      Some (Shared (Practice (p_trials p) (fst delta) (p_rewards p) (p_banned p) (p_caches p)) 0, snd delta)).
    { unfold delta. destruct (Nat.ltb 0 n); [|cbn; by destruct p]. cbn [change finish s_practice s_readers]. by destruct (record_entries _ _ _ _). }
    rewrite E. clear E. destruct delta as [d okd] eqn:Ed. cbn [fst snd].
    destruct okd; [|].
    2: { assert (d = p_deltas p) as ->.
         { unfold delta in Ed. destruct (Nat.ltb 0 n); [by apply record_failed in Ed|done]. }
         by destruct p. }
    rewrite finish_then. cbn [change finish s_practice s_readers p_trials p_deltas p_rewards p_banned p_caches].
    destruct (record_entries bind_f32 (f_score f) (p_trials p) _) as [t [|]] eqn:Et; [|by apply record_failed in Et as ->].
    cbn [finish]. rewrite finish_then, finish_invalidate. cbn [fold_left].
    destruct (Propagate.propagate_rewards _ _ _ _ _ _) as [rewards|]; [|by eexists].
    rewrite finish_then. cbn [change_rewards finish s_practice s_readers Nat.eqb with_caches p_trials p_deltas p_rewards p_banned p_caches].
    destruct (record_unit_rewards _ _ _ _) as [store [us|]]; [|done].
    cbn [finish]. by rewrite finish_then, finish_invalidate.
  Qed.
  Lemma score_call_recorded fuel now f e sc ts p : score_call s fuel now f e sc ts p =
    match run (or_default None (unit_score (world_of s now p) fuel e)) p with
    | (Val existing, p1) =>
        match run (or_default 0 (exercise_num_trials (world_of s now p) e)) p1 with
        | (Val n, p2) => recorded fuel f e sc ts p2 existing n
        | _ => None
        end
    | _ => None
    end.
  Proof. done. Qed.
  Lemma world_caches now p c : world_of s now (with_caches c p) = world_of s now p.
  Proof. done. Qed.
  Lemma finish_give fuel now f e sc ts p :
    ends (score_call s (S fuel) now f e sc ts p) (give_steps s (S fuel) now f e sc ts) p.
  Proof.
    rewrite score_call_recorded. unfold give_steps.
    assert (G : ∀ c existing, let p1 := with_caches (λ _, c) p in
      ends match run (or_default 0 (exercise_num_trials (world_of s now p) e)) p1 with
           | (Val n, p2) => recorded (S fuel) f e sc ts p2 existing n
           | _ => None
           end
        (and_then (trials_steps s now e) (λ r,
          match r with
          | Val n => record_steps s (S fuel) f e sc ts existing n
          | Fail => record_steps s (S fuel) f e sc ts existing 0
          | _ => Ret Broken
          end)) p1).
    { intros c existing p1. unfold ends. rewrite finish_then, finish_trials.
      change (world_of s now p1) with (world_of s now p). unfold run, or_default.
      destruct (exercise_num_trials _ _ _) as [[n| | |] c']; try (by eexists); apply finish_record. }
    unfold ends in *. rewrite finish_then, finish_score. unfold run in *. unfold or_default at 1.
    destruct (unit_score _ _ _ _) as [[existing| | |] c]; try (by eexists); apply G.
  Qed.

  (** A request that is made alone is a call. *)
  Lemma alone_ask fuel now e p p' o : at_once s fuel p [Ask now e] p' [o] ↔
    o = Answer (shown s now p e) ∧ in_turn s fuel p [Ask now e] p'.
  Proof.
    rewrite at_once_alone. cbn [request_steps]. rewrite finish_then, finish_entry. unfold in_turn. cbn [fmap list_fmap call_of calls call_step].
    assert (E : shown s now p e = fst (run (exercise_entry (world_of s now p) e) p)) by (unfold run, shown; by destruct (exercise_entry _ _ _)).
    rewrite E. destruct (run _ p) as [r p1]. cbn [finish fst snd]. naive_solver.
  Qed.
  Lemma alone_give fuel now f e sc ts p p' ok : at_once s (S fuel) p [Give now f e sc ts] p' [Accepted ok] ↔
    score_call s (S fuel) now f e sc ts p = Some (p', ok).
  Proof.
    rewrite at_once_alone. cbn [request_steps]. pose proof (finish_give fuel now f e sc ts p) as H. unfold ends in H.
    destruct (score_call _ _ _ _ _ _ _ p) as [[p1 ok1]|]; [rewrite H; naive_solver|]. destruct H as (p1 & H). rewrite H. naive_solver.
  Qed.
End alone.
