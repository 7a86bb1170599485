(** What a simulation does is what it reports. *)
From stdpp Require Import gmap strings list.
From Coq Require Import ZArith Lia.
From Verif Require Import F32 Graph Library Options Benchmark BenchSpec.
Local Open Scope bool_scope.
Local Open Scope Z_scope.

Section runs.
  Context {T : Type} (get_batch : T → Z → option (list uid)) (score_exercise : T → uid → mastery_score → Z → option T)
    (unit_score : T → Z → uid → option f32) (draw : Z → Z → option mastery_score).
  Context (anchor frequency per : Z) (Hper : 0 ≤ per).
  Local Notation sim := (sim (T:=T)).

  Definition entries (log : list (uid * mastery_score * Z)) : Prop :=
    ∀ i e sc ts, reverse log !! i = Some (e, sc, ts) →
      draw (Z.of_nat i) (times_scored e (take i (reverse log))) = Some sc ∧
      ts = anchor + (Z.of_nat i / per) * frequency * 86400 + Z.of_nat i mod per.
  Definition kept (k d : Z) (s : sim) : Prop :=
    sim_practiced s = Z.of_nat (length (sim_log s)) ∧ Z.of_nat (length (sim_log s)) = k * per + d ∧ 0 ≤ k ∧ 0 ≤ d ≤ per ∧
    (∀ e, default 0 (sim_counts s !! e) = times_scored e (sim_log s)) ∧ entries (sim_log s).

  Lemma times_scored_cons e x l : times_scored e (x :: l) = (if String.eqb (x.1.1) e then 1 else 0) + times_scored e l.
  Proof using. unfold times_scored. cbn. destruct (String.eqb _ _); cbn [length]; lia. Qed.
  Lemma times_scored_reverse e l : times_scored e (reverse l) = times_scored e l.
  Proof using.
    unfold times_scored. f_equal. induction l as [|x l IH]; [done|]. rewrite reverse_cons, List.filter_app, app_length, IH. cbn.
    destruct (String.eqb _ _); cbn; lia.
  Qed.

  Lemma submit_kept k batch d s d' s' : kept k d s → submit score_exercise draw (session_timestamp anchor k frequency) per batch d s = Some (d', s') →
    kept k d' s' ∧ d ≤ d' ∧ (batch ≠ [] → d < per → d < d').
  Proof using Hper.
    revert d s. induction batch as [|e batch IH]; intros d s Hk H; cbn [submit] in H.
    { simplify_eq. split; [done|]. split; [lia|done]. }
    destruct (per <=? d) eqn:L; [apply Z.leb_le in L; simplify_eq; split; [done|]; split; [lia|lia]|]. apply Z.leb_gt in L.
    destruct (draw (sim_practiced s) _) as [sc|] eqn:Ed; [|done]. cbn in H.
    destruct (score_exercise _ _ _ _) as [t|] eqn:Es; [|done]. cbn in H.
    destruct Hk as (K1 & K2 & K3 & K4 & K5 & K6). rewrite K5 in Ed.
    apply IH in H.
    - destruct H as (H1 & H2 & H3). split; [done|]. split; [lia|]. intros _ _. lia.
    - split; [cbn; lia|]. split; [cbn [sim_log length]; lia|]. split; [done|]. split; [lia|]. split.
      + intros e'. cbn [sim_counts sim_log]. rewrite times_scored_cons. cbn [fst]. destruct (String.eqb_spec e e') as [->|Ne].
        * rewrite lookup_insert. cbn. rewrite K5. lia.
        * rewrite lookup_insert_ne by done. rewrite K5. lia.
      + cbn [sim_log]. intros i e' sc' ts' Hi. rewrite reverse_cons in Hi |- *.
        destruct (decide (i < length (reverse (sim_log s)))%nat) as [Lt|Ge].
        * rewrite lookup_app_l in Hi by done. rewrite take_app_le by lia. by apply K6.
        * rewrite lookup_app_r in Hi by lia. apply list_lookup_singleton_Some in Hi as [Hi E].
          assert (Ei : i = length (reverse (sim_log s))) by lia. simplify_eq. rewrite take_app. rewrite reverse_length, times_scored_reverse.
          rewrite K1 in Ed. split; [done|]. unfold exercise_timestamp, session_timestamp. rewrite K2.
          rewrite <- (Z.div_unique_pos (k * per + d) per k d) by lia. rewrite <- (Z.mod_unique_pos (k * per + d) per k d) by lia. lia.
  Qed.
  Lemma session_kept k fuel d s : kept k d s →
    match session get_batch score_exercise draw fuel (session_timestamp anchor k frequency) per d s with
    | Finished d' s' => kept k d' s' ∧ d' = per
    | NothingLeft s' => ∃ d', kept k d' s' ∧ d' < per
    | Broken => True
    | OutOfFuel => (Z.of_nat fuel ≤ per - d)
    end.
  Proof using Hper.
    revert d s. induction fuel as [|fuel IH]; intros d s Hk; cbn [session].
    { destruct Hk as (_ & _ & _ & ? & _). lia. }
    destruct (d <? per) eqn:L.
    2:{ apply Z.ltb_ge in L. split; [done|]. destruct Hk as (_ & _ & _ & ? & _). lia. }
    apply Z.ltb_lt in L. destruct (get_batch _ _) as [[|e b]|] eqn:Eb; [by exists d| |done].
    destruct (submit _ _ _ _ _ _ _) as [[d' s']|] eqn:Es; [|done].
    destruct (submit_kept _ _ _ _ _ _ Hk Es) as (Hk' & G1 & G2). specialize (G2 ltac:(done) L).
    specialize (IH d' s' Hk'). destruct (session _ _ _ fuel _ _ _ _); try done. lia.
  Qed.
  Lemma session_fuel k s : kept k 0 s → session get_batch score_exercise draw (S (Z.to_nat per)) (session_timestamp anchor k frequency) per 0 s ≠ OutOfFuel.
  Proof using Hper. intros Hk E. pose proof (session_kept k (S (Z.to_nat per)) 0 s Hk) as H. rewrite E in H. lia. Qed.

  Context (advanced : uid) (threshold : f32) (courses : list uid).
  Definition reported (max : Z) (r : student_result) (s : sim) : Prop :=
    exercises_practiced r = Z.of_nat (length (sim_log s)) ∧ 0 ≤ sessions_run r ≤ max ∧ entries (sim_log s) ∧
    match days_to_mastery r with
    | Some d =>
        0 < sessions_run r ∧ d = (sessions_run r - 1) * frequency ∧ exercises_practiced r = sessions_run r * per ∧
        (let now := anchor + d * 86400 + per in ∀ c, c = advanced ∨ c ∈ courses → ∃ x, unit_score (sim_trane s) now c = Some x ∧ fle threshold x = true)
    | None =>
        (sessions_run r = max ∧ exercises_practiced r = sessions_run r * per) ∨
        (sessions_run r < max ∧ sessions_run r * per ≤ exercises_practiced r < (sessions_run r + 1) * per)
    end.
  Lemma sessions_reported n k s : kept k 0 s →
    match sessions get_batch score_exercise unit_score draw advanced threshold courses n anchor frequency per k s with
    | Simulated r s' => reported (k + Z.of_nat n) r s'
    | SimulationFails => True
    | SimulationOutOfFuel => False
    end.
  Proof using Hper.
    revert k s. induction n as [|n IH]; intros k s Hk; cbn [sessions].
    { destruct Hk as (K1 & K2 & K3 & K4 & K5 & K6). split; [done|]. cbn. split; [lia|]. split; [done|]. left. lia. }
    pose proof (session_kept k (S (Z.to_nat per)) 0 s Hk) as H. pose proof (session_fuel k s Hk) as Nf.
    destruct (session _ _ _ _ _ _ _ _) as [d' s'|s'| |]; [| |done|done].
    - destruct H as [Hk' ->]. destruct Hk' as (K1 & K2 & K3 & K4 & K5 & K6). destruct (check_mastery _ _ _ _ _ _) eqn:M.
      + split; [done|]. cbn [sessions_run days_to_mastery exercises_practiced]. split; [lia|]. split; [done|]. split; [lia|]. split; [lia|]. split; [lia|].
        intros c Hc. set (now := anchor + k * frequency * 86400 + per). unfold check_mastery in M. apply andb_true_iff in M as [M1 M2].
        assert (E : exercise_timestamp (session_timestamp anchor k frequency) per = now) by (unfold exercise_timestamp, session_timestamp, now; lia).
        rewrite E in M1, M2.
        assert (R : match unit_score (sim_trane s') now c with Some x => fge x threshold | None => false end = true).
        { destruct Hc as [->|Hc]; [done|]. rewrite forallb_forall in M2. apply M2. by apply elem_of_list_In. }
        destruct (unit_score (sim_trane s') now c) as [x|]; [|done]. exists x. by split.
      + assert (Hk2 : kept (k + 1) 0 s') by (split; [done|]; split; [lia|]; split; [lia|]; split; [lia|]; done).
        specialize (IH (k + 1) s' Hk2). replace (k + Z.of_nat (S n)) with (k + 1 + Z.of_nat n) by lia. done.
    - destruct H as (d' & (K1 & K2 & K3 & K4 & K5 & K6) & L). split; [done|]. cbn [sessions_run days_to_mastery exercises_practiced].
      split; [lia|]. split; [done|]. right. lia.
  Qed.
  Theorem simulate_reported n t r s : simulate get_batch score_exercise unit_score draw advanced threshold courses n anchor frequency per t = Simulated r s →
    reported (Z.of_nat n) r s.
  Proof using Hper.
    intros E. pose proof (sessions_reported n 0 (Sim t ∅ 0 [])) as H. unfold simulate in E. rewrite E in H. apply H.
    split; [done|]. split; [cbn; lia|]. split; [lia|]. split; [lia|]. split; [|by intros i ????].
    intros e. cbn. by rewrite lookup_empty.
  Qed.
  Theorem simulate_fuel n t : simulate get_batch score_exercise unit_score draw advanced threshold courses n anchor frequency per t ≠ SimulationOutOfFuel.
  Proof using Hper.
    intros E. pose proof (sessions_reported n 0 (Sim t ∅ 0 [])) as H. unfold simulate in E. rewrite E in H. apply H.
    split; [done|]. split; [cbn; lia|]. split; [lia|]. split; [lia|]. split; [|by intros i ????].
    intros e. cbn. by rewrite lookup_empty.
  Qed.
  (** Nothing fails unless one of the calls does. *)
  Section calm.
    Context (Hb : ∀ t now, is_Some (get_batch t now)) (Hs : ∀ t e sc now, is_Some (score_exercise t e sc now)) (Hd : ∀ n k, 0 ≤ k → is_Some (draw n k)).
    Definition counts_ok (s : sim) : Prop := ∀ e, 0 ≤ default 0 (sim_counts s !! e).
    Lemma submit_calm start b d s : counts_ok s → ∃ d' s', submit score_exercise draw start per b d s = Some (d', s') ∧ counts_ok s'.
    Proof using Hs Hd.
      revert d s. induction b as [|e b IH]; intros d s Hc; cbn [submit]; [by exists d, s|].
      destruct (per <=? d); [by exists d, s|].
      destruct (Hd (sim_practiced s) _ (Hc e)) as [sc ->]. cbn [mbind option_bind].
      destruct (Hs (sim_trane s) e sc (exercise_timestamp start d)) as [t ->]. cbn [mbind option_bind]. apply IH.
      intros e'. cbn [sim_counts]. destruct (decide (e = e')) as [->|Ne]; [rewrite lookup_insert; cbn; specialize (Hc e'); lia|]. rewrite lookup_insert_ne by done. apply Hc.
    Qed.
    Lemma session_calm fuel start d s : counts_ok s →
      match session get_batch score_exercise draw fuel start per d s with Finished _ s' | NothingLeft s' => counts_ok s' | Broken => False | OutOfFuel => True end.
    Proof using Hb Hs Hd.
      revert d s. induction fuel as [|fuel IH]; intros d s Hc; cbn [session]; [done|].
      destruct (d <? per); [|done].
      destruct (Hb (sim_trane s) (exercise_timestamp start d)) as [[|e b] ->]; [done|].
      destruct (submit_calm start (e :: b) d s Hc) as (d' & s' & -> & Hc'). by apply IH.
    Qed.
    Lemma sessions_calm n k s : counts_ok s → sessions get_batch score_exercise unit_score draw advanced threshold courses n anchor frequency per k s ≠ SimulationFails.
    Proof using Hb Hs Hd.
      revert k s. induction n as [|n IH]; intros k s Hc; cbn [sessions]; [done|].
      pose proof (session_calm (S (Z.to_nat per)) (session_timestamp anchor k frequency) 0 s Hc) as H.
      destruct (session _ _ _ _ _ _ _ _); [|done|done|done]. destruct (check_mastery _ _ _ _ _ _); [done|]. by apply IH.
    Qed.
  End calm.
  Theorem simulate_calm n t : (∀ t now, is_Some (get_batch t now)) → (∀ t e sc now, is_Some (score_exercise t e sc now)) → (∀ n k, 0 ≤ k → is_Some (draw n k)) →
    ∃ r s, simulate get_batch score_exercise unit_score draw advanced threshold courses n anchor frequency per t = Simulated r s.
  Proof using Hper.
    intros Hb Hs Hd. pose proof (simulate_fuel n t) as Nf.
    pose proof (sessions_calm Hb Hs Hd n 0 (Sim t ∅ 0 [])) as Nc. unfold simulate in *.
    destruct (sessions _ _ _ _ _ _ _ _ _ _ _ _ _) as [r s| |]; [by exists r, s| |done].
    exfalso. apply Nc; [|done]. intros e. cbn. by rewrite lookup_empty.
  Qed.
  (** Exercises are scored in the order of time if a session fits between two starts. *)
  Lemma times_increase log i j x y : per ≤ 86400 * frequency → entries log → reverse log !! i = Some x → reverse log !! j = Some y → (i < j)%nat → x.2 < y.2.
  Proof using Hper.
    intros Hf He Hi Hj L. destruct x as [[e sc] ts], y as [[e' sc'] ts'].
    destruct (He _ _ _ _ Hi) as [_ ->]. destruct (He _ _ _ _ Hj) as [_ ->]. cbn [snd].
    destruct (decide (per = 0)) as [Z0|Nz].
    { rewrite Z0, !Zdiv_0_r, !Zmod_0_r. lia. }
    set (a := Z.of_nat i) in *. set (b := Z.of_nat j) in *. assert (Lab : a < b) by lia.
    pose proof (Z.div_mod a per Nz) as Da. pose proof (Z.div_mod b per Nz) as Db.
    pose proof (Z.mod_pos_bound a per ltac:(lia)). pose proof (Z.mod_pos_bound b per ltac:(lia)).
    assert (Lq : a / per ≤ b / per) by (apply Z.div_le_mono; lia).
    destruct (decide (a / per = b / per)) as [E|Ne]; [rewrite E in *; lia|].
    assert (a / per + 1 ≤ b / per) by lia. nia.
  Qed.
  Theorem time_passes n t r s i j x y : per ≤ 86400 * frequency →
    simulate get_batch score_exercise unit_score draw advanced threshold courses n anchor frequency per t = Simulated r s →
    reverse (sim_log s) !! i = Some x → reverse (sim_log s) !! j = Some y → (i < j)%nat → x.2 < y.2.
  Proof using Hper. intros Hf H. destruct (simulate_reported _ _ _ _ H) as (_ & _ & He & _). by apply times_increase. Qed.
End runs.
