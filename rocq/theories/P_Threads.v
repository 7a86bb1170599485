(** Property C86: scores that are given and asked by several threads at once. The steps of the
    calls are in Threads.v, the words in ThreadsSpec.v. *)
From stdpp Require Import gmap strings list relations.
From Coq Require Import ZArith.
From Verif Require Import F32 Graph Library Stores StoresSpec SearchSpec UnitScorer PracticeSpec PracticeSample Threads ThreadsSpec ThreadsProofs ThreadsMore ThreadsSample.

(** C86: calls that are made at once have the effect of calls that are made one after the other.
    This is false. A question about an exercise that overlaps a score of it can leave the old score
    in the cache, where it is shown from then on, which no order of the two calls does; *)
Theorem C86_stale_refuted : ∀ powf, ∃ lib, opened lib ∧ let s := setting_of powf lib in
  ∃ rs p out e, at_once s 1 new_practice rs p out ∧ Broken ∉ out ∧ shown s 0 p e ≠ fresh s 0 p e ∧
    ∀ rs' p', rs' ≡ₚ rs → in_turn s 1 new_practice rs' p' → shown s 0 p' e = fresh s 0 p' e.
Proof. exact some_stale. Qed.
Print Assumptions C86_stale_refuted.
(** and of two scores that overlap, both accepted, the delta that every order would store can be
    missing. *)
Theorem C86_delta_refuted : ∀ powf, ∃ lib, opened lib ∧ let s := setting_of powf lib in
  ∃ rs p out, at_once s 1 new_practice rs p out ∧ Forall (λ o, o = Accepted true) out ∧
    ∀ rs' p', rs' ≡ₚ rs → in_turn s 1 new_practice rs' p' → p_deltas p' ≠ p_deltas p.
Proof. exact some_lost_delta. Qed.
Print Assumptions C86_delta_refuted.

(** What holds for all threads and all schedules: no trial is lost. The trials that are stored are
    those of the accepted scores, and possibly of scores that were reported to have failed, each
    once, written in some order. *)
Theorem C86_trials_partial : ∀ s fuel p rs p' out, at_once s fuel p rs p' out →
  ∃ es, accepted rs out ⊆+ es ∧ es ⊆+ given rs ∧ insert_entries bind_f32 (p_trials p) es = Some (p_trials p').
Proof. exact no_trial_lost. Qed.
Print Assumptions C86_trials_partial.
Example C86_nonvacuous : ∀ powf, ∃ lib rs p out, opened lib ∧ at_once (setting_of powf lib) 1 new_practice rs p out ∧ length (accepted rs out) = 2.
Proof. exact two_accepted. Qed.

(** Threads that only ask get the answers that each of them would get alone, and leave nothing
    behind that changes later answers. *)
Theorem C86_asking_partial : ∀ s now p fuel es p' out, at_once s fuel p (Ask now <$> es) p' out →
  out = (λ e, Answer (shown s now p e)) <$> es ∧ (∀ e, shown s now p' e = shown s now p e) ∧
  p_trials p' = p_trials p ∧ p_deltas p' = p_deltas p ∧ p_rewards p' = p_rewards p.
Proof. exact only_asking. Qed.
Print Assumptions C86_asking_partial.

(** Without overlap nothing goes wrong: what calls do one after the other they can also do in
    threads, and a single call does the same as the call of the other properties. *)
Theorem C86_in_turn : ∀ s fuel rs p p', in_turn s (S fuel) p rs p' → ∃ out, at_once s (S fuel) p rs p' out ∧ Broken ∉ out.
Proof. exact in_turn_at_once. Qed.
Print Assumptions C86_in_turn.
Theorem C86_alone_ask : ∀ s fuel now e p p' o, at_once s fuel p [Ask now e] p' [o] ↔
  o = Answer (shown s now p e) ∧ in_turn s fuel p [Ask now e] p'.
Proof. exact alone_ask. Qed.
Print Assumptions C86_alone_ask.
Theorem C86_alone_give : ∀ s fuel now f e sc ts p p' ok, at_once s (S fuel) p [Give now f e sc ts] p' [Accepted ok] ↔
  score_call s (S fuel) now f e sc ts p = Some (p', ok).
Proof. exact alone_give. Qed.
Print Assumptions C86_alone_give.
