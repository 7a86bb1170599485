(** What the theorems about whole lifetimes are stated with. *)
From stdpp Require Import gmap strings list.
From Coq Require Import ZArith.
From Verif Require ScorerSpec.
From Verif Require Import F32 Graph Library Filters Options Batch BatchSpec Search SearchSpec Facade UnitScorer Practice AskSpec Session.

(** What happened since the library was last opened. *)
Definition since_opening (evs : list event) : list event :=
  fold_left (λ acc ev, match ev with EOpened => [] | _ => acc ++ [ev] end) evs [].
(** The scores that were stored, and how many of them are at least 3. *)
Definition grades (evs : list event) : list mastery_score := omap (λ ev, match ev with EGraded _ sc => Some sc | _ => None end) evs.
Definition success (sc : mastery_score) : bool := match sc with One | Two => false | _ => true end.
Definition successes (gs : list mastery_score) : nat := length (List.filter success gs).
(** The exercises that were offered, with repetitions. *)
Definition offered (evs : list event) : list uid := mbind (λ ev, match ev with EBatch _ es => em_id <$> es | _ => [] end) evs.
Definition times (e : uid) (l : list uid) : nat := length (filter (λ x, x = e) l).

(** The exercise, its lesson and its course are not on the blacklist. *)
Definition free (g : graph) (banned : gset uid) (e : uid) : Prop :=
  e ∉ banned ∧ ∀ l, get_exercise_lesson g e = Some l → l ∉ banned ∧ ∀ c, get_lesson_course g l = Some c → c ∉ banned.
(** The last stored score of [e] is a 1 or a 2, and [e] was not found blacklisted since by a request
    for a batch. *)
Definition to_relearn (g : graph) (evs : list event) (e : uid) : Prop :=
  ∃ before after sc, evs = before ++ EGraded e sc :: after ∧ low_score sc ∧
    Forall (λ ev, match ev with
                  | EGraded e' _ => e' ≠ e
                  | EBatch banned _ | EFailed banned => free g banned e
                  | _ => True
                  end) after.

(** Calls as a program that shows exercises of the library makes them: what is scored is an
    exercise of the library, and times are those of the next hundred billion years, also those of
    trials that are recorded directly. *)
Definition sane_time (t : Z) : Prop := (Z.abs t < 4611686018427387904)%Z.
Definition sane_op (g : graph) (op : session_op) : Prop :=
  match op with
  | ZCall (CScore _ e _ ts) => get_unit_type g e = Some Exercise ∧ sane_time ts
  | ZMaintain (MRecordScores _ es) => Forall (λ x, sane_time (Stores.e_ts x)) es
  | _ => True
  end.
(** Values that are recorded directly are in the ranges of those that scoring an exercise records:
    grades from 1 to 5, differences of two scores, rewards from -1 to 1 with weights up to 1. *)
Definition proper_op (op : session_op) : Prop :=
  match op with
  | ZMaintain (MRecordScores _ es) => Forall (λ x, ScorerSpec.between f_1 (Stores.e_val x) f_5) es
  | ZMaintain (MRecordDeltas _ es) => Forall (λ x, ScorerSpec.between (fneg f_5) (Stores.e_val x) f_5) es
  | ZMaintain (MRecordRewards _ _ es) =>
      Forall (λ x, ScorerSpec.between (fneg f_1) (Stores.e_val x).1 f_1 ∧ ScorerSpec.between fzero (Stores.e_val x).2 f_1) es
  | _ => True
  end.
Definition proper (t : timed) : Prop := proper_op (t_op t).
Definition sane (g : graph) (t : timed) : Prop := sane_time (t_now t) ∧ sane_op g (t_op t).
Definition never_banned (u : uid) (op : session_op) : Prop :=
  match op with ZCall (CBan _ u') => u' ≠ u | _ => True end.

(** What is known of the choices, orders and edges of a request. *)
Definition request_ok (g : graph) (q : request) : Prop :=
  choices_ok (q_choices q) ∧ (∀ i, orders_ok (q_orders q i)) ∧ edges_of g (q_edges q).
(** The filter that a request stands for: its own, or that of the part of the study session. *)
Definition stands_for (q : request) (uf : option unit_filter) : Prop :=
  match q_filter q with
  | None => uf = None
  | Some (EUnit f) => uf = Some f
  | Some (ESession s) =>
      ∃ p, get_part (q_checks q) s (q_time q) = Some p ∧
        match p with
        | PNone _ => uf = None
        | PUnit f _ => uf = Some f
        | PSaved id _ => ∃ f, q_saved q id = Some f ∧ uf = Some f
        end
  end.
(** The preferred batch size when the library was last opened. *)
Definition last_opening (preferred : option nat) (ops : list timed) : option nat :=
  fold_left (λ p t, match t_op t with ZReopen p' => p' | _ => p end) ops preferred.
Definition batch_size_of (preferred : option nat) : nat := batch_size (create_scheduler_options preferred).
(** An answer, or an error that is reported: neither a panic nor a call that does not return. *)
Definition settled_outcome {A} (r : outcome A) : Prop := r ≠ Panic ∧ r ≠ UnitScorer.NoFuel.
Definition settled (a : answer) : Prop :=
  match a with
  | OfScore r | OfTrials r => settled_outcome r
  | OfSuperseded r => settled_outcome r
  | OfExercise r => settled_outcome r
  end.
(** Everything in the review list is a unit of the library. *)
Definition review_in (g : graph) (l : list uid) : Prop := ∀ u, u ∈ l → is_Some (get_unit_type g u).

(** ** What each call is about *)
(** What is stored, and the options. *)
Inductive part := InTrials | InDeltas | InRewards | InBlacklist | InReview | InOptions.
Definition concerns (op : session_op) (x : part) : bool :=
  match op, x with
  | ZCall (CScore _ _ _ _), (InTrials | InDeltas | InRewards) => true
  | ZCall (CBan _ _ | CUnban _ _ | CUnbanPrefix _), InBlacklist => true
  | ZCall (CRemoveScores _), InTrials => true
  | ZMaintain (MRecordScores _ _ | MTrimScores _ _ _ | MRemoveScores _ _), InTrials => true
  | ZMaintain (MRecordDeltas _ _ | MTrimDeltas _ _ _ | MRemoveDeltas _ _), InDeltas => true
  | ZMaintain (MRecordRewards _ _ _ | MTrimRewards _ _ _ | MRemoveRewards _ _), InRewards => true
  | ZReview _, InReview => true
  | (ZOptions _ | ZReopen _), InOptions => true
  | _, _ => false
  end.
Definition same_part (x : part) (z z' : session) : Prop :=
  match x with
  | InTrials => p_trials (z_practice z') = p_trials (z_practice z)
  | InDeltas => p_deltas (z_practice z') = p_deltas (z_practice z)
  | InRewards => Stores.rs_table (p_rewards (z_practice z')) = Stores.rs_table (p_rewards (z_practice z))
  | InBlacklist => p_banned (z_practice z') = p_banned (z_practice z)
  | InReview => z_review z' = z_review z
  | InOptions => z_copies z' = z_copies z
  end.
(** The last call about [u] and the blacklist that did not fail put [u] there. *)
Definition bans (u : uid) (t : timed) : Prop := t_op t = ZCall (CBan false u).
Definition unbans (u : uid) (t : timed) : Prop :=
  t_op t = ZCall (CUnban false u) ∨ ∃ pre, t_op t = ZCall (CUnbanPrefix pre) ∧ Sql.like_prefix pre u = true.
Definition blacklisted_by (ops : list timed) (u : uid) : Prop :=
  ∃ before t after, ops = before ++ t :: after ∧ bans u t ∧ Forall (λ t', ¬ unbans u t') after.
(** The last call about [u] and the review list put [u] there. *)
Definition reviewed_by (ops : list timed) (u : uid) : Prop :=
  ∃ before t after, ops = before ++ t :: after ∧ t_op t = ZReview (Stores.VAdd u) ∧ Forall (λ t', t_op t' ≠ ZReview (Stores.VRemove u)) after.
(** The options that were set last since the library was opened, or those of the preferences. *)
Definition options_by (preferred : option nat) (ops : list timed) : scheduler_options :=
  fold_left (λ o t, match t_op t with
                    | ZReopen p => create_scheduler_options p
                    | ZOptions (SetOptions o') => o'
                    | ZOptions ResetOptions => default_options
                    | _ => o
                    end) ops (create_scheduler_options preferred).
