(** What it means that an exercise can come up in the next batch (C103). *)
From stdpp Require Import gmap strings list.
From Coq Require Import ZArith.
From Verif Require Import F32 Graph Library Filters Options OptionsSpec Batch BatchSpec ChanceSpec Search SearchSpec Practice Session SessionSpec.

(** The same request with another random draw. *)
Definition drawn (q : request) (draw : nat → list candidate → list f32 → nat → option (list candidate)) : request :=
  Request (q_filter q) (q_time q) (q_checks q) (q_libm q) (with_draw (q_choices q) draw) (q_edges q) (q_orders q) (q_saved q) (q_asked q).
(** With some draw the request gives a batch with the exercise. *)
Definition can_come_up (s : setting) (fuel : nat) (now : Z) (z : session) (q : request) (e : uid) : Prop :=
  ∃ draw n, request_ok (lib_graph (g_lib s)) (drawn q draw) ∧ ∀ search, n ≤ search → ∃ z' es,
    session_step s fuel search now z (ZBatch (drawn q draw)) = Some (z', EBatch (p_banned (z_practice z)) es) ∧ e ∈ em_id <$> es.
(** The average of the lesson is below the passing score, in whatever order its scores are added up. *)
Definition fails (env : senv) (l : uid) : Prop :=
  ∀ x, SearchSpec.lesson_score env l x → flt x (min_score (passing_score (s_options env))) = true.
