(** What the properties of machine sizes speak about. *)
From stdpp Require Import gmap strings list.
From Coq Require Import ZArith.
From Verif Require Import F32 Graph Library Options Filters Batch Search Machine.
Local Open Scope Z_scope.

(** The requests that search the graph, whatever is on the review list. *)
Definition searches (f : option unit_filter) : Prop :=
  match f with
  | Some (FLessons _) | Some FReviewList => False
  | _ => True
  end.
(** The bytes of ten times a batch of candidates. *)
Definition ten_batches (mc : machine) (o : scheduler_options) : Z := 10 * Z.of_nat (batch_size o) * m_bytes mc.
(** The allocator grants requests up to that many bytes. *)
Definition grants (mc : machine) (bytes : Z) : Prop := ∀ n, 0 <= n <= bytes → m_memory mc n = true.
(** The size a preference file can ask for: 2^60. *)
Definition huge : nat := Z.to_nat (2 ^ 60).
