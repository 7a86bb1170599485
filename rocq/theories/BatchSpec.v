(** What the properties of batches speak about. *)
From stdpp Require Import gmap strings list.
From Coq Require Import ZArith Reals.
From Verif Require Import F32 F32Real Graph Options OptionsSpec Batch.

(** ** Random choices *)
(** What is known of the random choices: the set of units is listed in some order, a weighted
    draw with positive weights succeeds and takes elements from distinct positions, a sample
    has distinct members, and a shuffle is a permutation. *)
Record choices_ok (r : choices) : Prop := {
  units_ok : ∀ s, NoDup (r_units r s) ∧ ∀ u, u ∈ r_units r s ↔ u ∈ s;
  draw_ok : ∀ i cs ws n, length ws = length cs → Forall (λ w, flt fzero w = true) ws →
    n ≤ length cs → ∃ sel rest, r_draw r i cs ws n = Some sel ∧ sel ++ rest ≡ₚ cs ∧ length sel = n;
  sample_ok : ∀ s n, NoDup (r_sample r s n) ∧ (∀ u, u ∈ r_sample r s n → u ∈ s) ∧
    length (r_sample r s n) = match n with Some n => Nat.min n (size s) | None => size s end;
  shuffle_ok : ∀ i l, r_shuffle r i l ≡ₚ l }.

(** The units that have edges are listed. *)
Definition edges_ok (g : edges) : Prop :=
  NoDup (ed_units g) ∧ ∀ u, ed_down g u ≠ None ∨ ed_up g u ≠ None → u ∈ ed_units g.

(** ** Knocked-out reviews (C37) *)
(** One step of the traversal: along an edge of positive weight to a unit, or on to the course
    of that unit. *)
Definition edge (nexts : uid → option (list (uid * f32))) (u v : uid) : Prop :=
  ∃ l w, nexts u = Some l ∧ (v, w) ∈ l ∧ feq w fzero = false.
Definition covers_step (g : edges) (u v : uid) : Prop :=
  ∃ x, edge (ed_down g) u x ∧ (v = x ∨ ed_course g x = Some v).
(** In at most seven steps: weights fall to four fifths with each step, and the traversal ends
    below 0.2. *)
Definition covers (g : edges) (u v : uid) : Prop := ∃ n, n ≤ 7 ∧ nsteps (covers_step g) n u v.
(** The number of edges of positive weight from [u] to [v]. *)
Definition edge_count (g : edges) (u v : uid) : nat :=
  length (filter (λ e : uid * f32, e.1 = v ∧ feq e.2 fzero = false) (default [] (ed_down g u))).
(** A lesson or course of the initial candidates. *)
Definition unit_of_batch (batch : list candidate) (u : uid) : Prop :=
  ∃ c, c ∈ batch ∧ (u = lesson_id c ∨ u = course_id c).
(** At least [n] edges to the lesson or the course of [c] start at units covered by the batch;
    an edge counts once for each lesson or course of the batch that leads to it. *)
Definition covered_times (g : edges) (batch : list candidate) (c : candidate) (n : nat) : Prop :=
  ∃ ps : list (uid * uid), NoDup ps ∧
    (∀ s u, (s, u) ∈ ps → unit_of_batch batch s ∧ covers g s u) ∧
    n ≤ sum_list_with (λ p, edge_count g p.2 (lesson_id c) + edge_count g p.2 (course_id c)) ps.
(** Weights of edges are between 0 and 1, as the graph guarantees. *)
Definition weights_ok (g : edges) : Prop :=
  ∀ u l v w, ed_down g u = Some l → (v, w) ∈ l → fle fzero w = true ∧ fle w f_1 = true.
(** The same candidate up to the two weights the knocker fills in. *)
Definition same_candidate (a b : candidate) : Prop :=
  exercise_id a = exercise_id b ∧ lesson_id a = lesson_id b ∧ course_id a = course_id b ∧
  depth a = depth b ∧ exercise_score a = exercise_score b ∧ frequency a = frequency b ∧
  urgency a = urgency b ∧ velocity a = velocity b ∧ dead_end a = dead_end b.

(** What knocking out may do: it keeps the order and invents nothing; whatever it drops has a
    score of at least 4.5 and is covered ten times; whatever it marks has a score of at least
    3.75 and is covered five times. *)
Definition knocked_as_stated (g : edges) (batch : list candidate) (k : knockout) : Prop :=
  (∃ batch', Forall2 same_candidate batch batch' ∧ ko_candidates k `sublist_of` batch' ∧
     ko_highly k `sublist_of` ko_candidates k) ∧
  (∀ c, c ∈ batch → exercise_id c ∉ exercise_id <$> ko_candidates k →
     fge (exercise_score c) f_4_5 = true ∧ covered_times g batch c 10) ∧
  (∀ c, c ∈ ko_highly k → fge (exercise_score c) f_3_75 = true ∧ covered_times g batch c 5).

(** ** The final order (C32) *)
Definition low (o : scheduler_options) (c : candidate) : Prop :=
  fle (exercise_score c) (range_hi (target_window o)) = true.
(** A group is one high-scored candidate, or one to three low-scored ones of one course. *)
Definition low_group (o : scheduler_options) (course : uid) (g : list candidate) : Prop :=
  1 ≤ length g ≤ 3 ∧ Forall (λ c, low o c ∧ course_id c = course) g.
Definition group_ok (o : scheduler_options) (g : list candidate) : Prop :=
  (∃ c, g = [c] ∧ ¬ low o c) ∨ ∃ course, low_group o course g.
(** The output falls into groups, and no course has two groups that could have been filled up. *)
Definition well_grouped (o : scheduler_options) (out : list candidate) : Prop :=
  ∃ groups, mjoin groups = out ∧ Forall (group_ok o) groups ∧
    ∀ i j g h course, groups !! i = Some g → groups !! j = Some h →
      low_group o course g → low_group o course h → length g < 3 → length h < 3 → i = j.

(** ** Histories of the relearn pile (C33) *)
Inductive pile_op :=
  | PScore (e : uid) (s : mastery_score)
  | PBatch (banned : uid → bool).
Definition pile_step (pile : gset uid) (op : pile_op) : gset uid :=
  match op with PScore e s => update_pile pile e s | PBatch banned => clean_pile banned pile end.
Definition pile_after (ops : list pile_op) : gset uid := fold_left pile_step ops ∅.
Definition low_score (s : mastery_score) : Prop := s = One ∨ s = Two.
(** The last score of [e] was low, and no batch since found it blacklisted. *)
Definition due_for_relearning (ops : list pile_op) (e : uid) : Prop :=
  ∃ before after s, ops = before ++ PScore e s :: after ∧ low_score s ∧
    Forall (λ op, match op with PScore e' _ => e' ≠ e | PBatch banned => banned e = false end) after.

(** ** Edges of a unit graph *)
(** What the queries of the graph return, in any order. *)
Definition edges_of (g : graph) (e : edges) : Prop :=
  (∀ u, option_Forall2 Permutation (get_encompasses g u) (ed_down e u)) ∧
  (∀ u, option_Forall2 Permutation (get_encompassed_by g u) (ed_up e u)) ∧
  (∀ u, ed_course e u = get_lesson_course g u) ∧ edges_ok e.

(** ** Batches (C28, C29) *)
(** The largest number of exercises of a batch for a batch size [b]: every window gets its
    share but at least one, and the relearn pile adds its own share. *)
Definition window_total (b : nat) (ws : list window) : nat :=
  sum_list_with (λ w, default 0 (window_count b w)) ws.
(** Shares are finite, so that they can be counted. *)
Definition finite_shares (b : nat) (o : scheduler_options) (rate : f32) : Prop :=
  Forall (λ w, window_count b w ≠ None) (windows (adjusted_mastery_windows o rate)).
