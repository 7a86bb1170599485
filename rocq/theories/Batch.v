(** Model of what happens to the candidates of a search: src/scheduler/review_knocker.rs,
    src/scheduler/filter.rs, src/scheduler/relearn_pile.rs, src/scheduler/shuffler.rs and
    the end of [DepthFirstScheduler::get_exercise_batch] in src/scheduler.rs.

    Random choices, hash orders and the functions of the C math library are given by the
    caller. *)
From stdpp Require Import gmap strings list sorting.
From Verif Require Import F32 Graph Library Options.
Local Open Scope bool_scope.

(** [Candidate] (src/scheduler.rs:121-159). *)
Record candidate := Candidate {
  exercise_id : uid;
  lesson_id : uid;
  course_id : uid;
  depth : f32;
  exercise_score : f32;
  frequency : nat;
  urgency : f32;
  velocity : option f32;
  dead_end : bool;
  encompasses_weight : f32;
  encompassed_weight : f32 }.

(** [Candidate { exercise_id, ..Default::default() }]. *)
Definition bare_candidate (e : uid) : candidate :=
  Candidate e "" "" fzero fzero 0 fzero None false fzero fzero.

(** ** Review knocker *)

(** [RewardPropagator::stop_propagation] (src/scheduler/reward_propagator.rs:84-86), with
    [MIN_ABS_REWARD] and [MIN_WEIGHT] (42-45). *)
Definition stop_propagation (reward weight : f32) : bool :=
  flt (fabs reward) f_0_2 || flt weight f_0_2.

(** [WeightQueueItem] (src/scheduler/review_knocker.rs:43-53). *)
Record witem := WItem { wi_unit : uid; wi_reward : f32; wi_weight : f32 }.

(** An addition to the weight of a unit: from, to, weight of the edge. *)
Definition contribution : Type := uid * uid * f32.

Section walk.
  (** [get_encompasses] or [get_encompassed_by], and [get_lesson_course]. *)
  Context (nexts : uid → option (list (uid * f32))) (course_of : uid → option uid).

  (** src/scheduler/review_knocker.rs:115-120: edges that are followed. *)
  Definition live_edge (reward weight : f32) (e : uid * f32) : bool :=
    negb (feq e.2 fzero || stop_propagation reward weight).
  (** src/scheduler/review_knocker.rs:125-136: what is pushed for one edge, in this order. *)
  Definition edge_pushes (reward weight : f32) (e : uid * f32) : list witem :=
    let r := fmul reward f_0_9 in
    let w := fmul (fmul e.2 weight) f_0_8 in
    WItem e.1 r w :: match course_of e.1 with Some c => [WItem c r w] | None => [] end.

  (** src/scheduler/review_knocker.rs:94-139: the traversal from one unit. The code adds to the
      weight map as it goes; here the additions are returned in the order in which they are
      made. [None]: out of fuel. *)
  Fixpoint walk (fuel : nat) (stack : list witem) (visited : gset uid) : option (list contribution) :=
    match fuel with
    | 0 => None
    | S fuel =>
        match stack with
        | [] => Some []
        | it :: stack =>
            if bool_decide (wi_unit it ∈ visited) then walk fuel stack visited
            else
              let live := List.filter (live_edge (wi_reward it) (wi_weight it))
                            (default [] (nexts (wi_unit it))) in
              let pushed := rev (mjoin (edge_pushes (wi_reward it) (wi_weight it) <$> live)) in
              out ← walk fuel (pushed ++ stack) ({[wi_unit it]} ∪ visited);
              Some (((λ e, (wi_unit it, e.1, e.2)) <$> live) ++ out)
        end
    end.

  (** Iterations that suffice: [units] has to contain every unit with edges
      (lemma [walk_enough]). *)
  Definition walk_fuel (units : list uid) : nat :=
    3 + 2 * sum_list_with (λ u, length (default [] (nexts u))) units.

  (** src/scheduler/review_knocker.rs:83-92: all traversals; [starts] is the set of lessons and
      courses of the candidates in some order. *)
  Fixpoint walk_all (fuel : nat) (starts : list uid) : option (list contribution) :=
    match starts with
    | [] => Some []
    | u :: starts =>
        a ← walk fuel [WItem u f_1 f_1] ∅;
        b ← walk_all fuel starts;
        Some (a ++ b)
    end.
End walk.

(** [*entry += next_unit_weight], starting from [or_insert(0.0)]
    (src/scheduler/review_knocker.rs:123-124). *)
Definition add_contribution (m : gmap uid f32) (c : contribution) : gmap uid f32 :=
  <[c.1.2 := fadd (default fzero (m !! c.1.2)) c.2]> m.
Definition weight_map (cs : list contribution) : gmap uid f32 := fold_left add_contribution cs ∅.

(** src/scheduler/review_knocker.rs:142-156: the weight of a candidate's exercise, and the map
    from exercises to weights. *)
Definition exercise_weight (m : gmap uid f32) (c : candidate) : f32 :=
  fadd (default fzero (m !! lesson_id c)) (default fzero (m !! course_id c)).
Definition exercise_weights (m : gmap uid f32) (batch : list candidate) : gmap uid f32 :=
  fold_left (λ w c, <[exercise_id c := exercise_weight m c]> w) batch ∅.

(** src/scheduler/review_knocker.rs:16-29: the two categories. *)
Definition very_highly (w : f32) (c : candidate) : bool := fge w f_10 && fge (exercise_score c) f_4_5.
Definition highly (w : f32) (c : candidate) : bool := fge w f_5 && fge (exercise_score c) f_3_75.

(** [remove_very_highly_encompassed] (src/scheduler/review_knocker.rs:159-174). *)
Definition remove_very_highly (wm : gmap uid f32) (cs : list candidate) : list candidate :=
  List.filter (λ c, negb (very_highly (default fzero (wm !! exercise_id c)) c)) cs.
(** [get_highly_encompassed] (src/scheduler/review_knocker.rs:176-193). *)
Definition get_highly (wm : gmap uid f32) (cs : list candidate) : list candidate :=
  List.filter (λ c, match wm !! exercise_id c with
                    | Some w => negb (very_highly w c) && highly w c
                    | None => false
                    end) cs.

(** src/scheduler/review_knocker.rs:204-213. *)
Definition set_weights (over under : gmap uid f32) (c : candidate) : candidate :=
  Candidate (exercise_id c) (lesson_id c) (course_id c) (depth c) (exercise_score c) (frequency c)
    (urgency c) (velocity c) (dead_end c)
    (default fzero (over !! exercise_id c)) (default fzero (under !! exercise_id c)).

(** [KnockoutResult] (src/scheduler/review_knocker.rs:31-41). *)
Record knockout := Knockout { ko_candidates : list candidate; ko_highly : list candidate }.

(** The unit graph as the knocker sees it: edges in both directions in some order. *)
Record edges := Edges {
  ed_down : uid → option (list (uid * f32));
  ed_up : uid → option (list (uid * f32));
  ed_course : uid → option uid;
  ed_units : list uid }.

(** The set of lessons and courses of the candidates, in the order [ord] gives it
    (src/scheduler/review_knocker.rs:78-81). *)
Definition batch_units (ord : gset uid → list uid) (cs : list candidate) : list uid :=
  ord (list_to_set (mjoin ((λ c, [lesson_id c; course_id c]) <$> cs))).

(** [knock_out_reviews] (src/scheduler/review_knocker.rs:195-225). *)
Definition knock_out_reviews (g : edges) (ord : gset uid → list uid) (batch : list candidate) : option knockout :=
  let starts := batch_units ord batch in
  down ← walk_all (ed_down g) (ed_course g) (walk_fuel (ed_down g) (ed_units g)) starts;
  up ← walk_all (ed_up g) (ed_course g) (walk_fuel (ed_up g) (ed_units g)) starts;
  let under := exercise_weights (weight_map down) batch in
  let over := exercise_weights (weight_map up) batch in
  let batch := set_weights over under <$> batch in
  let kept := remove_very_highly under batch in
  Some (Knockout kept (get_highly under kept)).

(** ** Candidate filter *)

(** [f32::ln_1p], [f32::exp] and [f32::sqrt]. *)
Record libm := Libm { m_ln_1p : f32 → f32; m_exp : f32 → f32; m_sqrt : f32 → f32 }.

Definition f_0_6 : f32 := lit false 10066330 (-24) eq_refl.
Definition f_100 : f32 := lit false 13107200 (-17) eq_refl.

(** [candidate_cost] (src/scheduler/filter.rs:105-128). *)
Definition candidate_cost (m : libm) (c : candidate) : f32 :=
  let x := fsub fzero (fmul f_0_7 (m_ln_1p m (depth c))) in
  let x := fsub x (fmul f_0_9 (m_ln_1p m (encompasses_weight c))) in
  let x := fadd x (fmul f_0_6 (m_ln_1p m (encompassed_weight c))) in
  let x := fadd x (fmul f_2 (m_ln_1p m (f_of_nat (frequency c)))) in
  let x := if dead_end c then fsub x f_1 else x in
  let x := match velocity c with
           | None => x
           | Some v =>
               let x := fadd x (fmul f_0_5 (fneg (m_ln_1p m v))) in
               if flt (fabs v) f_0_2 then
                 if fge (exercise_score c) f_4 then fadd x f_1 else fsub x f_0_7
               else x
           end in
  fclamp (m_exp m x) f_0_05 f_100.

(** [candidate_weight] (src/scheduler/filter.rs:134-137). *)
Definition candidate_weight (m : libm) (c : candidate) : f32 :=
  fmax (fdiv (urgency c) (m_sqrt m (candidate_cost m c))) f_0_05.

(** Random choices of one call of [get_exercise_batch]. [r_draw i cs ws n] is the i-th call of
    [sample_weighted] ([None] is an error, which is unwrapped); [r_sample] is
    [Iterator::sample] on the relearn pile; [r_shuffle i] shuffles the i-th chunk and [r_key i]
    is the sort key of the i-th group. *)
Record choices := Choices {
  r_units : gset uid → list uid;
  r_draw : nat → list candidate → list f32 → nat → option (list candidate);
  r_sample : gset uid → option nat → list uid;
  r_shuffle : nat → list candidate → list candidate;
  r_key : nat → f32 }.

(** [candidates_in_window] (src/scheduler/filter.rs:78-90). *)
Definition candidates_in_window (cs : list candidate) (encompassed : gset uid) (w : window) : list candidate :=
  List.filter (λ c, negb (bool_decide (exercise_id c ∈ encompassed)))
    (List.filter (λ c, in_window w (exercise_score c)) cs).

Section filter.
  Context (m : libm) (r : choices).

  (** [select_candidates] (src/scheduler/filter.rs:144-172): the [i]-th draw. [n = None] stands
      for the largest number. The result is the selection and the remainder; [None] is a
      panic. *)
  Definition select_candidates (i : nat) (cs : list candidate) (n : option nat) :
      option (list candidate * list candidate) :=
    match n with
    | Some n =>
        if Nat.leb (length cs) n then Some (cs, [])
        else
          sel ← r_draw r i cs (candidate_weight m <$> cs) n;
          let ids : gset uid := list_to_set (exercise_id <$> sel) in
          Some (sel, List.filter (λ c, negb (bool_decide (exercise_id c ∈ ids))) cs)
    | None => Some (cs, [])
    end.

  (** [add_remainder] (src/scheduler/filter.rs:176-196). *)
  Definition add_remainder (i : nat) (b : nat) (final rest : list candidate) (max_added : option nat) :
      option (list candidate) :=
    if Nat.leb (b * 3 / 4) (length final) then Some final
    else
      let room := b - length final in
      let n := match max_added with None => room | Some k => Nat.min room k end in
      '(sel, _) ← select_candidates i rest (Some n);
      Some (final ++ sel).
End filter.

(** [dynamic_batch_size] (src/scheduler/filter.rs:200-213). *)
Definition dynamic_batch_size (b n : nat) : nat :=
  if Nat.ltb b 10 then b
  else if Nat.ltb n (b * 3) then Nat.max (n / 3) 10
  else b.

Definition f_m0_05 : f32 := lit true 13421773 (-28) eq_refl.
Definition f_m0_1 : f32 := lit true 13421773 (-27) eq_refl.

(** src/scheduler/filter.rs:222-231: the shift for a success rate; [None] is no adjustment. *)
Definition window_shift (rate : f32) : option f32 :=
  if fgt rate f_0_9 then Some f_0_05
  else if fle f_0_75 rate && fle rate f_0_9 then None
  else if fle f_0_5 rate && flt rate f_0_75 then Some f_m0_05
  else Some f_m0_1.
Definition set_percentage (p : f32) (w : window) : window := Window p (range_lo w) (range_hi w).
Definition clamp_percentage (p : f32) : f32 := fclamp p f_0_05 f_0_5.
(** [adjusted_mastery_windows] (src/scheduler/filter.rs:217-254). *)
Definition adjusted_mastery_windows (o : scheduler_options) (rate : f32) : scheduler_options :=
  match window_shift rate with
  | None => o
  | Some shift =>
      let n := clamp_percentage (fadd (percentage (new_window o)) shift) in
      let t := clamp_percentage (fadd (percentage (target_window o)) shift) in
      let e := clamp_percentage (fsub (percentage (easy_window o)) shift) in
      let a := clamp_percentage (fsub (percentage (mastered_window o)) shift) in
      let sum := fadd (fadd (fadd n t) e) a in
      {| batch_size := batch_size o;
         relearn_fraction := relearn_fraction o;
         new_window := set_percentage n (new_window o);
         target_window := set_percentage t (target_window o);
         current_window := set_percentage (fmax (fsub f_1 sum) f_0_05) (current_window o);
         easy_window := set_percentage e (easy_window o);
         mastered_window := set_percentage a (mastered_window o);
         passing_score := passing_score o;
         superseding_score := superseding_score o;
         num_trials := num_trials o;
         num_deltas := num_deltas o;
         num_rewards := num_rewards o;
         max_lessons_in_progress := max_lessons_in_progress o |}
  end.

(** [(batch_size_float * percentage).max(1.0) as usize] (src/scheduler/filter.rs:286-317). *)
Definition window_count (b : nat) (w : window) : option nat :=
  f_to_usize (fmax (fmul (f_of_nat b) (percentage w)) f_1).

(** [filter_candidates] (src/scheduler/filter.rs:258-340). *)
Definition filter_candidates (m : libm) (r : choices) (opts : scheduler_options) (rate : f32) (k : knockout) :
    option (list candidate) :=
  let cs := ko_candidates k in
  let o := adjusted_mastery_windows opts rate in
  let b := dynamic_batch_size (batch_size o) (length cs) in
  let enc : gset uid := list_to_set (exercise_id <$> ko_highly k) in
  let mastered := candidates_in_window cs enc (mastered_window o) ++ ko_highly k in
  let easy := candidates_in_window cs enc (easy_window o) in
  let current := candidates_in_window cs enc (current_window o) in
  let target := candidates_in_window cs enc (target_window o) in
  let new := candidates_in_window cs enc (new_window o) in
  '(mastered_sel, mastered_rem) ← select_candidates m r 0 mastered (window_count b (mastered_window o));
  '(easy_sel, easy_rem) ← select_candidates m r 1 easy (window_count b (easy_window o));
  '(current_sel, current_rem) ← select_candidates m r 2 current (window_count b (current_window o));
  '(target_sel, target_rem) ← select_candidates m r 3 target (window_count b (target_window o));
  '(new_sel, new_rem) ← select_candidates m r 4 new (window_count b (new_window o));
  let final := mastered_sel ++ easy_sel ++ current_sel ++ target_sel ++ new_sel in
  let base := Nat.max (b / 10) 1 in
  final ← add_remainder m r 5 b final current_rem None;
  final ← add_remainder m r 6 b final new_rem (Some (5 * base));
  final ← add_remainder m r 7 b final target_rem (Some (3 * base));
  final ← add_remainder m r 8 b final easy_rem None;
  add_remainder m r 9 b final mastered_rem None.

(** ** Relearn pile *)

(** [RelearnPile::update] (src/scheduler/relearn_pile.rs:33-41). *)
Definition update_pile (pile : gset uid) (e : uid) (s : mastery_score) : gset uid :=
  match s with
  | One | Two => {[e]} ∪ pile
  | Three | Four | Five => pile ∖ {[e]}
  end.
(** src/scheduler/relearn_pile.rs:61-64: [retain]; [banned e] is
    [inside_blacklisted(e).unwrap_or(false)]. *)
Definition clean_pile (banned : uid → bool) (pile : gset uid) : gset uid :=
  filter (λ e, banned e = false) pile.
(** src/scheduler/relearn_pile.rs:46: the number of exercises to add. *)
Definition relearn_count (o : scheduler_options) : option nat :=
  f_to_usize (fmul (f_of_nat (batch_size o)) (relearn_fraction o)).
(** [select_exercises] (src/scheduler/relearn_pile.rs:43-59) on a cleaned pile. *)
Definition select_exercises (r : choices) (o : scheduler_options) (pile : gset uid) : list candidate :=
  bare_candidate <$> r_sample r pile (relearn_count o).

(** ** Shuffler *)

(** [sort_by_key] on the course (src/scheduler/shuffler.rs:58). *)
Definition course_le (a b : candidate) : Prop := uid_le (course_id a) (course_id b).
Global Instance course_le_dec : RelDecision course_le.
Proof. intros a b. unfold course_le. apply _. Defined.

(** [chunk_by] on the course (src/scheduler/shuffler.rs:60). *)
Fixpoint chunk_by_course (cs : list candidate) : list (list candidate) :=
  match cs with
  | [] => []
  | c :: cs =>
      match chunk_by_course cs with
      | (d :: g) :: gs => if bool_decide (course_id c = course_id d) then (c :: d :: g) :: gs else [c] :: (d :: g) :: gs
      | gs => [c] :: gs
      end
  end.
(** [chunks(MAX_GROUP_SIZE)] (src/scheduler/shuffler.rs:65). *)
Fixpoint chunks3 (cs : list candidate) : list (list candidate) :=
  match cs with
  | a :: b :: c :: cs => [a; b; c] :: chunks3 cs
  | [] => []
  | cs => [cs]
  end.

Definition keyed : Type := f32 * list candidate.
(** [sort_by] on the keys (src/scheduler/shuffler.rs:81). The keys come from a range, so they
    are never NaN. *)
Definition key_le (a b : keyed) : Prop := fle a.1 b.1 = true.
Global Instance key_le_dec : RelDecision key_le.
Proof. intros a b. unfold key_le. apply _. Defined.

(** src/scheduler/shuffler.rs:51-76: the groups before they are sorted. *)
Definition shuffle_groups (r : choices) (o : scheduler_options) (cs : list candidate) : list (list candidate) :=
  let threshold := range_hi (target_window o) in
  let low := List.filter (λ c, fle (exercise_score c) threshold) cs in
  let high := List.filter (λ c, negb (fle (exercise_score c) threshold)) cs in
  let chunks := chunk_by_course (merge_sort course_le low) in
  mjoin (imap (λ i ch, chunks3 (r_shuffle r i ch)) chunks) ++ ((λ c, [c]) <$> high).
(** [shuffle_candidates] (src/scheduler/shuffler.rs:42-83). *)
Definition shuffle_candidates (r : choices) (o : scheduler_options) (cs : list candidate) : list candidate :=
  mjoin (merge_sort key_le (imap (λ i g, (r_key r i, g)) (shuffle_groups r o cs))).*2.

(** ** From the candidates of a search to the batch *)

(** The copies of the options held by the parts of the scheduler (src/scheduler.rs:190-205). *)
Record option_copies := OptionCopies {
  oc_filter : scheduler_options;
  oc_relearn : scheduler_options;
  oc_data : scheduler_options }.

(** src/scheduler.rs:1058-1084: the candidates of the batch. [None] is a panic. *)
Definition finish_candidates (m : libm) (r : choices) (g : edges) (o : option_copies) (rate : f32)
    (pile : gset uid) (initial : list candidate) : option (list candidate) :=
  k ← knock_out_reviews g (r_units r) initial;
  filtered ← filter_candidates m r (oc_filter o) rate k;
  let ids := exercise_id <$> filtered in
  let relearn := List.filter (λ c, negb (bool_decide (exercise_id c ∈ ids))) (select_exercises r (oc_relearn o) pile) in
  Some (shuffle_candidates r (oc_data o) (filtered ++ relearn)).
