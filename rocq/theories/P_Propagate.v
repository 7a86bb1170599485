(** Properties of the rewards that a score sends through the graph: C34 and C59.
    The vocabulary is in PropagateSpec.v. *)
From stdpp Require Import gmap strings list.
From Coq Require Import ZArith.
From Verif Require Import F32 Graph GraphSpec Stores Options ScorerSpec PropagateSpec PropagateMore PropagateSample PropagateHome.

(** C34: for every graph, cycles included, every score and every order of the neighbours, the
    propagation ends, and more fuel changes nothing. *)
Theorem C34_ends : ∀ ops ord, any_order ord → ∀ s e ts,
  ∃ n r, ∀ fuel, n ≤ fuel → propagate_rewards (grun ops) ord fuel e s ts = Some r.
Proof. exact propagate_returns. Qed.
Print Assumptions C34_ends.

(** C34: each unit has at most one reward, under its own name and with the given time. It was
    brought by a path of at most eight units from the lesson or the course of the exercise, has
    the sign of the initial reward, and stays between the thresholds and the initial reward. *)
Theorem C34_bounded : ∀ ops ord, any_order ord → ∀ s e ts fuel r u x,
  propagate_rewards (grun ops) ord fuel e s ts = Some r → r !! u = Some x →
  e_unit x = u ∧ e_ts x = ts ∧
  (∃ l c n, home (grun ops) e l c ∧ n ≤ 8 ∧ carried (grun ops) s l c n u (e_val x).1 (e_val x).2) ∧
  fgt (e_val x).1 fzero = good_score s ∧
  between f_0_2 (fabs (e_val x).1) (fabs (documented_reward s)) ∧ between f_0_2 (e_val x).2 f_1.
Proof. exact home_ok. Qed.
Print Assumptions C34_bounded.

(** C34: nothing strong enough is left out: what the roots send, and what a recorded reward
    sends on, is recorded with at least that absolute value. *)
Theorem C34_complete : ∀ ops ord, any_order ord → ∀ s e ts l c fuel r,
  home (grun ops) e l c → l ≠ ""%string → c ≠ ""%string →
  propagate_rewards (grun ops) ord fuel e s ts = Some r →
  (∀ root u w, root = l ∨ root = c → leads (grun ops) s root u w → strong (fmul w (documented_reward s)) w →
    ∃ x, r !! u = Some x ∧ fle (fabs (fmul w (documented_reward s))) (fabs (e_val x).1) = true) ∧
  (∀ u x u' w, r !! u = Some x → leads (grun ops) s u u' w →
    strong (fmul (fmul w f_0_9) (e_val x).1) (fmul (fmul w f_0_8) (e_val x).2) →
    ∃ x', r !! u' = Some x' ∧ fle (fabs (fmul (fmul w f_0_9) (e_val x).1)) (fabs (e_val x').1) = true).
Proof. exact home_closed. Qed.
Print Assumptions C34_complete.

(** C34: an exercise without a known lesson or course rewards nobody. *)
Theorem C34_unknown : ∀ ops ord s e ts fuel r, propagate_rewards (grun ops) ord fuel e s ts = Some r →
  (∀ l c, home (grun ops) e l c → l = ""%string ∨ c = ""%string) → r = ∅.
Proof. exact homeless. Qed.
Print Assumptions C34_unknown.

(** C34: where every edge weighs 1, which is so whenever encompassing equals dependency, the
    rewarded units are those near enough, and the distance alone decides the reward. *)
Theorem C34_distance : ∀ ops ord, any_order ord → ∀ s e ts l c,
  home (grun ops) e l c → l ≠ ""%string → c ≠ ""%string →
  (∀ u v w, leads (grun ops) s u v w → w = f_1) → ∀ fuel r,
  propagate_rewards (grun ops) ord fuel e s ts = Some r → ∀ u x,
  r !! u = Some x ↔ ∃ n, distance (grun ops) s l c n u ∧ strong (fade s n).1 (fade s n).2 ∧ x = Entry u (fade s n) ts.
Proof. exact home_full. Qed.
Print Assumptions C34_distance.
Theorem C34_equal_weights : ∀ g s u v w, encompasing_equals_dependency g = true → leads g s u v w → w = f_1.
Proof. exact equals_full. Qed.
Print Assumptions C34_equal_weights.
Example C34_nonvacuous : (accepted chain_ops && encompasing_equals_dependency (grun chain_ops) && ended chain_ops Five &&
  forallb (rewarded chain_ops Five) ["1"; "2"; "3"; "4"; "5"; "6"; "7"; "8"; "9"]%string &&
  negb (rewarded chain_ops Three "1")) = true.
Proof. exact chain_checked. Qed.

(** C59, false: the same units and edges, added in another order, reward other units. *)
Theorem C59_order_refuted : ∃ ops ops' r r', ops ≡ₚ ops' ∧ accepted ops = true ∧ accepted ops' = true ∧
  propagate_rewards (grun ops) as_listed 100 "x" One 0 = Some r ∧
  propagate_rewards (grun ops') as_listed 100 "x" One 0 = Some r' ∧
  is_Some (r !! "M"%string) ∧ r' !! "M"%string = None.
Proof. exact order_matters. Qed.
Print Assumptions C59_order_refuted.

(** C59, with edges of weight 1 only: the same edges give the same rewards, in every order. *)
Theorem C59_order_partial : ∀ ops ops' ord ord' s e ts l c fuel fuel' r r', any_order ord → any_order ord' →
  home (grun ops) e l c → home (grun ops') e l c → l ≠ ""%string → c ≠ ""%string →
  (∀ u v w, leads (grun ops) s u v w ↔ leads (grun ops') s u v w) → (∀ u v w, leads (grun ops) s u v w → w = f_1) →
  propagate_rewards (grun ops) ord fuel e s ts = Some r → propagate_rewards (grun ops') ord' fuel' e s ts = Some r' → r = r'.
Proof. exact home_same. Qed.
Print Assumptions C59_order_partial.
