(** The results of the propagation, stated with the lesson and the course of the exercise. *)
From stdpp Require Import gmap strings list.
From Coq Require Import ZArith.
From Verif Require Import F32 Graph GraphSpec Stores Options ScorerSpec PropagateSpec PropagateMore PropagateSample.

Lemma home_roots g e l c : home g e l c ↔ resolve_roots g e = Some (l, c).
Proof.
  unfold home, resolve_roots. split; [by intros [-> ->]|]. destruct (get_exercise_lesson g e) as [l'|]; [|done].
  destruct (get_lesson_course g l') as [c'|] eqn:E; [|done]. intros [= -> ->]. done.
Qed.
Lemma home_ok : ∀ ops ord, any_order ord → ∀ s e ts fuel r u x,
  propagate_rewards (grun ops) ord fuel e s ts = Some r → r !! u = Some x →
  e_unit x = u ∧ e_ts x = ts ∧
  (∃ l c n, home (grun ops) e l c ∧ n ≤ 8 ∧ carried (grun ops) s l c n u (e_val x).1 (e_val x).2) ∧
  fgt (e_val x).1 fzero = good_score s ∧
  between f_0_2 (fabs (e_val x).1) (fabs (documented_reward s)) ∧ between f_0_2 (e_val x).2 f_1.
Proof.
  intros ops ord Ho s e ts fuel r u x H Hx. destruct (result_ok ops ord Ho s e ts fuel r u x H Hx) as (H1 & H2 & (l & c & n & Hr%home_roots & H3) & H4).
  split; [done|]. split; [done|]. split; [by exists l, c, n|done].
Qed.
Lemma home_closed : ∀ ops ord, any_order ord → ∀ s e ts l c fuel r,
  home (grun ops) e l c → l ≠ ""%string → c ≠ ""%string →
  propagate_rewards (grun ops) ord fuel e s ts = Some r →
  (∀ root u w, root = l ∨ root = c → leads (grun ops) s root u w → strong (fmul w (documented_reward s)) w →
    ∃ x, r !! u = Some x ∧ fle (fabs (fmul w (documented_reward s))) (fabs (e_val x).1) = true) ∧
  (∀ u x u' w, r !! u = Some x → leads (grun ops) s u u' w →
    strong (fmul (fmul w f_0_9) (e_val x).1) (fmul (fmul w f_0_8) (e_val x).2) →
    ∃ x', r !! u' = Some x' ∧ fle (fabs (fmul (fmul w f_0_9) (e_val x).1)) (fabs (e_val x').1) = true).
Proof. intros ops ord Ho s e ts l c fuel r H%home_roots. by eapply result_closed. Qed.
Lemma home_full : ∀ ops ord, any_order ord → ∀ s e ts l c,
  home (grun ops) e l c → l ≠ ""%string → c ≠ ""%string →
  (∀ u v w, leads (grun ops) s u v w → w = f_1) → ∀ fuel r,
  propagate_rewards (grun ops) ord fuel e s ts = Some r → ∀ u x,
  r !! u = Some x ↔ ∃ n, distance (grun ops) s l c n u ∧ strong (fade s n).1 (fade s n).2 ∧ x = Entry u (fade s n) ts.
Proof. intros ops ord Ho s e ts l c H%home_roots. by eapply full_weights. Qed.
Lemma home_same : ∀ ops ops' ord ord' s e ts l c fuel fuel' r r', any_order ord → any_order ord' →
  home (grun ops) e l c → home (grun ops') e l c → l ≠ ""%string → c ≠ ""%string →
  (∀ u v w, leads (grun ops) s u v w ↔ leads (grun ops') s u v w) → (∀ u v w, leads (grun ops) s u v w → w = f_1) →
  propagate_rewards (grun ops) ord fuel e s ts = Some r → propagate_rewards (grun ops') ord' fuel' e s ts = Some r' → r = r'.
Proof. intros ops ops' ord ord' s e ts l c fuel fuel' r r' Ho Ho' H%home_roots H'%home_roots. by eapply same_results. Qed.
Lemma homeless : ∀ ops ord s e ts fuel r, propagate_rewards (grun ops) ord fuel e s ts = Some r →
  (∀ l c, home (grun ops) e l c → l = ""%string ∨ c = ""%string) → r = ∅.
Proof.
  intros ops ord s e ts fuel r H Hn. eapply no_roots; [exact H|]. destruct (resolve_roots (grun ops) e) as [[l c]|] eqn:E; [right|by left].
  exists l, c. split; [done|]. by apply Hn, home_roots.
Qed.
