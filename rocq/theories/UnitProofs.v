(** The caches of the unit scorer do not change its answers. *)
From stdpp Require Import gmap strings list.
From Coq Require Import ZArith Lia.
From Verif Require Import F32 Graph GraphSpec UnitScorer.
Local Open Scope bool_scope.

(** ** The same computation without caches *)
Definition obind {A B} (m : outcome A) (k : A → outcome B) : outcome B :=
  match m with Val a => k a | Fail => Fail | Panic => Panic | NoFuel => NoFuel end.
Definition odefault {A} (d : A) (m : outcome A) : outcome A := match m with Fail => Val d | r => r end.
Fixpoint oeach {A B} (f : A → outcome B) (l : list A) : outcome (list B) :=
  match l with
  | [] => Val []
  | x :: l => obind (f x) (λ y, obind (oeach f l) (λ ys, Val (y :: ys)))
  end.

Section pure.
  Context (w : world).
  Let g := w_graph w.
  Let ord := w_ord w.

  Definition pure_score (e : uid) : outcome f32 := obind (w_exercise w e) (λ x, Val (ca_score x)).
  Definition pure_num (e : uid) : outcome nat := obind (w_exercise w e) (λ x, Val (ca_trials x)).
  Definition pure_have_scores (u : uid) : outcome bool :=
    match valid_in_unit w u with
    | [] => Val true
    | l => obind (oeach (λ e, odefault None (obind (pure_score e) (λ s, Val (Some s)))) l) (λ scores, Val (forallb positive scores))
    end.
  Section unit.
    Context (us : uid → outcome (option f32)).
    Definition pure_is_superseded (u : uid) (by_ : gset uid) : outcome bool :=
      if bool_decide (by_ = ∅) then Val false
      else obind (pure_have_scores u) (λ b,
        if b then obind (oeach (λ s, odefault None (us s)) (ord by_)) (λ scores, Val (forallb (reaches w) scores))
        else Val false).
    Fixpoint pure_replace (fuel : nat) (by_ : gset uid) : outcome (gset uid) :=
      match fuel with
      | 0 => NoFuel
      | S fuel =>
          obind (oeach (λ s,
            match get_superseded_by g s with
            | Some more => obind (pure_is_superseded s more) (λ b, if b then pure_replace fuel more else Val {[s]})
            | None => Val {[s]}
            end) (ord by_)) (λ sets, Val (⋃ sets))
      end.
    Definition pure_superseded (fuel : nat) (u : uid) : outcome bool :=
      match get_superseded_by g u with
      | None => Val false
      | Some by_ => obind (pure_replace fuel by_) (λ by_, pure_is_superseded u by_)
      end.
    Definition pure_lesson (fuel : nat) (l : uid) : outcome (option f32) :=
      if w_bans w l then Val None
      else obind (pure_superseded fuel l) (λ b,
        if b then Val None
        else
          match get_lesson_exercises g l with
          | None => Val None
          | Some es =>
              match List.filter (λ e, negb (w_bans w e)) (ord es) with
              | [] => Val None
              | valid => obind (oeach pure_score valid) (λ scores, Val (Some (average scores)))
              end
          end).
    Definition pure_course (fuel : nat) (u : uid) : outcome (option f32) :=
      if w_bans w u then Val None
      else obind (pure_superseded fuel u) (λ b,
        if b then Val None
        else
          match get_course_lessons g u with
          | None => Val None
          | Some ls =>
              obind (oeach (λ l, odefault None (pure_lesson fuel l)) (ord ls)) (λ scores,
                match omap id scores with
                | [] => Val None
                | valid => Val (Some (average valid))
                end)
          end).
  End unit.
  Fixpoint pure_unit (fuel : nat) (u : uid) : outcome (option f32) :=
    match fuel with
    | 0 => NoFuel
    | S fuel =>
        match get_unit_type g u with
        | None => Fail
        | Some Course => pure_course (pure_unit fuel) fuel u
        | Some Lesson => pure_lesson (pure_unit fuel) fuel u
        | Some Exercise => obind (pure_score u) (λ s, Val (Some s))
        end
    end.
  Definition pure_lesson_trials (l : uid) : outcome (option f32) :=
    match get_lesson_exercises g l with
    | None => Val None
    | Some es =>
        obind (oeach (λ e, odefault None (obind (pure_num e) (λ n, Val (Some n)))) (List.filter (λ e, negb (w_bans w e)) (ord es)))
          (λ ns, Val match omap id ns with
                     | [] => None
                     | valid => Some (fdiv (f_of_nat (sum_list valid)) (f_of_nat (length valid)))
                     end)
    end.
  Definition pure_course_trials (fuel : nat) (u : uid) : outcome (option f32) :=
    obind (oeach (λ l, obind (pure_superseded (pure_unit fuel) fuel l) (λ b, Val (l, negb (w_bans w l) && negb b)))
             (ord (default ∅ (get_course_lessons g u)))) (λ ls,
      obind (oeach pure_lesson_trials (fst <$> List.filter snd ls)) (λ ns,
        Val match omap id ns with [] => None | valid => Some (average valid) end)).

  (** ** More fuel changes no answer *)
  Definition le_out {A} (a b : outcome A) : Prop := a = NoFuel ∨ a = b.
  Lemma le_refl {A} (a : outcome A) : le_out a a. Proof using. by right. Qed.
  Lemma le_bind {A B} (m m' : outcome A) (k k' : A → outcome B) : le_out m m' → (∀ a, le_out (k a) (k' a)) →
    le_out (obind m k) (obind m' k').
  Proof using. intros [-> | ->] Hk; [by left|]. destruct m'; cbn; [apply Hk|by right..]. Qed.
  Lemma le_default {A} (d : A) m m' : le_out m m' → le_out (odefault d m) (odefault d m').
  Proof using. intros [-> | ->]; [by left|by right]. Qed.
  Lemma le_each {A B} (f f' : A → outcome B) l : (∀ x, le_out (f x) (f' x)) → le_out (oeach f l) (oeach f' l).
  Proof using.
    intros H. induction l as [|x l IH]; [by right|]. apply le_bind; [done|]. intros y. apply le_bind; [done|]. intros ys. by right.
  Qed.
  Lemma le_is_superseded us us' u by_ : (∀ x, le_out (us x) (us' x)) → le_out (pure_is_superseded us u by_) (pure_is_superseded us' u by_).
  Proof using.
    intros H. unfold pure_is_superseded. destruct (bool_decide _); [by right|]. apply le_bind; [by right|]. intros [|]; [|by right].
    apply le_bind; [|by right]. apply le_each. intros x. by apply le_default.
  Qed.
  Lemma le_replace us us' n n' by_ : (∀ x, le_out (us x) (us' x)) → n ≤ n' → le_out (pure_replace us n by_) (pure_replace us' n' by_).
  Proof using.
    intros H. revert n' by_. induction n as [|n IH]; intros n' by_ Hn; [by left|]. destruct n' as [|n']; [lia|].
    cbn [pure_replace]. apply le_bind; [|by right]. apply le_each. intros s.
    destruct (get_superseded_by g s) as [more|]; [|by right]. apply le_bind; [by apply le_is_superseded|].
    intros [|]; [apply IH; lia|by right].
  Qed.
  Lemma le_superseded us us' n n' u : (∀ x, le_out (us x) (us' x)) → n ≤ n' → le_out (pure_superseded us n u) (pure_superseded us' n' u).
  Proof using.
    intros H Hn. unfold pure_superseded. destruct (get_superseded_by g u); [|by right].
    apply le_bind; [by apply le_replace|]. intros by_. by apply le_is_superseded.
  Qed.
  Lemma le_lesson us us' n n' l : (∀ x, le_out (us x) (us' x)) → n ≤ n' → le_out (pure_lesson us n l) (pure_lesson us' n' l).
  Proof using.
    intros H Hn. unfold pure_lesson. destruct (w_bans w l); [by right|]. apply le_bind; [by apply le_superseded|]. by right.
  Qed.
  Lemma le_course us us' n n' u : (∀ x, le_out (us x) (us' x)) → n ≤ n' → le_out (pure_course us n u) (pure_course us' n' u).
  Proof using.
    intros H Hn. unfold pure_course. destruct (w_bans w u); [by right|]. apply le_bind; [by apply le_superseded|].
    intros [|]; [by right|]. destruct (get_course_lessons g u); [|by right]. apply le_bind; [|by right].
    apply le_each. intros l. by apply le_default, le_lesson.
  Qed.
  Lemma le_unit n n' u : n ≤ n' → le_out (pure_unit n u) (pure_unit n' u).
  Proof using.
    revert n' u. induction n as [|n IH]; intros n' u Hn; [by left|]. destruct n' as [|n']; [lia|].
    cbn [pure_unit]. destruct (get_unit_type g u) as [[| |]|]; [by right| | |by right].
    - apply le_lesson; [|lia]. intros x. apply IH. lia.
    - apply le_course; [|lia]. intros x. apply IH. lia.
  Qed.
  Lemma le_course_trials n n' u : n ≤ n' → le_out (pure_course_trials n u) (pure_course_trials n' u).
  Proof using.
    intros Hn. unfold pure_course_trials. apply le_bind; [|by right]. apply le_each. intros l.
    apply le_bind; [|by right]. apply le_superseded; [|done]. intros x. by apply le_unit.
  Qed.
  (** Two answers that are not for lack of fuel are the same. *)
  Lemma same_answer {A} (f : nat → outcome A) n m : (∀ n n', n ≤ n' → le_out (f n) (f n')) → f n ≠ NoFuel → f m ≠ NoFuel → f n = f m.
  Proof using.
    intros H Hn Hm. destruct (H n (n `max` m)) as [?|E1]; [lia|done|]. destruct (H m (n `max` m)) as [?|E2]; [lia|done|].
    by rewrite E1, E2.
  Qed.

  (** ** The caches hold answers *)
  Definition known (e : uid) : Prop := get_unit_type g e = Some Exercise.
  Record coherent (c : caches) : Prop := {
    h_exercise : ∀ e x, known e → c_exercise c !! e = Some x → w_exercise w e = Val x;
    h_lesson : ∀ l v, c_lesson c !! l = Some v → ∃ n, pure_lesson (pure_unit n) n l = Val v;
    h_course : ∀ u v, c_course c !! u = Some v → ∃ n, pure_course (pure_unit n) n u = Val v;
    h_lesson_trials : ∀ l v, c_lesson_trials c !! l = Some v → pure_lesson_trials l = Val v;
    h_course_trials : ∀ u v, c_course_trials c !! u = Some v → ∃ n, pure_course_trials n u = Val v }.
  Lemma coherent_none : coherent no_caches.
  Proof using. split; intros *; cbn; rewrite ?lookup_empty; done. Qed.

  Definition agrees {A} (m : prog A) (r : outcome A) : Prop := ∀ c, coherent c → r ≠ NoFuel → ∃ c', m c = (r, c') ∧ coherent c'.
  Lemma agrees_done {A} (a : A) : agrees (done_with a) (Val a).
  Proof using. intros c Hc _. exists c. done. Qed.
  Lemma agrees_fuel {A} (m : prog A) : agrees m NoFuel.
  Proof using. intros c Hc H. done. Qed.
  Lemma agrees_bind {A B} (m : prog A) r (k : A → prog B) k' : agrees m r → (∀ a, agrees (k a) (k' a)) → agrees (then_do m k) (obind r k').
  Proof using.
    intros Hm Hk c Hc H. unfold then_do. destruct (Hm c Hc) as (c' & E & Hc'); [by intros ->|]. rewrite E.
    destruct r as [a| | |]; cbn in *; [by apply Hk|by exists c'..].
  Qed.
  Lemma agrees_default {A} (d : A) (m : prog A) r : agrees m r → agrees (or_default d m) (odefault d r).
  Proof using.
    intros Hm c Hc H. unfold or_default. destruct (Hm c Hc) as (c' & E & Hc'); [by intros ->|]. rewrite E.
    destruct r; cbn; by exists c'.
  Qed.
  Lemma agrees_each {A B} (f : A → prog B) f' l : (∀ x, x ∈ l → agrees (f x) (f' x)) → agrees (each f l) (oeach f' l).
  Proof using.
    induction l as [|x l IH]; intros H; [apply agrees_done|]. cbn [each oeach]. apply agrees_bind; [apply H; left|].
    intros y. apply agrees_bind; [apply IH; intros z Hz; apply H; by right|]. intros ys. apply agrees_done.
  Qed.

  (** The graph lists exercises as such, and lists what is in the set. *)
  Context (Hord : ∀ s, ord s ≡ₚ elements s)
    (Hex : ∀ l es e, get_lesson_exercises g l = Some es → e ∈ es → known e).

  Lemma ord_in s x : x ∈ ord s ↔ x ∈ s.
  Proof using Hord. rewrite Hord. apply elem_of_elements. Qed.

  Lemma agrees_entry e : known e → agrees (exercise_entry w e) (w_exercise w e).
  Proof using.
    intros Hk c Hc H. unfold exercise_entry. destruct (c_exercise c !! e) as [x|] eqn:E.
    - apply (h_exercise c Hc e x Hk) in E. rewrite E. by exists c.
    - destruct (w_exercise w e) as [x| | |] eqn:Ew; [|by exists c..].
      eexists. split; [done|]. destruct Hc as [H1 H2 H3 H4 H5]. split; cbn; [|done..]. intros e' x' Hk'.
      destruct (decide (e' = e)) as [-> | Hne]; [rewrite lookup_insert; congruence|]. rewrite lookup_insert_ne by done. by apply H1.
  Qed.
  Lemma agrees_score e : known e → agrees (exercise_score w e) (pure_score e).
  Proof using. intros H. apply agrees_bind; [by apply agrees_entry|]. intros x. apply agrees_done. Qed.
  Lemma agrees_num e : known e → agrees (exercise_num_trials w e) (pure_num e).
  Proof using. intros H. apply agrees_bind; [by apply agrees_entry|]. intros x. apply agrees_done. Qed.

  Lemma valid_known l e : e ∈ valid_in_lesson w l → known e.
  Proof using Hord Hex.
    unfold valid_in_lesson. destruct (w_bans w l); [by intros ?%elem_of_nil|].
    destruct (w_bans w _); [by intros ?%elem_of_nil|]. intros H%elem_of_list_In. apply filter_In in H as [H _].
    apply elem_of_list_In in H. unfold w_exercises in H. change (w_ord w) with ord in H. rewrite ord_in in H.
    destruct (get_lesson_exercises (w_graph w) l) as [es|] eqn:E; cbn in H; [exact (Hex _ _ _ E H)|set_solver].
  Qed.
  Lemma valid_unit_known u e : e ∈ valid_in_unit w u → known e.
  Proof using Hord Hex.
    unfold valid_in_unit. destruct (get_unit_type (w_graph w) u) as [[| |]|] eqn:E.
    - destruct (w_bans w u); [by intros ?%elem_of_nil|]. intros ->%elem_of_list_singleton. done.
    - apply valid_known.
    - destruct (w_bans w u); [by intros ?%elem_of_nil|]. intros H. apply elem_of_list_join in H as (l & He & Hl).
      apply elem_of_list_fmap in Hl as (l' & -> & _). by apply valid_known in He.
    - by intros ?%elem_of_nil.
  Qed.

  Lemma agrees_have_scores u : agrees (all_have_scores w u) (pure_have_scores u).
  Proof using Hord Hex.
    unfold all_have_scores, pure_have_scores. destruct (valid_in_unit w u) as [|e l] eqn:E; [apply agrees_done|].
    apply agrees_bind; [|intros scores; apply agrees_done]. apply agrees_each. intros x Hx. apply agrees_default.
    apply agrees_bind; [|intros s; apply agrees_done]. apply agrees_score. apply (valid_unit_known u). by rewrite E.
  Qed.

  Section agree_unit.
    Context (us : uid → prog (option f32)) (us' : uid → outcome (option f32)) (Hus : ∀ u, agrees (us u) (us' u)).
    Lemma agrees_is_superseded u by_ : agrees (is_superseded w us u by_) (pure_is_superseded us' u by_).
    Proof using Hord Hex Hus.
      unfold is_superseded, pure_is_superseded. destruct (bool_decide _); [apply agrees_done|].
      apply agrees_bind; [apply agrees_have_scores|]. intros [|]; [|apply agrees_done].
      apply agrees_bind; [|intros scores; apply agrees_done]. apply agrees_each. intros x _. by apply agrees_default.
    Qed.
    Lemma agrees_replace fuel by_ : agrees (replace_superseding w us fuel by_) (pure_replace us' fuel by_).
    Proof using Hord Hex Hus.
      revert by_. induction fuel as [|fuel IH]; intros by_; [apply agrees_fuel|]. cbn [replace_superseding pure_replace].
      apply agrees_bind; [|intros sets; apply agrees_done]. apply agrees_each. intros s _. change (w_graph w) with g.
      destruct (get_superseded_by g s) as [more|]; [|apply agrees_done]. apply agrees_bind; [apply agrees_is_superseded|].
      intros [|]; [apply IH|apply agrees_done].
    Qed.
    Lemma agrees_superseded fuel u : agrees (superseded w us fuel u) (pure_superseded us' fuel u).
    Proof using Hord Hex Hus.
      unfold superseded, pure_superseded. change (w_graph w) with g. destruct (get_superseded_by g u); [|apply agrees_done].
      apply agrees_bind; [apply agrees_replace|]. intros by_. apply agrees_is_superseded.
    Qed.
  End agree_unit.

  (** Writing an answer into a cache. *)
  Lemma agrees_store_lesson l v n : pure_lesson (pure_unit n) n l = Val v →
    agrees (then_do (write (set_lesson <[l := v]>)) (λ _, done_with v)) (Val v).
  Proof using.
    intros Hv c [H1 H2 H3 H4 H5] _. eexists. split; [done|]. split; cbn; [done| |done..]. intros l' v'.
    destruct (decide (l' = l)) as [-> | Hne]; [rewrite lookup_insert; intros [= <-]; by exists n|]. rewrite lookup_insert_ne by done. by apply H2.
  Qed.
  Lemma agrees_store_course l v n : pure_course (pure_unit n) n l = Val v →
    agrees (then_do (write (set_course <[l := v]>)) (λ _, done_with v)) (Val v).
  Proof using.
    intros Hv c [H1 H2 H3 H4 H5] _. eexists. split; [done|]. split; cbn; [done|done| |done..]. intros l' v'.
    destruct (decide (l' = l)) as [-> | Hne]; [rewrite lookup_insert; intros [= <-]; by exists n|]. rewrite lookup_insert_ne by done. by apply H3.
  Qed.
  (** A step of a computation whose answer [r] is known: the continuation may use it. *)
  Lemma agrees_bind_eq {A B} (m : prog A) r (k : A → prog B) k' R : agrees m r → obind r k' = R →
    (∀ a, r = Val a → k' a = R → agrees (k a) (k' a)) → agrees (then_do m k) R.
  Proof using.
    intros Hm <- Hk c Hc H. unfold then_do. destruct (Hm c Hc) as (c' & E & Hc'); [by intros ->|]. rewrite E.
    destruct r as [a| | |]; cbn in *; [by apply Hk|by exists c'..].
  Qed.

  Lemma agrees_lesson fuel l : (∀ u, agrees (unit_score w fuel u) (pure_unit fuel u)) →
    agrees (lesson_score w (unit_score w fuel) fuel l) (pure_lesson (pure_unit fuel) fuel l).
  Proof using Hord Hex.
    intros Hus c Hc H. unfold lesson_score. destruct (c_lesson c !! l) as [v|] eqn:E.
    { destruct (h_lesson c Hc l v E) as [n Hn]. exists c. split; [|done]. f_equal. rewrite <- Hn.
      apply (same_answer (λ n, pure_lesson (pure_unit n) n l)); [|by rewrite Hn|done].
      intros n1 n2 Hle. apply le_lesson; [|done]. intros x. by apply le_unit. }
    clear E. revert c Hc H. set (R := pure_lesson (pure_unit fuel) fuel l). assert (HR : pure_lesson (pure_unit fuel) fuel l = R) by done.
    clearbody R. change (agrees (if w_bans w l then then_do (write (set_lesson <[l := None]>)) (λ _, done_with None)
      else then_do (superseded w (unit_score w fuel) fuel l) (λ b,
             if b then then_do (write (set_lesson <[l := None]>)) (λ _, done_with None)
             else
               match get_lesson_exercises g l with
               | None => then_do (write (set_lesson <[l := None]>)) (λ _, done_with None)
               | Some es =>
                   match List.filter (λ e, negb (w_bans w e)) (ord es) with
                   | [] => then_do (write (set_lesson <[l := None]>)) (λ _, done_with None)
                   | valid => then_do (each (exercise_score w) valid) (λ scores,
                       then_do (write (set_lesson <[l := Some (average scores)]>)) (λ _, done_with (Some (average scores))))
                   end
               end)) R).
    assert (HR' := HR). unfold pure_lesson in HR'. destruct (w_bans w l).
    { subst R. rewrite <- HR'. apply agrees_store_lesson with fuel. done. }
    eapply agrees_bind_eq; [by apply agrees_superseded|exact HR'|]. intros b _ Hb.
    destruct b; [rewrite Hb; subst R; rewrite <- Hb; apply agrees_store_lesson with fuel; done|].
    destruct (get_lesson_exercises g l) as [es|] eqn:Ees; [|rewrite Hb; subst R; rewrite <- Hb; apply agrees_store_lesson with fuel; done].
    destruct (List.filter (λ e, negb (w_bans w e)) (ord es)) as [|e valid] eqn:Ev;
      [rewrite Hb; subst R; rewrite <- Hb; apply agrees_store_lesson with fuel; done|].
    eapply agrees_bind_eq; [|done|].
    - apply agrees_each. intros x Hx. apply agrees_score. rewrite <- Ev in Hx. apply elem_of_list_In, filter_In in Hx as [Hx _].
      apply elem_of_list_In in Hx. rewrite ord_in in Hx. by apply (Hex l es).
    - intros scores Hs _. apply agrees_store_lesson with fuel. rewrite HR, <- Hb. rewrite Hs. done.
  Qed.

  Lemma agrees_course fuel u : (∀ u, agrees (unit_score w fuel u) (pure_unit fuel u)) →
    agrees (course_score w (unit_score w fuel) fuel u) (pure_course (pure_unit fuel) fuel u).
  Proof using Hord Hex.
    intros Hus c Hc H. unfold course_score. destruct (c_course c !! u) as [v|] eqn:E.
    { destruct (h_course c Hc u v E) as [n Hn]. exists c. split; [|done]. f_equal. rewrite <- Hn.
      apply (same_answer (λ n, pure_course (pure_unit n) n u)); [|by rewrite Hn|done].
      intros n1 n2 Hle. apply le_course; [|done]. intros x. by apply le_unit. }
    clear E. revert c Hc H. set (R := pure_course (pure_unit fuel) fuel u). assert (HR : pure_course (pure_unit fuel) fuel u = R) by done.
    clearbody R. change (agrees (if w_bans w u then then_do (write (set_course <[u := None]>)) (λ _, done_with None)
      else then_do (superseded w (unit_score w fuel) fuel u) (λ b,
             if b then then_do (write (set_course <[u := None]>)) (λ _, done_with None)
             else
               match get_course_lessons g u with
               | None => then_do (write (set_course <[u := None]>)) (λ _, done_with None)
               | Some ls =>
                   then_do (each (λ l, or_default None (lesson_score w (unit_score w fuel) fuel l)) (ord ls)) (λ scores,
                     match omap id scores with
                     | [] => done_with None
                     | valid => then_do (write (set_course <[u := Some (average valid)]>)) (λ _, done_with (Some (average valid)))
                     end)
               end)) R).
    assert (HR' := HR). unfold pure_course in HR'. destruct (w_bans w u).
    { subst R. rewrite <- HR'. apply agrees_store_course with fuel. done. }
    eapply agrees_bind_eq; [by apply agrees_superseded|exact HR'|]. intros b _ Hb.
    destruct b; [rewrite Hb; subst R; rewrite <- Hb; apply agrees_store_course with fuel; done|].
    destruct (get_course_lessons g u) as [ls|] eqn:Els; [|rewrite Hb; subst R; rewrite <- Hb; apply agrees_store_course with fuel; done].
    eapply agrees_bind_eq; [|done|].
    - apply agrees_each. intros x Hx. by apply agrees_default, agrees_lesson.
    - intros scores Hs _. rewrite Hs in Hb. cbn [obind] in Hb |- *. destruct (omap id scores) as [|v vs].
      + apply agrees_done.
      + apply agrees_store_course with fuel. by rewrite HR.
  Qed.

  Lemma agrees_unit fuel u : agrees (unit_score w fuel u) (pure_unit fuel u).
  Proof using Hord Hex.
    revert u. induction fuel as [|fuel IH]; intros u; [apply agrees_fuel|]. cbn [unit_score pure_unit]. change (w_graph w) with g.
    destruct (get_unit_type g u) as [[| |]|] eqn:Et.
    - apply agrees_bind; [by apply agrees_score|]. intros s. apply agrees_done.
    - by apply agrees_lesson.
    - by apply agrees_course.
    - intros c Hc _. by exists c.
  Qed.

  Lemma agrees_lesson_trials l : agrees (lesson_trials w l) (pure_lesson_trials l).
  Proof using Hord Hex.
    intros c Hc H. unfold lesson_trials. destruct (c_lesson_trials c !! l) as [v|] eqn:E.
    { exists c. by rewrite (h_lesson_trials c Hc l v E). }
    clear E. revert c Hc H. set (R := pure_lesson_trials l). assert (HR : pure_lesson_trials l = R) by done. clearbody R.
    assert (HR' := HR). unfold pure_lesson_trials in HR'. change (w_graph w) with g. destruct (get_lesson_exercises g l) as [es|] eqn:Ees.
    2:{ subst R. rewrite <- HR'. intros c Hc _. by exists c. }
    eapply agrees_bind_eq; [|exact HR'|].
    - apply agrees_each. intros x Hx. apply agrees_default. apply agrees_bind; [|intros n; apply agrees_done]. apply agrees_num.
      apply elem_of_list_In, filter_In in Hx as [Hx _]. apply elem_of_list_In in Hx. change (w_ord w) with ord in Hx.
      rewrite ord_in in Hx. by apply (Hex l es).
    - intros ns _ Hb c [H1 H2 H3 H4 H5] _. eexists. split; [done|]. split; cbn; [done..| |done]. intros l' v'.
      destruct (decide (l' = l)) as [-> | Hne].
      + rewrite lookup_insert. intros [= <-]. by rewrite HR, <- Hb.
      + rewrite lookup_insert_ne by done. by apply H4.
  Qed.
  Lemma agrees_course_trials fuel u : agrees (course_trials w fuel u) (pure_course_trials fuel u).
  Proof using Hord Hex.
    intros c Hc H. unfold course_trials. destruct (c_course_trials c !! u) as [v|] eqn:E.
    { destruct (h_course_trials c Hc u v E) as [n Hn]. exists c. split; [|done]. f_equal. rewrite <- Hn.
      apply (same_answer (λ n, pure_course_trials n u)); [|by rewrite Hn|done].
      intros n1 n2 Hle. by apply le_course_trials. }
    clear E. revert c Hc H. set (R := pure_course_trials fuel u). assert (HR : pure_course_trials fuel u = R) by done. clearbody R.
    assert (HR' := HR). unfold pure_course_trials in HR'.
    eapply agrees_bind_eq; [|exact HR'|].
    - apply agrees_each. intros x Hx. apply agrees_bind; [|intros b; apply agrees_done]. apply agrees_superseded. intros y. apply agrees_unit.
    - intros ls Hls Hb. eapply agrees_bind_eq; [|done|].
      + apply agrees_each. intros l _. apply agrees_lesson_trials.
      + intros ns Hns _. cbv beta in Hb. rewrite Hns in Hb. cbn [obind] in Hb |- *. intros c [H1 H2 H3 H4 H5] _. eexists. split; [done|]. split; cbn; [done..|]. intros u' v'.
        destruct (decide (u' = u)) as [-> | Hne].
        * rewrite lookup_insert. intros [= <-]. exists fuel. by rewrite HR, <- Hb.
        * rewrite lookup_insert_ne by done. by apply H5.
  Qed.
End pure.
