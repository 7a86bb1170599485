(** Questions change no later answer, from any caches: stale entries included. *)
From stdpp Require Import gmap strings list relations.
From Coq Require Import ZArith Lia.
From Verif Require Import F32 Graph GraphSpec Library SearchSpec UnitScorer UnitSpec UnitProofs UnitEnds UnitPure AskSpec.
Local Open Scope bool_scope.

Section base.
  Context (w : world) (b : caches).
  Let g := w_graph w.
  Let ord := w_ord w.

  (** The world in which the cached entries of exercises are the computed ones. *)
  Definition based : world :=
    World (w_graph w) (w_banned w) (λ e, match c_exercise b !! e with Some x => Val x | None => w_exercise w e end)
      (w_superseding_score w) (w_ord w).

  (** ** The answers from the caches [b], as functions *)
  Definition base_lesson (us : uid → outcome (option f32)) (fuel : nat) (l : uid) : outcome (option f32) :=
    match c_lesson b !! l with Some v => Val v | None => pure_lesson based us fuel l end.
  Definition base_course (us : uid → outcome (option f32)) (fuel : nat) (u : uid) : outcome (option f32) :=
    match c_course b !! u with
    | Some v => Val v
    | None =>
        if w_bans w u then Val None
        else obind (pure_superseded based us fuel u) (λ x,
          if x then Val None
          else
            match get_course_lessons g u with
            | None => Val None
            | Some ls =>
                obind (oeach (λ l, odefault None (base_lesson us fuel l)) (ord ls)) (λ scores,
                  match omap id scores with
                  | [] => Val None
                  | valid => Val (Some (average valid))
                  end)
            end)
    end.
  Fixpoint base_unit (fuel : nat) (u : uid) : outcome (option f32) :=
    match fuel with
    | 0 => NoFuel
    | S fuel =>
        match get_unit_type g u with
        | None => Fail
        | Some Course => base_course (base_unit fuel) fuel u
        | Some Lesson => base_lesson (base_unit fuel) fuel u
        | Some Exercise => obind (pure_score based u) (λ s, Val (Some s))
        end
    end.
  Definition base_lesson_trials (l : uid) : outcome (option f32) :=
    match c_lesson_trials b !! l with Some v => Val v | None => pure_lesson_trials based l end.
  Definition base_course_trials (fuel : nat) (u : uid) : outcome (option f32) :=
    match c_course_trials b !! u with
    | Some v => Val v
    | None =>
        obind (oeach (λ l, obind (pure_superseded based (base_unit fuel) fuel l) (λ x, Val (l, negb (w_bans w l) && negb x)))
                 (ord (default ∅ (get_course_lessons g u)))) (λ ls,
          obind (oeach base_lesson_trials (fst <$> List.filter snd ls)) (λ ns,
            Val match omap id ns with [] => None | valid => Some (average valid) end))
    end.

  (** ** More fuel changes no answer *)
  Lemma le_base_lesson us us' n n' l : (∀ x, le_out (us x) (us' x)) → n ≤ n' → le_out (base_lesson us n l) (base_lesson us' n' l).
  Proof using. intros H Hn. unfold base_lesson. destruct (c_lesson b !! l); [by right|]. by apply le_lesson. Qed.
  Lemma le_base_course us us' n n' u : (∀ x, le_out (us x) (us' x)) → n ≤ n' → le_out (base_course us n u) (base_course us' n' u).
  Proof using.
    intros H Hn. unfold base_course. destruct (c_course b !! u); [by right|]. destruct (w_bans w u); [by right|].
    apply le_bind; [by apply le_superseded|].
    intros [|]; [by right|]. destruct (get_course_lessons g u); [|by right]. apply le_bind; [|by right].
    apply le_each. intros l. by apply le_default, le_base_lesson.
  Qed.
  Lemma le_base_unit n n' u : n ≤ n' → le_out (base_unit n u) (base_unit n' u).
  Proof using.
    revert n' u. induction n as [|n IH]; intros n' u Hn; [by left|]. destruct n' as [|n']; [lia|].
    cbn [base_unit]. destruct (get_unit_type g u) as [[| |]|]; [by right| | |by right].
    - apply le_base_lesson; [|lia]. intros x. apply IH. lia.
    - apply le_base_course; [|lia]. intros x. apply IH. lia.
  Qed.
  Lemma le_base_trials n n' u : n ≤ n' → le_out (base_course_trials n u) (base_course_trials n' u).
  Proof using.
    intros Hn. unfold base_course_trials. destruct (c_course_trials b !! u); [by right|]. apply le_bind; [|by right]. apply le_each. intros l.
    apply le_bind; [|by right]. apply le_superseded; [|done]. intros x. by apply le_base_unit.
  Qed.

  (** ** The caches hold answers, and what [b] has is not lost *)
  Record grown (c : caches) : Prop := {
    g_exercise : ∀ e x, c_exercise c !! e = Some x → w_exercise based e = Val x;
    g_lesson : ∀ l v, c_lesson c !! l = Some v → ∃ n, base_lesson (base_unit n) n l = Val v;
    g_course : ∀ u v, c_course c !! u = Some v → ∃ n, base_course (base_unit n) n u = Val v;
    g_lesson_trials : ∀ l v, c_lesson_trials c !! l = Some v → base_lesson_trials l = Val v;
    g_course_trials : ∀ u v, c_course_trials c !! u = Some v → ∃ n, base_course_trials n u = Val v;
    g_exercise_none : ∀ e, c_exercise c !! e = None → c_exercise b !! e = None;
    g_lesson_none : ∀ e, c_lesson c !! e = None → c_lesson b !! e = None;
    g_course_none : ∀ e, c_course c !! e = None → c_course b !! e = None;
    g_lesson_trials_none : ∀ e, c_lesson_trials c !! e = None → c_lesson_trials b !! e = None;
    g_course_trials_none : ∀ e, c_course_trials c !! e = None → c_course_trials b !! e = None }.
  Lemma grown_start : grown b.
  Proof using.
    split; try done.
    - intros e x E. unfold based. cbn. by rewrite E.
    - intros l v E. exists 0. unfold base_lesson. by rewrite E.
    - intros l v E. exists 0. unfold base_course. by rewrite E.
    - intros l v E. unfold base_lesson_trials. by rewrite E.
    - intros l v E. exists 0. unfold base_course_trials. by rewrite E.
  Qed.

  Definition follows {A} (m : prog A) (r : outcome A) : Prop := ∀ c, grown c → r ≠ NoFuel → ∃ c', m c = (r, c') ∧ grown c'.
  Lemma follows_done {A} (a : A) : follows (done_with a) (Val a).
  Proof using. intros c Hc _. exists c. done. Qed.
  Lemma follows_fuel {A} (m : prog A) : follows m NoFuel.
  Proof using. intros c Hc H. done. Qed.
  Lemma follows_bind {A B} (m : prog A) r (k : A → prog B) k' : follows m r → (∀ a, follows (k a) (k' a)) → follows (then_do m k) (obind r k').
  Proof using.
    intros Hm Hk c Hc H. unfold then_do. destruct (Hm c Hc) as (c' & E & Hc'); [by intros ->|]. rewrite E.
    destruct r as [a| | |]; cbn in *; [by apply Hk|by exists c'..].
  Qed.
  Lemma follows_bind_eq {A B} (m : prog A) r (k : A → prog B) k' R : follows m r → obind r k' = R →
    (∀ a, r = Val a → k' a = R → follows (k a) (k' a)) → follows (then_do m k) R.
  Proof using.
    intros Hm <- Hk c Hc H. unfold then_do. destruct (Hm c Hc) as (c' & E & Hc'); [by intros ->|]. rewrite E.
    destruct r as [a| | |]; cbn in *; [by apply Hk|by exists c'..].
  Qed.
  Lemma follows_default {A} (d : A) (m : prog A) r : follows m r → follows (or_default d m) (odefault d r).
  Proof using.
    intros Hm c Hc H. unfold or_default. destruct (Hm c Hc) as (c' & E & Hc'); [by intros ->|]. rewrite E.
    destruct r; cbn; by exists c'.
  Qed.
  Lemma follows_each {A B} (f : A → prog B) f' l : (∀ x, x ∈ l → follows (f x) (f' x)) → follows (each f l) (oeach f' l).
  Proof using.
    induction l as [|x l IH]; intros H; [apply follows_done|]. cbn [each oeach]. apply follows_bind; [apply H; left|].
    intros y. apply follows_bind; [apply IH; intros z Hz; apply H; by right|]. intros ys. apply follows_done.
  Qed.

  Lemma follows_entry e : follows (exercise_entry w e) (w_exercise based e).
  Proof using.
    intros c Hc H. unfold exercise_entry. destruct (c_exercise c !! e) as [x|] eqn:E.
    - apply (g_exercise c Hc e x) in E. rewrite E. by exists c.
    - pose proof (g_exercise_none c Hc e E) as Hb. unfold based in H |- *. cbn [w_exercise] in *. rewrite Hb in *.
      destruct (w_exercise w e) as [x| | |] eqn:Ew; [|by exists c..].
      eexists. split; [done|]. destruct Hc. split; cbn; try done.
      + intros e' x'. destruct (decide (e' = e)) as [-> | Hne].
        * rewrite lookup_insert. intros [= <-]. by rewrite Hb.
        * rewrite lookup_insert_ne by done. apply g_exercise0.
      + intros e'. destruct (decide (e' = e)) as [-> | Hne]; [by rewrite lookup_insert|]. rewrite lookup_insert_ne by done. auto.
  Qed.
  Lemma follows_score e : follows (exercise_score w e) (pure_score based e).
  Proof using. apply follows_bind; [by apply follows_entry|]. intros x. apply follows_done. Qed.
  Lemma follows_num e : follows (exercise_num_trials w e) (pure_num based e).
  Proof using. apply follows_bind; [by apply follows_entry|]. intros x. apply follows_done. Qed.
  Lemma follows_have_scores u : follows (all_have_scores w u) (pure_have_scores based u).
  Proof using.
    unfold all_have_scores, pure_have_scores. change (valid_in_unit based u) with (valid_in_unit w u).
    destruct (valid_in_unit w u) as [|e l] eqn:E; [apply follows_done|].
    apply follows_bind; [|intros scores; apply follows_done]. apply follows_each. intros x Hx. apply follows_default.
    apply follows_bind; [|intros s; apply follows_done]. apply follows_score.
  Qed.

  Section follow_unit.
    Context (us : uid → prog (option f32)) (us' : uid → outcome (option f32)) (Hus : ∀ u, follows (us u) (us' u)).
    Lemma follows_is_superseded u by_ : follows (is_superseded w us u by_) (pure_is_superseded based us' u by_).
    Proof using Hus.
      unfold is_superseded, pure_is_superseded. destruct (bool_decide _); [apply follows_done|].
      apply follows_bind; [apply follows_have_scores|]. intros [|]; [|apply follows_done].
      apply follows_bind; [|intros scores; apply follows_done]. apply follows_each. intros x _. by apply follows_default.
    Qed.
    Lemma follows_replace fuel by_ : follows (replace_superseding w us fuel by_) (pure_replace based us' fuel by_).
    Proof using Hus.
      revert by_. induction fuel as [|fuel IH]; intros by_; [apply follows_fuel|]. cbn [replace_superseding pure_replace].
      apply follows_bind; [|intros sets; apply follows_done]. apply follows_each. intros s _. change (w_graph based) with (w_graph w).
      destruct (get_superseded_by (w_graph w) s) as [more|]; [|apply follows_done]. apply follows_bind; [apply follows_is_superseded|].
      intros [|]; [apply IH|apply follows_done].
    Qed.
    Lemma follows_superseded fuel u : follows (superseded w us fuel u) (pure_superseded based us' fuel u).
    Proof using Hus.
      unfold superseded, pure_superseded. change (w_graph based) with (w_graph w).
      destruct (get_superseded_by (w_graph w) u); [|apply follows_done].
      apply follows_bind; [apply follows_replace|]. intros by_. apply follows_is_superseded.
    Qed.
  End follow_unit.

  Lemma follows_store_lesson l v n : base_lesson (base_unit n) n l = Val v →
    follows (then_do (write (set_lesson <[l := v]>)) (λ _, done_with v)) (Val v).
  Proof using.
    intros Hv c Hc _. eexists. split; [done|]. destruct Hc. split; cbn; try done.
    - intros l' v'. destruct (decide (l' = l)) as [-> | Hne]; [rewrite lookup_insert; intros [= <-]; by exists n|]. rewrite lookup_insert_ne by done. auto.
    - intros l'. destruct (decide (l' = l)) as [-> | Hne]; [by rewrite lookup_insert|]. rewrite lookup_insert_ne by done. auto.
  Qed.
  Lemma follows_store_course l v n : base_course (base_unit n) n l = Val v →
    follows (then_do (write (set_course <[l := v]>)) (λ _, done_with v)) (Val v).
  Proof using.
    intros Hv c Hc _. eexists. split; [done|]. destruct Hc. split; cbn; try done.
    - intros l' v'. destruct (decide (l' = l)) as [-> | Hne]; [rewrite lookup_insert; intros [= <-]; by exists n|]. rewrite lookup_insert_ne by done. auto.
    - intros l'. destruct (decide (l' = l)) as [-> | Hne]; [by rewrite lookup_insert|]. rewrite lookup_insert_ne by done. auto.
  Qed.

  Lemma follows_lesson fuel l : (∀ u, follows (unit_score w fuel u) (base_unit fuel u)) →
    follows (lesson_score w (unit_score w fuel) fuel l) (base_lesson (base_unit fuel) fuel l).
  Proof using.
    intros Hus c Hc H. unfold lesson_score. destruct (c_lesson c !! l) as [v|] eqn:E.
    { destruct (g_lesson c Hc l v E) as [n Hn]. exists c. split; [|done]. f_equal. rewrite <- Hn.
      apply (same_answer (λ n, base_lesson (base_unit n) n l)); [|by rewrite Hn|done].
      intros n1 n2 Hle. apply le_base_lesson; [|done]. intros x. by apply le_base_unit. }
    apply (g_lesson_none c Hc) in E.
    revert c Hc H. set (R := base_lesson (base_unit fuel) fuel l). assert (HR : base_lesson (base_unit fuel) fuel l = R) by done.
    clearbody R. change (follows (if w_bans w l then then_do (write (set_lesson <[l := None]>)) (λ _, done_with None)
      else then_do (superseded w (unit_score w fuel) fuel l) (λ b,
             if b then then_do (write (set_lesson <[l := None]>)) (λ _, done_with None)
             else
               match get_lesson_exercises g l with
               | None => then_do (write (set_lesson <[l := None]>)) (λ _, done_with None)
               | Some es =>
                   match List.filter (λ e, negb (w_bans w e)) (ord es) with
                   | [] => then_do (write (set_lesson <[l := None]>)) (λ _, done_with None)
                   | valid => then_do (each (exercise_score w) valid) (λ scores,
                       then_do (write (set_lesson <[l := Some (average scores)]>)) (λ _, done_with (Some (average scores))))
                   end
               end)) R).
    assert (HR' := HR). unfold base_lesson in HR'. rewrite E in HR'. unfold pure_lesson in HR'.
    change (w_bans based l) with (w_bans w l) in HR'. destruct (w_bans w l).
    { subst R. rewrite <- HR'. apply follows_store_lesson with fuel. done. }
    eapply follows_bind_eq; [by apply follows_superseded|exact HR'|]. intros x _ Hb.
    destruct x; [rewrite Hb; subst R; rewrite <- Hb; apply follows_store_lesson with fuel; done|].
    change (w_graph based) with g in Hb |- *. change (w_ord based) with ord in Hb |- *.
    destruct (get_lesson_exercises g l) as [es|] eqn:Ees; [|rewrite Hb; subst R; rewrite <- Hb; apply follows_store_lesson with fuel; done].
    change (List.filter (λ e, negb (w_bans based e)) (ord es)) with (List.filter (λ e, negb (w_bans w e)) (ord es)) in Hb |- *.
    destruct (List.filter (λ e, negb (w_bans w e)) (ord es)) as [|e valid] eqn:Ev;
      [rewrite Hb; subst R; rewrite <- Hb; apply follows_store_lesson with fuel; done|].
    eapply follows_bind_eq; [|done|].
    - apply follows_each. intros x Hx. apply follows_score.
    - intros scores Hs _. apply follows_store_lesson with fuel. rewrite HR, <- Hb. rewrite Hs. done.
  Qed.

  Lemma follows_course fuel u : (∀ u, follows (unit_score w fuel u) (base_unit fuel u)) →
    follows (course_score w (unit_score w fuel) fuel u) (base_course (base_unit fuel) fuel u).
  Proof using.
    intros Hus c Hc H. unfold course_score. destruct (c_course c !! u) as [v|] eqn:E.
    { destruct (g_course c Hc u v E) as [n Hn]. exists c. split; [|done]. f_equal. rewrite <- Hn.
      apply (same_answer (λ n, base_course (base_unit n) n u)); [|by rewrite Hn|done].
      intros n1 n2 Hle. apply le_base_course; [|done]. intros x. by apply le_base_unit. }
    apply (g_course_none c Hc) in E.
    revert c Hc H. set (R := base_course (base_unit fuel) fuel u). assert (HR : base_course (base_unit fuel) fuel u = R) by done.
    clearbody R. change (follows (if w_bans w u then then_do (write (set_course <[u := None]>)) (λ _, done_with None)
      else then_do (superseded w (unit_score w fuel) fuel u) (λ b,
             if b then then_do (write (set_course <[u := None]>)) (λ _, done_with None)
             else
               match get_course_lessons g u with
               | None => then_do (write (set_course <[u := None]>)) (λ _, done_with None)
               | Some ls =>
                   then_do (each (λ l, or_default None (lesson_score w (unit_score w fuel) fuel l)) (ord ls)) (λ scores,
                     match omap id scores with
                     | [] => done_with None
                     | valid => then_do (write (set_course <[u := Some (average valid)]>)) (λ _, done_with (Some (average valid)))
                     end)
               end)) R).
    assert (HR' := HR). unfold base_course in HR'. rewrite E in HR'. destruct (w_bans w u).
    { subst R. rewrite <- HR'. apply follows_store_course with fuel. done. }
    eapply follows_bind_eq; [by apply follows_superseded|exact HR'|]. intros x _ Hb.
    destruct x; [rewrite Hb; subst R; rewrite <- Hb; apply follows_store_course with fuel; done|].
    destruct (get_course_lessons g u) as [ls|] eqn:Els; [|rewrite Hb; subst R; rewrite <- Hb; apply follows_store_course with fuel; done].
    eapply follows_bind_eq; [|done|].
    - apply follows_each. intros x Hx. by apply follows_default, follows_lesson.
    - intros scores Hs _. rewrite Hs in Hb. cbn [obind] in Hb |- *. destruct (omap id scores) as [|v vs].
      + apply follows_done.
      + apply follows_store_course with fuel. by rewrite HR.
  Qed.

  Lemma follows_unit fuel u : follows (unit_score w fuel u) (base_unit fuel u).
  Proof using.
    revert u. induction fuel as [|fuel IH]; intros u; [apply follows_fuel|]. cbn [unit_score base_unit]. change (w_graph w) with g.
    destruct (get_unit_type g u) as [[| |]|] eqn:Et.
    - apply follows_bind; [by apply follows_score|]. intros s. apply follows_done.
    - by apply follows_lesson.
    - by apply follows_course.
    - intros c Hc _. by exists c.
  Qed.

  Lemma follows_lesson_trials l : follows (lesson_trials w l) (base_lesson_trials l).
  Proof using.
    intros c Hc H. unfold lesson_trials. destruct (c_lesson_trials c !! l) as [v|] eqn:E.
    { exists c. by rewrite (g_lesson_trials c Hc l v E). }
    apply (g_lesson_trials_none c Hc) in E.
    revert c Hc H. set (R := base_lesson_trials l). assert (HR : base_lesson_trials l = R) by done. clearbody R.
    assert (HR' := HR). unfold base_lesson_trials in HR'. rewrite E in HR'. unfold pure_lesson_trials in HR'.
    change (w_graph based) with g in HR'. change (w_graph w) with g.
    destruct (get_lesson_exercises g l) as [es|] eqn:Ees.
    2:{ subst R. rewrite <- HR'. intros c Hc _. by exists c. }
    eapply follows_bind_eq; [|exact HR'|].
    - apply follows_each. intros x Hx. apply follows_default. apply follows_bind; [|intros n; apply follows_done]. apply follows_num.
    - intros ns _ Hb c Hc _. eexists. split; [done|]. destruct Hc. split; cbn; try done.
      + intros l' v'. destruct (decide (l' = l)) as [-> | Hne].
        * rewrite lookup_insert. intros [= <-]. by rewrite HR, <- Hb.
        * rewrite lookup_insert_ne by done. auto.
      + intros l'. destruct (decide (l' = l)) as [-> | Hne]; [by rewrite lookup_insert|]. rewrite lookup_insert_ne by done. auto.
  Qed.
  Lemma follows_course_trials fuel u : follows (course_trials w fuel u) (base_course_trials fuel u).
  Proof using.
    intros c Hc H. unfold course_trials. destruct (c_course_trials c !! u) as [v|] eqn:E.
    { destruct (g_course_trials c Hc u v E) as [n Hn]. exists c. split; [|done]. f_equal. rewrite <- Hn.
      apply (same_answer (λ n, base_course_trials n u)); [|by rewrite Hn|done].
      intros n1 n2 Hle. by apply le_base_trials. }
    apply (g_course_trials_none c Hc) in E.
    revert c Hc H. set (R := base_course_trials fuel u). assert (HR : base_course_trials fuel u = R) by done. clearbody R.
    assert (HR' := HR). unfold base_course_trials in HR'. rewrite E in HR'.
    eapply follows_bind_eq; [|exact HR'|].
    - apply follows_each. intros x Hx. apply follows_bind; [|intros y; apply follows_done]. apply follows_superseded. intros y. apply follows_unit.
    - intros ls Hls Hb. eapply follows_bind_eq; [|done|].
      + apply follows_each. intros l _. apply follows_lesson_trials.
      + intros ns Hns _. cbv beta in Hb. rewrite Hns in Hb. cbn [obind] in Hb |- *. intros c Hc _. eexists. split; [done|].
        destruct Hc. split; cbn; try done.
        * intros u' v'. destruct (decide (u' = u)) as [-> | Hne].
          -- rewrite lookup_insert. intros [= <-]. exists fuel. by rewrite HR, <- Hb.
          -- rewrite lookup_insert_ne by done. auto.
        * intros l'. destruct (decide (l' = u)) as [-> | Hne]; [by rewrite lookup_insert|]. rewrite lookup_insert_ne by done. auto.
  Qed.
End base.

(** ** The answers do not run out of fuel *)
Section fine.
  Context (w : world) (b : caches) (Hord : ∀ s, w_ord w s ≡ₚ elements s) (Hfin : ∀ e, w_exercise w e ≠ NoFuel).
  Let g := w_graph w.
  Lemma based_fin e : w_exercise (based w b) e ≠ NoFuel.
  Proof using Hfin. unfold based. cbn. destruct (c_exercise b !! e); [done|apply Hfin]. Qed.
  Lemma based_ord s : w_ord (based w b) s ≡ₚ elements s.
  Proof using Hord. apply Hord. Qed.
  Lemma fine_base_lesson us n fuel l : (∀ x, low g n x → fine (us x)) → n < fuel → (∀ v, is_superseded_by g l v → low g n v) →
    fine (base_lesson w b us fuel l).
  Proof using Hord Hfin.
    intros Hus Hf H. unfold base_lesson. destruct (c_lesson b !! l); [done|].
    by apply (fine_lesson (based w b) based_ord based_fin us n Hus).
  Qed.
  Lemma fine_base_course us n fuel u : (∀ x, low g n x → fine (us x)) → n < fuel → (∀ v, below g u v → low g n v) →
    fine (base_course w b us fuel u).
  Proof using Hord Hfin.
    intros Hus Hf H. unfold base_course. destruct (c_course b !! u); [done|]. destruct (w_bans w u); [done|].
    eapply okv_bind; [apply (fine_superseded (based w b) based_ord based_fin us n Hus); [done|]; intros v Hv; apply H; by left|].
    intros [|] _; [done|].
    destruct (get_course_lessons (w_graph w) u) as [ls|] eqn:E; [|done].
    eapply okv_bind.
    - apply okv_each with (Q := λ _, True). intros l Hl. apply okv_default; [|done]. apply fine_base_lesson with n; [done|done|].
      apply UnitEnds.ord_in in Hl; [|done]. assert (Hb : below g u l) by (right; exists ls; done).
      intros v Hv. apply (low_below w) with l; [by apply H|by left].
    - intros scores _. by destruct (omap id scores).
  Qed.
  Lemma fine_base_unit n fuel u : low g n u → n < fuel → fine (base_unit w b fuel u).
  Proof using Hord Hfin.
    revert fuel u. induction n as [|n IH]; intros fuel u Hu Hf; [inversion Hu|]. destruct fuel as [|fuel]; [lia|].
    cbn [base_unit]. destruct (get_unit_type (w_graph w) u) as [[| |]|]; [| | |done].
    - eapply okv_bind; [apply (fine_score (based w b) based_fin)|]. done.
    - apply fine_base_lesson with n; [intros x Hx; apply IH; [done|lia]|lia|]. intros v Hv. apply (low_pred w) with u; [done|by left].
    - apply fine_base_course with n; [intros x Hx; apply IH; [done|lia]|lia|]. intros v Hv. by apply (low_pred w) with u.
  Qed.
  Section all.
    Context (n : nat) (Hlow : ∀ u, low g n u).
    Lemma fine_base_superseded fuel u : n < fuel → fine (pure_superseded (based w b) (base_unit w b fuel) fuel u).
    Proof using Hord Hfin Hlow.
      intros Hf. apply (fine_superseded (based w b) based_ord based_fin _ n); [|done|intros v _; apply Hlow].
      intros x Hx. by apply fine_base_unit with n.
    Qed.
    Lemma fine_base_lesson_trials l : fine (base_lesson_trials w b l).
    Proof using Hfin.
      unfold base_lesson_trials. destruct (c_lesson_trials b !! l); [done|]. unfold pure_lesson_trials.
      destruct (get_lesson_exercises _ l); [|done]. eapply okv_bind; [|done]. apply okv_each with (Q := λ _, True). intros x _.
      apply okv_default; [|done]. eapply okv_bind with (Q := λ _, True); [|done].
      unfold pure_num. pose proof (based_fin x). by destruct (w_exercise (based w b) x).
    Qed.
    Lemma fine_base_course_trials fuel u : n < fuel → fine (base_course_trials w b fuel u).
    Proof using Hord Hfin Hlow.
      intros Hf. unfold base_course_trials. destruct (c_course_trials b !! u); [done|].
      eapply okv_bind.
      - apply okv_each with (Q := λ _, True). intros l _. eapply okv_bind; [by apply fine_base_superseded|]. done.
      - intros ls _. eapply okv_bind; [apply okv_each with (Q := λ _, True); intros l _; apply fine_base_lesson_trials|]. done.
    Qed.

    (** ** The answers, as functions *)
    Definition base_reply (q : question) : answer :=
      match q with
      | AScore fuel u => OfScore (base_unit w b fuel u)
      | ATrials fuel u => OfTrials
          match get_unit_type (w_graph w) u with
          | Some Course => base_course_trials w b fuel u
          | Some Lesson => base_lesson_trials w b u
          | _ => Val None
          end
      | ASuperseded fuel u => OfSuperseded (pure_superseded (based w b) (base_unit w b fuel) fuel u)
      | AExercise e => OfExercise (w_exercise (based w b) e)
      end.
    Lemma fine_fuel {A} (m : outcome A) : fine m → m ≠ NoFuel.
    Proof using. by destruct m. Qed.
    Lemma reply_base q c : fuelled (S n) q → grown w b c → ∃ c', reply w q c = (base_reply q, c') ∧ grown w b c'.
    Proof using Hord Hfin Hlow.
      intros Hq Hc. destruct q as [fuel u|fuel u|fuel u|e]; cbn [reply base_reply fuelled] in *.
      - destruct (follows_unit w b fuel u c Hc) as (c' & E & Hc'); [apply fine_fuel, fine_base_unit with n; [apply Hlow|lia]|].
        rewrite E. by exists c'.
      - unfold avg_trials. destruct (get_unit_type (w_graph w) u) as [[| |]|]; [by exists c| | |by exists c].
        + destruct (follows_lesson_trials w b u c Hc) as (c' & E & Hc'); [apply fine_fuel, fine_base_lesson_trials|]. rewrite E. by exists c'.
        + destruct (follows_course_trials w b fuel u c Hc) as (c' & E & Hc'); [apply fine_fuel, fine_base_course_trials; lia|]. rewrite E. by exists c'.
      - destruct (follows_superseded w b (unit_score w fuel) (base_unit w b fuel) (follows_unit w b fuel) fuel u c Hc) as (c' & E & Hc');
          [apply fine_fuel, fine_base_superseded; lia|]. rewrite E. by exists c'.
      - destruct (follows_entry w b e c Hc) as (c' & E & Hc'); [apply based_fin|]. rewrite E. by exists c'.
    Qed.
    Lemma grown_questions qs c : Forall (fuelled (S n)) qs → grown w b c → grown w b (after_questions w qs c).
    Proof using Hord Hfin Hlow.
      revert c. induction qs as [|q qs IH]; intros c Hqs Hc; [done|]. apply Forall_cons in Hqs as [Hq Hqs].
      cbn [after_questions fold_left]. apply IH; [done|]. destruct (reply_base q c Hq Hc) as (c' & E & Hc'). by rewrite E.
    Qed.
  End all.
End fine.

Lemma questions_transparent lib : opened lib → acyclic (below (lib_graph lib)) → ∃ n, ∀ w,
  w_graph w = lib_graph lib → (∀ s, w_ord w s ≡ₚ elements s) → (∀ e, w_exercise w e ≠ NoFuel) →
  ∀ c asked q, Forall (fuelled n) asked → fuelled n q → fst (reply w q (after_questions w asked c)) = fst (reply w q c).
Proof.
  intros Hl Ha. destruct (low_library lib Hl Ha) as [n Hn]. exists (S n). intros w Hg Ho He c asked q Hall Hq.
  assert (Hlow : ∀ u, low (w_graph w) n u) by (rewrite Hg; apply Hn).
  destruct (reply_base w c Ho He n Hlow q (after_questions w asked c) Hq) as (c1 & -> & _).
  { apply (grown_questions w c Ho He n Hlow); [done|apply grown_start]. }
  destruct (reply_base w c Ho He n Hlow q c Hq (grown_start w c)) as (c2 & -> & _). done.
Qed.
