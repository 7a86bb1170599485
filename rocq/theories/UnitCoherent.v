(** What the caches say about units that nothing supersedes stays right while scores, rewards
    and the blacklist change. *)
From stdpp Require Import gmap strings list.
From Coq Require Import ZArith Lia.
From Verif Require Import F32 Graph GraphSpec UnitScorer UnitSpec UnitProofs.
Local Open Scope bool_scope.

Section coherent.
  Context (w : world).
  Let g := w_graph w.
  Let ord := w_ord w.

  (** ** Scores of units that nothing supersedes *)
  Definition plain_lesson (l : uid) : outcome (option f32) :=
    if w_bans w l then Val None
    else
      match get_lesson_exercises g l with
      | None => Val None
      | Some es =>
          match List.filter (λ e, negb (w_bans w e)) (ord es) with
          | [] => Val None
          | valid => obind (oeach (pure_score w) valid) (λ scores, Val (Some (average scores)))
          end
      end.
  Definition plain_course (u : uid) : outcome (option f32) :=
    if w_bans w u then Val None
    else
      match get_course_lessons g u with
      | None => Val None
      | Some ls =>
          obind (oeach (λ l, odefault None (plain_lesson l)) (ord ls)) (λ scores,
            match omap id scores with
            | [] => Val None
            | valid => Val (Some (average valid))
            end)
      end.
  Definition plain_course_trials (u : uid) : outcome (option f32) :=
    obind (oeach (λ l, Val (l, negb (w_bans w l))) (ord (default ∅ (get_course_lessons g u)))) (λ ls,
      obind (oeach (pure_lesson_trials w) (fst <$> List.filter snd ls)) (λ ns,
        Val match omap id ns with [] => None | valid => Some (average valid) end)).

  Record coh (c : caches) : Prop := {
    y_exercise : ∀ e x, known w e → c_exercise c !! e = Some x → w_exercise w e = Val x;
    y_lesson : ∀ l v, get_superseded_by g l = None → c_lesson c !! l = Some v → plain_lesson l = Val v;
    y_course : ∀ u v, not_superseded g u → c_course c !! u = Some v → plain_course u = Val v;
    y_lesson_trials : ∀ l v, c_lesson_trials c !! l = Some v → pure_lesson_trials w l = Val v;
    y_course_trials : ∀ u v, not_superseded g u → c_course_trials c !! u = Some v → plain_course_trials u = Val v }.
  Lemma coh_none : coh no_caches.
  Proof using. split; intros *; cbn; rewrite ?lookup_empty; done. Qed.

  Definition keeps {A} (m : prog A) : Prop := ∀ c, coh c → coh (m c).2.
  Definition right_ {A} (m : prog A) (r : outcome A) : Prop := ∀ c, coh c → ∃ c', m c = (r, c') ∧ coh c'.
  Lemma right_keeps {A} (m : prog A) r : right_ m r → keeps m.
  Proof using. intros H c Hc. destruct (H c Hc) as (c' & -> & ?). done. Qed.
  Lemma right_done {A} (a : A) : right_ (done_with a) (Val a).
  Proof using. intros c Hc. by exists c. Qed.
  Lemma right_bind {A B} (m : prog A) r (k : A → prog B) k' : right_ m r → (∀ a, r = Val a → right_ (k a) (k' a)) →
    right_ (then_do m k) (obind r k').
  Proof using.
    intros Hm Hk c Hc. unfold then_do. destruct (Hm c Hc) as (c' & E & Hc'). rewrite E.
    destruct r as [a| | |]; cbn in *; [by apply Hk|by exists c'..].
  Qed.
  Lemma right_default {A} (d : A) (m : prog A) r : right_ m r → right_ (or_default d m) (odefault d r).
  Proof using.
    intros Hm c Hc. unfold or_default. destruct (Hm c Hc) as (c' & E & Hc'). rewrite E. destruct r; cbn; by exists c'.
  Qed.
  Lemma right_each {A B} (f : A → prog B) f' l : (∀ x, x ∈ l → right_ (f x) (f' x)) → right_ (each f l) (oeach f' l).
  Proof using.
    induction l as [|x l IH]; intros H; [apply right_done|]. cbn [each oeach]. apply right_bind; [apply H; left|].
    intros y _. apply right_bind; [apply IH; intros z Hz; apply H; by right|]. intros ys _. apply right_done.
  Qed.
  Lemma keeps_done {A} (a : A) : keeps (done_with a). Proof using. by intros c. Qed.
  Lemma keeps_bind {A B} (m : prog A) (k : A → prog B) : keeps m → (∀ a, keeps (k a)) → keeps (then_do m k).
  Proof using.
    intros Hm Hk c Hc. unfold then_do. specialize (Hm c Hc). destruct (m c) as [[a| | |] c']; cbn in *; [by apply Hk|done..].
  Qed.
  Lemma keeps_default {A} (d : A) (m : prog A) : keeps m → keeps (or_default d m).
  Proof using. intros Hm c Hc. unfold or_default. specialize (Hm c Hc). by destruct (m c) as [[a| | |] c']. Qed.
  Lemma keeps_each {A B} (f : A → prog B) l : (∀ x, keeps (f x)) → keeps (each f l).
  Proof using.
    intros H. induction l as [|x l IH]; [apply keeps_done|]. apply keeps_bind; [done|]. intros y. apply keeps_bind; [done|].
    intros ys. apply keeps_done.
  Qed.

  Context (Hord : ∀ s, ord s ≡ₚ elements s)
    (Hex : ∀ l es e, get_lesson_exercises g l = Some es → e ∈ es → known w e).

  Lemma in_ord s x : x ∈ ord s ↔ x ∈ s.
  Proof using Hord. rewrite Hord. apply elem_of_elements. Qed.

  Lemma keeps_entry e : keeps (exercise_entry w e).
  Proof using.
    intros c Hc. unfold exercise_entry. destruct (c_exercise c !! e) as [x|] eqn:E; [done|].
    destruct (w_exercise w e) as [x| | |] eqn:Ew; [|done..]. destruct Hc as [H1 H2 H3 H4 H5]. split; cbn; [|done..].
    intros e' x' Hk'. destruct (decide (e' = e)) as [-> | Hne]; [rewrite lookup_insert; congruence|].
    rewrite lookup_insert_ne by done. by apply H1.
  Qed.
  Lemma right_entry e : known w e → right_ (exercise_entry w e) (w_exercise w e).
  Proof using.
    intros Hk c Hc. pose proof (keeps_entry e c Hc) as Hc'. unfold exercise_entry in *. destruct (c_exercise c !! e) as [x|] eqn:E.
    - apply (y_exercise c Hc e x Hk) in E. rewrite E. by exists c.
    - destruct (w_exercise w e) as [x| | |] eqn:Ew; eauto.
  Qed.
  Lemma right_score e : known w e → right_ (exercise_score w e) (pure_score w e).
  Proof using. intros H. apply right_bind; [by apply right_entry|]. intros x _. apply right_done. Qed.
  Lemma right_num e : known w e → right_ (exercise_num_trials w e) (pure_num w e).
  Proof using. intros H. apply right_bind; [by apply right_entry|]. intros x _. apply right_done. Qed.
  Lemma keeps_score e : keeps (exercise_score w e).
  Proof using. apply keeps_bind; [apply keeps_entry|]. intros x. apply keeps_done. Qed.
  Lemma keeps_num e : keeps (exercise_num_trials w e).
  Proof using. apply keeps_bind; [apply keeps_entry|]. intros x. apply keeps_done. Qed.
  Lemma keeps_have_scores u : keeps (all_have_scores w u).
  Proof using.
    unfold all_have_scores. destruct (valid_in_unit w u) as [|e l]; [apply keeps_done|].
    apply keeps_bind; [|intros scores; apply keeps_done]. apply keeps_each. intros x. apply keeps_default.
    apply keeps_bind; [apply keeps_score|]. intros s. apply keeps_done.
  Qed.

  Section unit.
    Context (us : uid → prog (option f32)) (Hus : ∀ u, keeps (us u)).
    Lemma keeps_is_superseded u by_ : keeps (is_superseded w us u by_).
    Proof using Hus.
      unfold is_superseded. destruct (bool_decide _); [apply keeps_done|]. apply keeps_bind; [apply keeps_have_scores|].
      intros [|]; [|apply keeps_done]. apply keeps_bind; [|intros scores; apply keeps_done]. apply keeps_each. intros x.
      by apply keeps_default.
    Qed.
    Lemma keeps_replace fuel by_ : keeps (replace_superseding w us fuel by_).
    Proof using Hus.
      revert by_. induction fuel as [|fuel IH]; intros by_; [by intros c|]. cbn [replace_superseding].
      apply keeps_bind; [|intros sets; apply keeps_done]. apply keeps_each. intros s.
      destruct (get_superseded_by (w_graph w) s) as [more|]; [|apply keeps_done]. apply keeps_bind; [apply keeps_is_superseded|].
      intros [|]; [apply IH|apply keeps_done].
    Qed.
    Lemma keeps_superseded fuel u : keeps (superseded w us fuel u).
    Proof using Hus.
      unfold superseded. destruct (get_superseded_by (w_graph w) u); [|apply keeps_done].
      apply keeps_bind; [apply keeps_replace|]. intros by_. apply keeps_is_superseded.
    Qed.
  End unit.
  Lemma right_superseded us fuel u : get_superseded_by g u = None → right_ (superseded w us fuel u) (Val false).
  Proof using. intros H. unfold superseded. change (w_graph w) with g. rewrite H. apply right_done. Qed.

  Lemma right_store_lesson l v : plain_lesson l = Val v →
    right_ (then_do (write (set_lesson <[l := v]>)) (λ _, done_with v)) (Val v).
  Proof using.
    intros Hv c [H1 H2 H3 H4 H5]. eexists. split; [done|]. split; cbn; [done| |done..]. intros l' v' Hl.
    destruct (decide (l' = l)) as [-> | Hne]; [rewrite lookup_insert; by intros [= <-]|]. rewrite lookup_insert_ne by done. by apply H2.
  Qed.
  Lemma right_store_course l v : plain_course l = Val v →
    right_ (then_do (write (set_course <[l := v]>)) (λ _, done_with v)) (Val v).
  Proof using.
    intros Hv c [H1 H2 H3 H4 H5]. eexists. split; [done|]. split; cbn; [done|done| |done..]. intros l' v' Hl.
    destruct (decide (l' = l)) as [-> | Hne]; [rewrite lookup_insert; by intros [= <-]|]. rewrite lookup_insert_ne by done. by apply H3.
  Qed.
  Lemma keeps_store_lesson l v : get_superseded_by g l ≠ None → keeps (then_do (write (set_lesson <[l := v]>)) (λ _, done_with v)).
  Proof using.
    intros Hv c [H1 H2 H3 H4 H5]. split; cbn; [done| |done..]. intros l' v' Hl.
    destruct (decide (l' = l)) as [-> | Hne]; [done|]. rewrite lookup_insert_ne by done. by apply H2.
  Qed.
  Lemma keeps_store_course l v : ¬ not_superseded g l → keeps (then_do (write (set_course <[l := v]>)) (λ _, done_with v)).
  Proof using.
    intros Hv c [H1 H2 H3 H4 H5]. split; cbn; [done|done| |done..]. intros l' v' Hl.
    destruct (decide (l' = l)) as [-> | Hne]; [done|]. rewrite lookup_insert_ne by done. by apply H3.
  Qed.

  Lemma right_bind_eq {A B} (m : prog A) r (k : A → prog B) k' R : right_ m r → obind r k' = R →
    (∀ a, r = Val a → k' a = R → right_ (k a) (k' a)) → right_ (then_do m k) R.
  Proof using.
    intros Hm <- Hk c Hc. unfold then_do. destruct (Hm c Hc) as (c' & E & Hc'). rewrite E.
    destruct r as [a| | |]; cbn in *; [by apply Hk|by exists c'..].
  Qed.

  Lemma right_lesson us fuel l : get_superseded_by g l = None → right_ (lesson_score w us fuel l) (plain_lesson l).
  Proof using Hord Hex.
    intros Hs c Hc. unfold lesson_score. destruct (c_lesson c !! l) as [v|] eqn:E.
    { exists c. by rewrite (y_lesson c Hc l v Hs E). }
    clear E. revert c Hc. set (R := plain_lesson l). assert (HR : plain_lesson l = R) by done. clearbody R.
    change (right_ (if w_bans w l then then_do (write (set_lesson <[l := None]>)) (λ _, done_with None)
      else then_do (superseded w us fuel l) (λ b,
             if b then then_do (write (set_lesson <[l := None]>)) (λ _, done_with None)
             else
               match get_lesson_exercises g l with
               | None => then_do (write (set_lesson <[l := None]>)) (λ _, done_with None)
               | Some es =>
                   match List.filter (λ e, negb (w_bans w e)) (ord es) with
                   | [] => then_do (write (set_lesson <[l := None]>)) (λ _, done_with None)
                   | valid => then_do (each (exercise_score w) valid) (λ scores,
                       then_do (write (set_lesson <[l := Some (average scores)]>)) (λ _, done_with (Some (average scores))))
                   end
               end)) R).
    assert (HR' := HR). unfold plain_lesson in HR'. destruct (w_bans w l).
    { rewrite <- HR'. apply right_store_lesson. by rewrite HR, HR'. }
    eapply (right_bind_eq _ (Val false) _ (λ _, R)); [by apply right_superseded|done|]. intros b [= <-] _.
    destruct (get_lesson_exercises g l) as [es|] eqn:Ees.
    2:{ rewrite <- HR'. apply right_store_lesson. by rewrite HR, HR'. }
    destruct (List.filter (λ e, negb (w_bans w e)) (ord es)) as [|e valid] eqn:Ev.
    { rewrite <- HR'. apply right_store_lesson. by rewrite HR, HR'. }
    eapply right_bind_eq; [|exact HR'|].
    - apply right_each. intros x Hx. apply right_score. rewrite <- Ev in Hx. apply elem_of_list_In, filter_In in Hx as [Hx _].
      apply elem_of_list_In in Hx. rewrite in_ord in Hx. by apply (Hex l es).
    - intros scores Hs' Hb. apply right_store_lesson. by rewrite HR, Hb.
  Qed.
  Lemma keeps_lesson us fuel l : (∀ u, keeps (us u)) → keeps (lesson_score w us fuel l).
  Proof using Hord Hex.
    intros Hus. destruct (get_superseded_by g l) eqn:E; [|by eapply right_keeps, right_lesson].
    assert (Hs : ∀ v, keeps (then_do (write (set_lesson <[l := v]>)) (λ _, done_with v))).
    { intros v. apply keeps_store_lesson. by rewrite E. }
    intros c Hc. unfold lesson_score. destruct (c_lesson c !! l) as [v|]; [done|].
    destruct (w_bans w l); [by apply Hs|]. apply keeps_bind; [by apply keeps_superseded| |done]. intros [|]; [apply Hs|].
    destruct (get_lesson_exercises _ l) as [es|]; [|apply Hs]. destruct (List.filter _ _) as [|e valid]; [apply Hs|].
    apply keeps_bind; [apply keeps_each; intros x; apply keeps_score|]. intros scores. apply Hs.
  Qed.

  Lemma right_course us fuel u : not_superseded g u → right_ (course_score w us fuel u) (plain_course u).
  Proof using Hord Hex.
    intros Hs c Hc. unfold course_score. destruct (c_course c !! u) as [v|] eqn:E.
    { exists c. by rewrite (y_course c Hc u v Hs E). }
    clear E. revert c Hc. set (R := plain_course u). assert (HR : plain_course u = R) by done. clearbody R.
    change (right_ (if w_bans w u then then_do (write (set_course <[u := None]>)) (λ _, done_with None)
      else then_do (superseded w us fuel u) (λ b,
             if b then then_do (write (set_course <[u := None]>)) (λ _, done_with None)
             else
               match get_course_lessons g u with
               | None => then_do (write (set_course <[u := None]>)) (λ _, done_with None)
               | Some ls =>
                   then_do (each (λ l, or_default None (lesson_score w us fuel l)) (ord ls)) (λ scores,
                     match omap id scores with
                     | [] => done_with None
                     | valid => then_do (write (set_course <[u := Some (average valid)]>)) (λ _, done_with (Some (average valid)))
                     end)
               end)) R).
    assert (HR' := HR). unfold plain_course in HR'. destruct (w_bans w u).
    { rewrite <- HR'. apply right_store_course. by rewrite HR, HR'. }
    eapply (right_bind_eq _ (Val false) _ (λ _, R)); [by apply right_superseded, Hs|done|]. intros b [= <-] _.
    destruct (get_course_lessons g u) as [ls|] eqn:Els.
    2:{ rewrite <- HR'. apply right_store_course. by rewrite HR, HR'. }
    eapply right_bind_eq; [|exact HR'|].
    - apply right_each. intros x Hx. apply right_default, right_lesson. apply in_ord in Hx. by apply (proj2 Hs ls).
    - intros scores _ Hb. cbv beta in Hb |- *. destruct (omap id scores) as [|v vs].
      + apply right_done.
      + apply right_store_course. by rewrite HR, <- Hb.
  Qed.
  Lemma not_superseded_dec u : not_superseded g u ∨ ¬ not_superseded g u.
  Proof using.
    unfold not_superseded. destruct (get_superseded_by g u); [right; naive_solver|].
    destruct (get_course_lessons g u) as [ls|]; [|left; naive_solver].
    destruct (decide (set_Forall (λ l, get_superseded_by g l = None) ls)) as [H|H]; [left|right].
    - split; [done|]. intros ? [= <-] l Hl. by apply H.
    - intros [_ H']. apply H. intros l Hl. by apply (H' ls).
  Qed.
  Lemma keeps_course us fuel u : (∀ u, keeps (us u)) → keeps (course_score w us fuel u).
  Proof using Hord Hex.
    intros Hus. destruct (not_superseded_dec u) as [Hn|Hn]; [by eapply right_keeps, right_course|].
    assert (Hs : ∀ v, keeps (then_do (write (set_course <[u := v]>)) (λ _, done_with v))).
    { intros v. by apply keeps_store_course. }
    intros c Hc. unfold course_score. destruct (c_course c !! u) as [v|]; [done|].
    destruct (w_bans w u); [by apply Hs|]. apply keeps_bind; [by apply keeps_superseded| |done]. intros [|]; [apply Hs|].
    destruct (get_course_lessons _ u) as [ls|]; [|apply Hs].
    apply keeps_bind; [apply keeps_each; intros x; by apply keeps_default, keeps_lesson|]. intros scores.
    destruct (omap id scores); [apply keeps_done|apply Hs].
  Qed.
  Lemma keeps_unit fuel u : keeps (unit_score w fuel u).
  Proof using Hord Hex.
    revert u. induction fuel as [|fuel IH]; intros u; [by intros c|]. cbn [unit_score].
    destruct (get_unit_type (w_graph w) u) as [[| |]|]; [|by apply keeps_lesson|by apply keeps_course|by intros c].
    apply keeps_bind; [apply keeps_score|]. intros s. apply keeps_done.
  Qed.

  Definition plain_unit (u : uid) : outcome (option f32) :=
    match get_unit_type g u with
    | None => Fail
    | Some Course => plain_course u
    | Some Lesson => plain_lesson u
    | Some Exercise => obind (pure_score w u) (λ s, Val (Some s))
    end.
  Lemma right_unit fuel u : not_superseded g u → right_ (unit_score w (S fuel) u) (plain_unit u).
  Proof using Hord Hex.
    intros Hn. cbn [unit_score]. unfold plain_unit. change (w_graph w) with g. destruct (get_unit_type g u) as [[| |]|] eqn:Et.
    - apply right_bind; [by apply right_score|]. intros s _. apply right_done.
    - apply right_lesson, Hn.
    - by apply right_course.
    - intros c Hc. by exists c.
  Qed.

  Lemma right_lesson_trials l : right_ (lesson_trials w l) (pure_lesson_trials w l).
  Proof using Hord Hex.
    intros c Hc. unfold lesson_trials. destruct (c_lesson_trials c !! l) as [v|] eqn:E.
    { exists c. by rewrite (y_lesson_trials c Hc l v E). }
    clear E. revert c Hc. set (R := pure_lesson_trials w l). assert (HR : pure_lesson_trials w l = R) by done. clearbody R.
    assert (HR' := HR). unfold pure_lesson_trials in HR'. change (w_graph w) with g in HR' |- *. destruct (get_lesson_exercises g l) as [es|] eqn:Ees.
    2:{ subst R. rewrite <- HR'. intros c Hc. by exists c. }
    eapply right_bind_eq; [|exact HR'|].
    - apply right_each. intros x Hx. apply right_default. apply right_bind; [|intros n _; apply right_done]. apply right_num.
      apply elem_of_list_In, filter_In in Hx as [Hx _]. apply elem_of_list_In in Hx. change (w_ord w) with ord in Hx.
      rewrite in_ord in Hx. by apply (Hex l es).
    - intros ns _ Hb c [H1 H2 H3 H4 H5]. eexists. split; [done|]. split; cbn; [done..| |done]. intros l' v'.
      destruct (decide (l' = l)) as [-> | Hne].
      + rewrite lookup_insert. intros [= <-]. by rewrite HR, <- Hb.
      + rewrite lookup_insert_ne by done. by apply H4.
  Qed.
  Lemma right_course_trials fuel u : not_superseded g u → right_ (course_trials w fuel u) (plain_course_trials u).
  Proof using Hord Hex.
    intros Hn c Hc. unfold course_trials. destruct (c_course_trials c !! u) as [v|] eqn:E.
    { exists c. by rewrite (y_course_trials c Hc u v Hn E). }
    clear E. revert c Hc. set (R := plain_course_trials u). assert (HR : plain_course_trials u = R) by done. clearbody R.
    assert (HR' := HR). unfold plain_course_trials in HR'.
    eapply right_bind_eq; [|exact HR'|].
    - apply right_each. intros x Hx. change (w_graph w) with g in Hx. change (w_ord w) with ord in Hx. apply in_ord in Hx.
      eapply (right_bind_eq _ (Val false) _ (λ b, Val (x, negb (w_bans w x) && negb b))).
      + apply right_superseded. destruct (get_course_lessons g u) as [ls|] eqn:El; cbn in Hx; [|by apply not_elem_of_empty in Hx].
        by apply (proj2 Hn ls).
      + cbn [obind negb]. by rewrite andb_true_r.
      + intros b _ _. apply right_done.
    - intros ls _ Hb. cbv beta in Hb |- *. rewrite Hb. eapply right_bind_eq; [|exact Hb|].
      + apply right_each. intros l _. apply right_lesson_trials.
      + intros ns _ Hb' c [H1 H2 H3 H4 H5]. eexists. split; [done|]. split; cbn; [done..|]. intros u' v' Hu'.
        destruct (decide (u' = u)) as [-> | Hne].
        * rewrite lookup_insert. intros [= <-]. by rewrite HR, <- Hb'.
        * rewrite lookup_insert_ne by done. by apply H5.
  Qed.
  Lemma keeps_course_trials fuel u : keeps (course_trials w fuel u).
  Proof using Hord Hex.
    destruct (not_superseded_dec u) as [Hn|Hn]; [by eapply right_keeps, right_course_trials|].
    intros c Hc. unfold course_trials. destruct (c_course_trials c !! u) as [v|]; [done|].
    apply keeps_bind; [| |done].
    - apply keeps_each. intros l. apply keeps_bind; [apply keeps_superseded, keeps_unit|]. intros b. apply keeps_done.
    - intros ls. apply keeps_bind; [apply keeps_each; intros l; eapply right_keeps, right_lesson_trials|].
      intros ns c' [H1 H2 H3 H4 H5]. split; cbn; [done..|]. intros u' v' Hu'.
      destruct (decide (u' = u)) as [-> | Hne]; [done|]. rewrite lookup_insert_ne by done. by apply H5.
  Qed.
  Lemma keeps_avg_trials fuel u : keeps (avg_trials w fuel u).
  Proof using Hord Hex.
    unfold avg_trials. destruct (get_unit_type _ u) as [[| |]|]; [apply keeps_done| |apply keeps_course_trials|apply keeps_done].
    eapply right_keeps, right_lesson_trials.
  Qed.
  Lemma keeps_lesson_trials l : keeps (lesson_trials w l).
  Proof using Hord Hex. eapply right_keeps, right_lesson_trials. Qed.
End coherent.

(** ** A change of the world *)
Section change.
  Context (w w' : world) (Eg : w_graph w' = w_graph w) (Eo : w_ord w' = w_ord w).
  Let g := w_graph w.

  Definition same_ban (u : uid) : Prop := w_bans w' u = w_bans w u.
  Definition same_lesson (l : uid) : Prop := same_ban l ∧
    ∀ es e, get_lesson_exercises g l = Some es → e ∈ es → same_ban e ∧ w_exercise w' e = w_exercise w e.
  Definition same_course (u : uid) : Prop := same_ban u ∧
    ∀ ls l, get_course_lessons g u = Some ls → l ∈ ls → same_lesson l.

  Context (Hord : ∀ s, w_ord w s ≡ₚ elements s).

  Lemma oeach_ext {A B} (f f' : A → outcome B) l : (∀ x, x ∈ l → f x = f' x) → oeach f l = oeach f' l.
  Proof using.
    induction l as [|x l IH]; intros H; [done|]. cbn. rewrite (H x) by left. rewrite IH; [done|]. intros y Hy. apply H. by right.
  Qed.
  Lemma filter_ext_list {A} (f f' : A → bool) l : (∀ x, x ∈ l → f x = f' x) → List.filter f l = List.filter f' l.
  Proof using.
    induction l as [|x l IH]; intros H; [done|]. cbn. rewrite (H x) by left. rewrite IH; [done|]. intros y Hy. apply H. by right.
  Qed.
  Lemma plain_lesson_same l : same_lesson l → plain_lesson w' l = plain_lesson w l.
  Proof using Eg Eo Hord.
    intros [Hb He]. unfold plain_lesson. rewrite Hb, Eg, Eo. fold g. destruct (w_bans w l); [done|].
    destruct (get_lesson_exercises g l) as [es|]; [|done].
    assert (E : List.filter (λ e, negb (w_bans w' e)) (w_ord w es) = List.filter (λ e, negb (w_bans w e)) (w_ord w es)).
    { apply filter_ext_list. intros x Hx. rewrite Hord in Hx. apply elem_of_elements in Hx. destruct (He es x eq_refl Hx) as [Hs _].
      by rewrite Hs. }
    rewrite E. clear E. destruct (List.filter _ _) as [|e valid] eqn:Ev; [done|]. f_equal.
    apply oeach_ext. intros x Hx. unfold pure_score. rewrite <- Ev in Hx. apply elem_of_list_In, filter_In in Hx as [Hx _].
    apply elem_of_list_In in Hx. rewrite Hord in Hx. apply elem_of_elements in Hx. destruct (He es x eq_refl Hx) as [_ Hs].
    by rewrite Hs.
  Qed.
  Lemma pure_lesson_trials_same l : same_lesson l → pure_lesson_trials w' l = pure_lesson_trials w l.
  Proof using Eg Eo Hord.
    intros [Hb He]. unfold pure_lesson_trials. rewrite Eg, Eo. fold g.
    destruct (get_lesson_exercises g l) as [es|]; [|done].
    assert (E : List.filter (λ e, negb (w_bans w' e)) (w_ord w es) = List.filter (λ e, negb (w_bans w e)) (w_ord w es)).
    { apply filter_ext_list. intros x Hx. rewrite Hord in Hx. apply elem_of_elements in Hx. destruct (He es x eq_refl Hx) as [Hs _].
      by rewrite Hs. }
    rewrite E. clear E. f_equal. apply oeach_ext. intros x Hx. unfold pure_num. apply elem_of_list_In, filter_In in Hx as [Hx _].
    apply elem_of_list_In in Hx. rewrite Hord in Hx. apply elem_of_elements in Hx. destruct (He es x eq_refl Hx) as [_ Hs].
    by rewrite Hs.
  Qed.
  Lemma plain_course_same u : same_course u → plain_course w' u = plain_course w u.
  Proof using Eg Eo Hord.
    intros [Hb Hl]. unfold plain_course. rewrite Hb, Eg, Eo. fold g. destruct (w_bans w u); [done|].
    destruct (get_course_lessons g u) as [ls|]; [|done]. f_equal. apply oeach_ext. intros l H. rewrite Hord in H.
    apply elem_of_elements in H. by rewrite plain_lesson_same by (by apply (Hl ls)).
  Qed.
  Lemma plain_course_trials_same u : same_course u → plain_course_trials w' u = plain_course_trials w u.
  Proof using Eg Eo Hord.
    intros [Hb Hl]. unfold plain_course_trials. rewrite Eg, Eo. fold g.
    assert (Hin : ∀ x, x ∈ w_ord w (default ∅ (get_course_lessons g u)) → same_lesson x).
    { intros x Hx. rewrite Hord in Hx. apply elem_of_elements in Hx. destruct (get_course_lessons g u) as [ls|]; cbn in Hx;
        [by apply (Hl ls)|by apply not_elem_of_empty in Hx]. }
    revert Hin. generalize (w_ord w (default ∅ (get_course_lessons g u))). intros l Hin.
    assert (E : ∀ w l, oeach (λ l, Val (l, negb (w_bans w l))) l = Val ((λ l, (l, negb (w_bans w l))) <$> l)).
    { clear. intros w l. induction l as [|x l IH]; [done|]. cbn. by rewrite IH. }
    rewrite !E. cbn [obind].
    assert (E' : (λ l, (l, negb (w_bans w' l))) <$> l = (λ l, (l, negb (w_bans w l))) <$> l).
    { apply Forall_fmap_ext_1, Forall_forall. intros x Hx. destruct (Hin x Hx) as [Hb' _]. by rewrite Hb'. }
    rewrite E'. f_equal. apply oeach_ext. intros x Hx. apply pure_lesson_trials_same, Hin.
    apply elem_of_list_fmap in Hx as ([y b] & -> & Hy). apply elem_of_list_In, filter_In in Hy as [Hy _].
    apply elem_of_list_In, elem_of_list_fmap in Hy as (z & [= -> ->] & Hz). done.
  Qed.

  Lemma coh_change c c' : coh w c →
    (∀ e x, known w e → c_exercise c' !! e = Some x → c_exercise c !! e = Some x ∧ w_exercise w' e = w_exercise w e) →
    (∀ l v, c_lesson c' !! l = Some v → c_lesson c !! l = Some v ∧ same_lesson l) →
    (∀ u v, c_course c' !! u = Some v → c_course c !! u = Some v ∧ same_course u) →
    (∀ l v, c_lesson_trials c' !! l = Some v → c_lesson_trials c !! l = Some v ∧ same_lesson l) →
    (∀ u v, c_course_trials c' !! u = Some v → c_course_trials c !! u = Some v ∧ same_course u) →
    coh w' c'.
  Proof using Eg Eo Hord.
    intros [H1 H2 H3 H4 H5] G1 G2 G3 G4 G5. split; rewrite ?Eg.
    - unfold known. rewrite Eg. intros e x Hk Hx. destruct (G1 e x Hk Hx) as [? ->]. by apply H1.
    - intros l v Hn Hv. destruct (G2 l v Hv) as [? ?]. rewrite plain_lesson_same by done. by apply H2.
    - intros l v Hn Hv. destruct (G3 l v Hv) as [? ?]. rewrite plain_course_same by done. by apply H3.
    - intros l v Hv. destruct (G4 l v Hv) as [? ?]. rewrite pure_lesson_trials_same by done. by apply H4.
    - intros l v Hn Hv. destruct (G5 l v Hv) as [? ?]. rewrite plain_course_trials_same by done. by apply H5.
  Qed.
End change.
