(** When the computation of a score ends. *)
From stdpp Require Import gmap strings list relations.
From Coq Require Import ZArith Lia.
From Verif Require Import F32 Graph GraphSpec GraphProofs Library LibrarySpec LibraryProofs LoadProofs Filters Options Batch Search SearchSpec LibFacts UnitScorer UnitSpec.
Local Open Scope bool_scope.

Section ends.
  Context (w : world) (Hord : ∀ s, w_ord w s ≡ₚ elements s) (Hfin : ∀ e, w_exercise w e ≠ NoFuel).
  Let g := w_graph w.

  (** The program ends, and its value satisfies [Q]. *)
  Definition okp {A} (m : prog A) (Q : A → Prop) : Prop :=
    ∀ c, match fst (m c) with NoFuel => False | Val a => Q a | _ => True end.
  Lemma okp_done {A} (a : A) (Q : A → Prop) : Q a → okp (done_with a) Q.
  Proof using. intros H c. exact H. Qed.
  Lemma okp_bind {A B} (m : prog A) Q (k : A → prog B) Q' : okp m Q → (∀ a, Q a → okp (k a) Q') → okp (then_do m k) Q'.
  Proof using.
    intros Hm Hk c. unfold then_do. specialize (Hm c). destruct (m c) as [[a| | |] c']; cbn [fst] in *; [by apply Hk|done..].
  Qed.
  Lemma okp_write f (Q : unit → Prop) : Q tt → okp (write f) Q.
  Proof using. intros H c. exact H. Qed.
  Lemma okp_default {A} (d : A) (m : prog A) Q : okp m Q → Q d → okp (or_default d m) Q.
  Proof using. intros Hm Hd c. unfold or_default. specialize (Hm c). destruct (m c) as [[a| | |] c']; done. Qed.
  Lemma okp_each {A B} (f : A → prog B) l Q : (∀ x, x ∈ l → okp (f x) Q) → okp (each f l) (Forall Q).
  Proof using.
    induction l as [|x l IH]; intros H; [apply okp_done; constructor|]. cbn [each]. eapply okp_bind; [apply H; left|].
    intros y Hy. eapply okp_bind; [apply IH; intros z Hz; apply H; by right|]. intros ys Hys. apply okp_done. by constructor.
  Qed.
  Lemma okp_weaken {A} (m : prog A) (Q Q' : A → Prop) : okp m Q → (∀ a, Q a → Q' a) → okp m Q'.
  Proof using. intros H HQ c. specialize (H c). destruct (fst (m c)); auto. Qed.
  Definition ends {A} (m : prog A) : Prop := okp m (λ _, True).

  Lemma ends_entry e : ends (exercise_entry w e).
  Proof using Hfin.
    intros c. unfold exercise_entry. destruct (c_exercise c !! e); [done|]. pose proof (Hfin e). by destruct (w_exercise w e).
  Qed.
  Lemma ends_score e : ends (exercise_score w e).
  Proof using Hfin. eapply okp_bind; [apply ends_entry|]. intros x _. by apply okp_done. Qed.
  Lemma ends_have_scores u : ends (all_have_scores w u).
  Proof using Hfin.
    unfold all_have_scores. destruct (valid_in_unit w u); [by apply okp_done|]. eapply okp_bind; [|intros; by apply okp_done].
    apply okp_each with (Q := λ _, True). intros x _. apply okp_default; [|done].
    eapply okp_bind; [apply ends_score|]. intros; by apply okp_done.
  Qed.
  Lemma ord_in s x : x ∈ w_ord w s ↔ x ∈ s.
  Proof using Hord. rewrite Hord. apply elem_of_elements. Qed.

  Section unit.
    Context (us : uid → prog (option f32)) (P : uid → Prop) (Hus : ∀ x, P x → ends (us x)).
    Lemma ends_is_superseded u by_ : (∀ x, x ∈ by_ → P x) → ends (is_superseded w us u by_).
    Proof using Hord Hfin Hus.
      intros H. unfold is_superseded. destruct (bool_decide _); [by apply okp_done|]. eapply okp_bind; [apply ends_have_scores|].
      intros [|] _; [|by apply okp_done]. eapply okp_bind; [|intros; by apply okp_done].
      apply okp_each with (Q := λ _, True). intros x Hx. apply okp_default; [|done]. apply Hus, H. by apply ord_in.
    Qed.
  End unit.

  Lemma low_mono n m u : low g n u → n ≤ m → low g m u.
  Proof using.
    intros H. revert m. induction H as [n u H IH]; intros m Hm. destruct m as [|m]; [lia|]. constructor. intros v Hv.
    apply IH; [done|lia].
  Qed.
  Lemma low_below n u v : low g n u → below g u v → low g n v.
  Proof using. intros H Hv. inversion H as [m u' Hm]; subst. apply low_mono with m; [by apply Hm|lia]. Qed.
  Lemma low_pred n u v : low g (S n) u → below g u v → low g n v.
  Proof using. intros H Hv. inversion H as [m u' Hm]; subst. by apply Hm. Qed.

  Section levels.
    Context (us : uid → prog (option f32)) (n : nat) (Hus : ∀ x, low g n x → ends (us x)).
    Lemma ends_replace m fuel by_ : m ≤ n → m < fuel → (∀ x, x ∈ by_ → low g m x) →
      okp (replace_superseding w us fuel by_) (λ s, ∀ x, x ∈ s → low g m x).
    Proof using Hord Hfin Hus.
      revert m by_. induction fuel as [|fuel IH]; intros m by_ Hm Hf Hby; [lia|]. cbn [replace_superseding].
      eapply okp_bind.
      - apply okp_each with (Q := λ s : gset uid, ∀ x, x ∈ s → low g m x). intros s Hs. apply ord_in in Hs.
        destruct (get_superseded_by (w_graph w) s) as [more|] eqn:E.
        + assert (Hmore : ∀ x, x ∈ more → below g s x).
          { intros x Hx. left. unfold is_superseded_by, answers. change g with (w_graph w). rewrite E. done. }
          pose proof (Hby s Hs) as Ls. destruct m as [|m]; [inversion Ls|].
          eapply okp_bind.
          * apply (ends_is_superseded us (low g n) Hus). intros x Hx. apply low_mono with m; [|lia]. apply low_pred with s; [done|by apply Hmore].
          * intros [|] _.
            -- eapply okp_weaken; [apply (IH m); [lia|lia|]|].
               ++ intros x Hx. apply low_pred with s; [done|by apply Hmore].
               ++ intros S HS x Hx. apply low_mono with m; [by apply HS|lia].
            -- apply okp_done. intros x ->%elem_of_singleton. done.
        + apply okp_done. intros x ->%elem_of_singleton. by apply Hby.
      - intros sets Hsets. apply okp_done. intros x Hx. apply elem_of_union_list in Hx as (S & HS & Hx).
        rewrite Forall_forall in Hsets. by apply (Hsets S).
    Qed.
    Lemma ends_superseded fuel u : n < fuel → (∀ v, is_superseded_by g u v → low g n v) → ends (superseded w us fuel u).
    Proof using Hord Hfin Hus.
      intros Hf H. unfold superseded. destruct (get_superseded_by (w_graph w) u) as [by_|] eqn:E; [|by apply okp_done].
      eapply okp_bind; [apply (ends_replace n); [done|done|]|].
      - intros x Hx. apply H. unfold is_superseded_by, answers. change g with (w_graph w). by rewrite E.
      - intros S HS. by apply (ends_is_superseded us (low g n) Hus).
    Qed.
    Lemma ends_lesson fuel l : n < fuel → (∀ v, is_superseded_by g l v → low g n v) → ends (lesson_score w us fuel l).
    Proof using Hord Hfin Hus.
      intros Hf H c. unfold lesson_score. destruct (c_lesson c !! l) as [v|]; [done|]. revert c.
      assert (St : ∀ v, ends (then_do (write (set_lesson <[l := v]>)) (λ _, done_with v))).
      { intros v. eapply okp_bind; [by apply (okp_write _ (λ _, True))|]. intros; by apply okp_done. }
      destruct (w_bans w l); [apply St|]. change (ends (then_do (superseded w us fuel l) (λ b,
             if b then then_do (write (set_lesson <[l := None]>)) (λ _, done_with None)
             else
               match get_lesson_exercises (w_graph w) l with
               | None => then_do (write (set_lesson <[l := None]>)) (λ _, done_with None)
               | Some es =>
                   match List.filter (λ e, negb (w_bans w e)) (w_ord w es) with
                   | [] => then_do (write (set_lesson <[l := None]>)) (λ _, done_with None)
                   | valid => then_do (each (exercise_score w) valid) (λ scores,
                       then_do (write (set_lesson <[l := Some (average scores)]>)) (λ _, done_with (Some (average scores))))
                   end
               end))).
      eapply okp_bind; [by apply ends_superseded|]. intros [|] _; [apply St|].
      destruct (get_lesson_exercises _ l); [|apply St]. destruct (List.filter _ _); [apply St|].
      eapply okp_bind; [apply okp_each with (Q := λ _, True); intros; apply ends_score|]. intros scores _. apply St.
    Qed.
    Lemma ends_course fuel u : n < fuel → (∀ v, below g u v → low g n v) → ends (course_score w us fuel u).
    Proof using Hord Hfin Hus.
      intros Hf H c. unfold course_score. destruct (c_course c !! u) as [v|]; [done|]. revert c.
      assert (St : ∀ v, ends (then_do (write (set_course <[u := v]>)) (λ _, done_with v))).
      { intros v. eapply okp_bind; [by apply (okp_write _ (λ _, True))|]. intros; by apply okp_done. }
      destruct (w_bans w u); [apply St|]. change (ends (then_do (superseded w us fuel u) (λ b,
             if b then then_do (write (set_course <[u := None]>)) (λ _, done_with None)
             else
               match get_course_lessons (w_graph w) u with
               | None => then_do (write (set_course <[u := None]>)) (λ _, done_with None)
               | Some ls =>
                   then_do (each (λ l, or_default None (lesson_score w us fuel l)) (w_ord w ls)) (λ scores,
                     match omap id scores with
                     | [] => done_with None
                     | valid => then_do (write (set_course <[u := Some (average valid)]>)) (λ _, done_with (Some (average valid)))
                     end)
               end))).
      eapply okp_bind; [apply ends_superseded; [done|]; intros v Hv; apply H; by left|]. intros [|] _; [apply St|].
      destruct (get_course_lessons (w_graph w) u) as [ls|] eqn:E; [|apply St].
      eapply okp_bind.
      - apply okp_each with (Q := λ _, True). intros l Hl. apply okp_default; [|done]. apply ends_lesson; [done|].
        apply ord_in in Hl. assert (Hb : below g u l) by (right; exists ls; done).
        intros v Hv. apply low_below with l; [by apply H|by left].
      - intros scores _. destruct (omap id scores); [by apply okp_done|apply St].
    Qed.
  End levels.

  Lemma ends_unit n fuel u : low g n u → n < fuel → ends (unit_score w fuel u).
  Proof using Hord Hfin.
    revert fuel u. induction n as [|n IH]; intros fuel u Hu Hf; [inversion Hu|]. destruct fuel as [|fuel]; [lia|].
    cbn [unit_score]. destruct (get_unit_type (w_graph w) u) as [[| |]|].
    - eapply okp_bind; [apply ends_score|]. intros; by apply okp_done.
    - apply ends_lesson with n; [intros x Hx; apply IH; [done|lia]|lia|]. intros v Hv. apply low_pred with u; [done|by left].
    - apply ends_course with n; [intros x Hx; apply IH; [done|lia]|lia|]. intros v Hv. by apply low_pred with u.
    - intros c. done.
  Qed.
End ends.

Lemma tc_r_inv {A} (R : relation A) x z : tc R x z → R x z ∨ ∃ y, tc R x y ∧ R y z.
Proof.
  induction 1 as [x z H|x y z H Ht [IH|(v & Hv & IH)]]; [by left|right; exists y; split; [by apply tc_once|done]|].
  right. exists v. split; [by eapply tc_l|done].
Qed.
(** ** A finite relation without cycles has a bounded height *)
Lemma low_finite g n (X : gset uid) u : acyclic (below g) → size X < n → (∀ x, tc (below g) u x → x ∈ X) → low g n u.
Proof.
  intros Ha. revert X u. induction n as [|n IH]; intros X u Hn HX; [lia|]. constructor. intros v Hv.
  apply IH with (X ∖ {[v]}).
  - assert (v ∈ X) by (apply HX; by apply tc_once). rewrite size_difference by set_solver. rewrite size_singleton.
    assert (size X ≠ 0); [|lia]. intros E. apply size_empty_inv in E. set_solver.
  - intros x Hx. apply elem_of_difference. split; [apply HX; by eapply tc_l|]. intros ->%elem_of_singleton. by apply (Ha v).
Qed.

Section library.
  Context (lib : library) (Hlib : opened lib).
  Let g := lib_graph lib.
  Lemma sup_acyclic : acyclic (supersedes g).
  Proof using Hlib.
    destruct Hlib as (o & courses & Ho & Hc & H). pose proof (open_library_loaded o courses lib Hc H) as L.
    pose proof (proj1 (open_library_iff o courses Ho Hc) ltac:(eauto)) as (_ & _ & Hn).
    apply (loaded_acyclic _ _ L) in Hn. apply Hn.
  Qed.
  Lemma sup_type u v : supersedes g u v → get_unit_type g u = Some Course ∨ get_unit_type g u = Some Lesson.
  Proof using Hlib.
    destruct Hlib as (o & courses & Ho & Hc & H). pose proof (open_library_loaded o courses lib Hc H) as L.
    intros Hs. apply (l_sup _ _ L) in Hs as (d & Hd & Hid & Hin).
    destruct (d_type d) eqn:Et.
    - exfalso. destruct (declared_exercise _ _ Hd Et) as (Hn1 & Hn2 & Hn3). rewrite ?Hn1, ?Hn2, ?Hn3 in Hin. by apply elem_of_nil in Hin.
    - right. apply (l_type _ _ L). exists d. done.
    - left. apply (l_type _ _ L). exists d. done.
  Qed.

  Lemma sup_by u v : is_superseded_by g u v ↔ supersedes g v u.
  Proof using Hlib. pose proof (k_inv _ (opened_ok _ Hlib)) as I. symmetry. unfold supersedes, is_superseded_by, get_supersedes, get_superseded_by. rewrite !answers_mget. apply (i_sup _ I). Qed.
  Lemma lesson_of_spec u l : lesson_of g u l ↔ get_lesson_course g l = Some u.
  Proof using Hlib.
    pose proof (k_inv _ (opened_ok _ Hlib)) as I. pose proof (i_lc _ I l u) as E. unfold lesson_of, get_lesson_course. change (lib_graph lib) with g in E. rewrite E. unfold mget, get_course_lessons.
    destruct (course_lesson_map g !! u); cbn; [naive_solver|]. split; [naive_solver|set_solver].
  Qed.
  Lemma lesson_of_types u l : lesson_of g u l → get_unit_type g u = Some Course ∧ get_unit_type g l = Some Lesson.
  Proof using Hlib.
    rewrite lesson_of_spec. intros H. pose proof (k_inv _ (opened_ok _ Hlib)) as I. apply (i_lc_t _ I) in H. tauto.
  Qed.
  Lemma below_type u v : below g u v → get_unit_type g v = Some Course ∨ get_unit_type g v = Some Lesson.
  Proof using Hlib. intros [H|H]; [apply sup_by in H; exact (sup_type _ _ H)|right; exact (proj2 (lesson_of_types _ _ H))]. Qed.

  Context (Hkind : ∀ u v, supersedes g u v → get_unit_type g u = Some Course → get_unit_type g v ≠ Some Lesson).
  Lemma below_lesson u v : tc (below g) u v → get_unit_type g u = Some Lesson → get_unit_type g v = Some Lesson ∧ tc (supersedes g) v u.
  Proof using Hlib Hkind.
    induction 1 as [u v H|u v x H Ht IH]; intros Hu.
    - assert (Hs : supersedes g v u).
      { destruct H as [H|H]; [by apply sup_by|]. apply lesson_of_types in H as [H _]. rewrite Hu in H. done. }
      split; [|by apply tc_once]. destruct (sup_type _ _ Hs) as [Hc|?]; [|done]. by destruct (Hkind _ _ Hs Hc).
    - assert (Hs : supersedes g v u).
      { destruct H as [H|H]; [by apply sup_by|]. apply lesson_of_types in H as [H _]. rewrite Hu in H. done. }
      destruct IH as [IH1 IH2].
      { destruct (sup_type _ _ Hs) as [Hc|?]; [|done]. by destruct (Hkind _ _ Hs Hc). }
      split; [done|]. eapply tc_transitive; [exact IH2|]. by apply tc_once.
  Qed.
  Lemma below_course u v : tc (below g) u v → get_unit_type g u = Some Course → get_unit_type g v = Some Course → tc (supersedes g) v u.
  Proof using Hlib Hkind.
    induction 1 as [u v H|u v x H Ht IH]; intros Hu Hv.
    - destruct H as [H|H]; [apply tc_once; by apply sup_by|]. apply lesson_of_types in H as [_ H]. rewrite Hv in H. done.
    - destruct (below_type _ _ H) as [Hc|Hl].
      + destruct H as [H|H]; [|apply lesson_of_types in H as [_ H]; rewrite Hc in H; done].
        eapply tc_transitive; [by apply IH|]. apply tc_once. by apply sup_by.
      + destruct (below_lesson _ _ Ht Hl) as [Hx _]. rewrite Hv in Hx. done.
  Qed.
  Lemma below_acyclic : acyclic (below g).
  Proof using Hlib Hkind.
    intros u Hu. assert (Ht : get_unit_type g u = Some Course ∨ get_unit_type g u = Some Lesson).
    { apply tc_r_inv in Hu. destruct Hu as [Hu|(x & _ & Hu)]; by apply below_type in Hu. }
    apply (sup_acyclic u). destruct Ht as [Ht|Ht]; [by apply below_course|by apply below_lesson].
  Qed.
End library.

Lemma low_library lib : opened lib → acyclic (below (lib_graph lib)) → ∃ n, ∀ u, low (lib_graph lib) n u.
Proof.
  intros Hl Ha. exists (S (size (dom (type_map (lib_graph lib))))). intros u. eapply low_finite; [done|apply Nat.lt_succ_diag_r|].
  intros x Hx. apply elem_of_dom. apply tc_r_inv in Hx.
  assert (Ht : get_unit_type (lib_graph lib) x = Some Course ∨ get_unit_type (lib_graph lib) x = Some Lesson).
  { destruct Hx as [Hx|(y & _ & Hx)]; by apply (below_type lib Hl) in Hx. }
  unfold get_unit_type in Ht. destruct Ht as [-> | ->]; by eexists.
Qed.

Lemma scores_return lib : opened lib → acyclic (below (lib_graph lib)) → ∃ n, ∀ w,
  w_graph w = lib_graph lib → (∀ s, w_ord w s ≡ₚ elements s) → (∀ e, w_exercise w e ≠ NoFuel) →
  ∀ fuel u c, n ≤ fuel → fst (unit_score w fuel u c) ≠ NoFuel.
Proof.
  intros Hl Ha. destruct (low_library lib Hl Ha) as [n Hn]. exists (S n). intros w Hg Ho He fuel u c Hf.
  assert (E : ends (unit_score w fuel u)). { apply ends_unit with n; [done|done|rewrite Hg; apply Hn|lia]. }
  specialize (E c). by destruct (fst (unit_score w fuel u c)).
Qed.
Lemma same_kind_acyclic lib : opened lib →
  (∀ u v, supersedes (lib_graph lib) u v → get_unit_type (lib_graph lib) u = Some Course → get_unit_type (lib_graph lib) v ≠ Some Lesson) →
  acyclic (below (lib_graph lib)).
Proof. exact (below_acyclic lib). Qed.
