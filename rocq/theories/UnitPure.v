(** In an unchanged world the caches change no answer, superseded units included. *)
From stdpp Require Import gmap strings list relations.
From Coq Require Import ZArith Lia.
From Verif Require Import F32 Graph GraphSpec Library SearchSpec UnitScorer UnitSpec UnitProofs UnitEnds Practice PracticeSpec PracticeProofs PracticeMore.
Local Open Scope bool_scope.

Section ends.
  Context (w : world) (Hord : ∀ s, w_ord w s ≡ₚ elements s) (Hfin : ∀ e, w_exercise w e ≠ NoFuel).
  Let g := w_graph w.

  Definition okv {A} (r : outcome A) (Q : A → Prop) : Prop := match r with NoFuel => False | Val a => Q a | _ => True end.
  Lemma okv_bind {A B} (m : outcome A) Q (k : A → outcome B) Q' : okv m Q → (∀ a, Q a → okv (k a) Q') → okv (obind m k) Q'.
  Proof using. intros Hm Hk. destruct m as [a| | |]; cbn in *; [by apply Hk|done..]. Qed.
  Lemma okv_default {A} (d : A) (m : outcome A) Q : okv m Q → Q d → okv (odefault d m) Q.
  Proof using. by destruct m. Qed.
  Lemma okv_each {A B} (f : A → outcome B) l Q : (∀ x, x ∈ l → okv (f x) Q) → okv (oeach f l) (Forall Q).
  Proof using.
    induction l as [|x l IH]; intros H; [constructor|]. cbn [oeach]. eapply okv_bind; [apply H; left|].
    intros y Hy. eapply okv_bind; [apply IH; intros z Hz; apply H; by right|]. intros ys Hys. by constructor.
  Qed.
  Lemma okv_weaken {A} (m : outcome A) (Q Q' : A → Prop) : okv m Q → (∀ a, Q a → Q' a) → okv m Q'.
  Proof using. intros H HQ. destruct m; cbn in *; auto. Qed.
  Definition fine {A} (m : outcome A) : Prop := okv m (λ _, True).

  Lemma fine_score e : fine (pure_score w e).
  Proof using Hfin. unfold pure_score. pose proof (Hfin e). by destruct (w_exercise w e). Qed.
  Lemma fine_have_scores u : fine (pure_have_scores w u).
  Proof using Hfin.
    unfold pure_have_scores. destruct (valid_in_unit w u); [done|]. eapply okv_bind; [|done].
    apply okv_each with (Q := λ _, True). intros x _. apply okv_default; [|done]. eapply okv_bind; [apply fine_score|]. done.
  Qed.
  Section unit.
    Context (us : uid → outcome (option f32)) (P : uid → Prop) (Hus : ∀ x, P x → fine (us x)).
    Lemma fine_is_superseded u by_ : (∀ x, x ∈ by_ → P x) → fine (pure_is_superseded w us u by_).
    Proof using Hord Hfin Hus.
      intros H. unfold pure_is_superseded. destruct (bool_decide _); [done|]. eapply okv_bind; [apply fine_have_scores|].
      intros [|] _; [|done]. eapply okv_bind; [|done].
      apply okv_each with (Q := λ _, True). intros x Hx. apply okv_default; [|done]. apply Hus, H. by apply ord_in in Hx.
    Qed.
  End unit.
  Section levels.
    Context (us : uid → outcome (option f32)) (n : nat) (Hus : ∀ x, low g n x → fine (us x)).
    Lemma fine_replace m fuel by_ : m ≤ n → m < fuel → (∀ x, x ∈ by_ → low g m x) →
      okv (pure_replace w us fuel by_) (λ s, ∀ x, x ∈ s → low g m x).
    Proof using Hord Hfin Hus.
      revert m by_. induction fuel as [|fuel IH]; intros m by_ Hm Hf Hby; [lia|]. cbn [pure_replace].
      eapply okv_bind.
      - apply okv_each with (Q := λ s : gset uid, ∀ x, x ∈ s → low g m x). intros s Hs. apply ord_in in Hs; [|done].
        destruct (get_superseded_by (w_graph w) s) as [more|] eqn:E.
        + assert (Hmore : ∀ x, x ∈ more → below g s x).
          { intros x Hx. left. unfold is_superseded_by, answers. change g with (w_graph w). rewrite E. done. }
          pose proof (Hby s Hs) as Ls. destruct m as [|m]; [inversion Ls|].
          eapply okv_bind.
          * apply (fine_is_superseded us (low g n) Hus). intros x Hx. apply (low_mono w) with m; [|lia]. apply (low_pred w) with s; [done|by apply Hmore].
          * intros [|] _.
            -- eapply okv_weaken; [apply (IH m); [lia|lia|]|].
               ++ intros x Hx. apply (low_pred w) with s; [done|by apply Hmore].
               ++ intros S HS x Hx. apply (low_mono w) with m; [by apply HS|lia].
            -- intros x ->%elem_of_singleton. done.
        + intros x ->%elem_of_singleton. by apply Hby.
      - intros sets Hsets x Hx. apply elem_of_union_list in Hx as (S & HS & Hx).
        rewrite Forall_forall in Hsets. by apply (Hsets S).
    Qed.
    Lemma fine_superseded fuel u : n < fuel → (∀ v, is_superseded_by g u v → low g n v) → fine (pure_superseded w us fuel u).
    Proof using Hord Hfin Hus.
      intros Hf H. unfold pure_superseded. destruct (get_superseded_by (w_graph w) u) as [by_|] eqn:E; [|done].
      eapply okv_bind; [apply (fine_replace n); [done|done|]|].
      - intros x Hx. apply H. unfold is_superseded_by, answers. change g with (w_graph w). by rewrite E.
      - intros S HS. by apply (fine_is_superseded us (low g n) Hus).
    Qed.
    Lemma fine_lesson fuel l : n < fuel → (∀ v, is_superseded_by g l v → low g n v) → fine (pure_lesson w us fuel l).
    Proof using Hord Hfin Hus.
      intros Hf H. unfold pure_lesson. destruct (w_bans w l); [done|].
      eapply okv_bind; [by apply fine_superseded|]. intros [|] _; [done|].
      destruct (get_lesson_exercises _ l); [|done]. destruct (List.filter _ _); [done|].
      eapply okv_bind; [apply okv_each with (Q := λ _, True); intros; apply fine_score|]. done.
    Qed.
    Lemma fine_course fuel u : n < fuel → (∀ v, below g u v → low g n v) → fine (pure_course w us fuel u).
    Proof using Hord Hfin Hus.
      intros Hf H. unfold pure_course. destruct (w_bans w u); [done|].
      eapply okv_bind; [apply fine_superseded; [done|]; intros v Hv; apply H; by left|]. intros [|] _; [done|].
      destruct (get_course_lessons (w_graph w) u) as [ls|] eqn:E; [|done].
      eapply okv_bind.
      - apply okv_each with (Q := λ _, True). intros l Hl. apply okv_default; [|done]. apply fine_lesson; [done|].
        apply ord_in in Hl; [|done]. assert (Hb : below g u l) by (right; exists ls; done).
        intros v Hv. apply (low_below w) with l; [by apply H|by left].
      - intros scores _. by destruct (omap id scores).
    Qed.
  End levels.
  Lemma fine_unit n fuel u : low g n u → n < fuel → fine (pure_unit w fuel u).
  Proof using Hord Hfin.
    revert fuel u. induction n as [|n IH]; intros fuel u Hu Hf; [inversion Hu|]. destruct fuel as [|fuel]; [lia|].
    cbn [pure_unit]. destruct (get_unit_type (w_graph w) u) as [[| |]|]; [| | |done].
    - eapply okv_bind; [apply fine_score|]. done.
    - apply fine_lesson with n; [intros x Hx; apply IH; [done|lia]|lia|]. intros v Hv. apply (low_pred w) with u; [done|by left].
    - apply fine_course with n; [intros x Hx; apply IH; [done|lia]|lia|]. intros v Hv. by apply (low_pred w) with u.
  Qed.
End ends.

Lemma caches_transparent lib : opened lib → acyclic (below (lib_graph lib)) → ∃ n, ∀ w,
  w_graph w = lib_graph lib → (∀ s, w_ord w s ≡ₚ elements s) → (∀ e, w_exercise w e ≠ NoFuel) →
  ∀ asked fuel u, Forall (λ x, n ≤ x.1) asked → n ≤ fuel →
  fst (unit_score w fuel u (after_asking w asked no_caches)) = fst (unit_score w fuel u no_caches).
Proof.
  intros Hl Ha. destruct (low_library lib Hl Ha) as [n Hn]. exists (S n). intros w Hg Ho He asked fuel u Hall Hf.
  assert (Hp : ∀ fuel u, n < fuel → pure_unit w fuel u ≠ NoFuel).
  { intros f v Hlt E. assert (F : fine (pure_unit w f v)) by (apply fine_unit with n; [done|done|rewrite Hg; apply Hn|done]).
    by rewrite E in F. }
  assert (Hex : ∀ l es e, get_lesson_exercises (w_graph w) l = Some es → e ∈ es → known w e).
  { intros l es e Hes Hin. unfold known. rewrite Hg in *. by apply (listed_known lib Hl l es e). }
  assert (Hc : ∀ asked c, Forall (λ x, S n ≤ x.1) asked → coherent w c → coherent w (after_asking w asked c)).
  { clear asked Hall. induction asked as [|[f v] asked IH]; intros c Hall Hc; [done|]. apply Forall_cons in Hall as [Hx Hall].
    cbn [fst] in Hx. apply (IH (snd (unit_score w f v c))); [done|].
    destruct (agrees_unit w Ho Hex f v c Hc (Hp f v ltac:(lia))) as (c' & -> & Hc'). done. }
  destruct (agrees_unit w Ho Hex fuel u _ (Hc asked no_caches Hall (coherent_none w)) (Hp fuel u ltac:(lia))) as (c1 & -> & _).
  destruct (agrees_unit w Ho Hex fuel u no_caches (coherent_none w) (Hp fuel u ltac:(lia))) as (c2 & -> & _). done.
Qed.
