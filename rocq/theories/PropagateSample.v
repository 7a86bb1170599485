(** Libraries on which the theorems about propagated rewards are shown to say something. *)
From stdpp Require Import gmap strings list.
From Coq Require Import ZArith Lia.
From Verif Require Import F32 Graph GraphSpec GraphProofs Stores Options ScorerSpec PropagateSpec PropagateProofs PropagateMore.
Local Open Scope string_scope.
Local Open Scope list_scope.

Definition as_listed (u : uid) (l : list (uid * f32)) : list (uid * f32) := l.
Lemma as_listed_any : any_order as_listed.
Proof. intros u l. reflexivity. Qed.

(** One course with six lessons. The lesson "L" is encompassed by "A" and by "N", which
    also encompasses "A"; then "P" encompasses "N", "Q" encompasses "P", "M" encompasses "Q". *)
Definition f_0_85 : f32 := lit false 14260634 (-24) eq_refl.
Definition f_0_47 : f32 := lit false 15770583 (-25) eq_refl.
Definition lessons_ops : list gop :=
  AddCourse "C" :: ((λ l, AddLesson l "C") <$> ["L"; "A"; "N"; "P"; "Q"; "M"]) ++ [AddExercise "x" "L"].
Definition above_ops : list gop :=
  [AddEncompassed "P" [] [("N", f_1)]; AddEncompassed "Q" [] [("P", f_1)]; AddEncompassed "M" [] [("Q", f_0_47)]].
Definition a_ops : list gop := [AddEncompassed "A" [] [("L", f_1)]].
Definition n_ops : list gop := [AddEncompassed "N" [] [("L", f_0_85); ("A", f_1)]].
Definition a_first : list gop := lessons_ops ++ a_ops ++ n_ops ++ above_ops.
Definition n_first : list gop := lessons_ops ++ n_ops ++ a_ops ++ above_ops.

Lemma firsts_permuted : a_first ≡ₚ n_first.
Proof. unfold a_first, n_first. apply Permutation_app_head. rewrite !app_assoc. apply Permutation_app_tail, Permutation_app_comm. Qed.

(** All operations are accepted. *)
Definition accepted (ops : list gop) : bool :=
  (fold_left (λ (gb : graph * bool) o, let '(g', b) := gstep gb.1 o in (g', gb.2 && b)) ops (empty_graph, true)).2.

Definition rewarded (ops : list gop) (s : mastery_score) (u : uid) : bool :=
  match propagate_rewards (grun ops) as_listed 100 "x" s 0 with
  | Some r => bool_decide (u ∈ dom r)
  | None => false
  end.
Definition ended (ops : list gop) (s : mastery_score) : bool :=
  match propagate_rewards (grun ops) as_listed 100 "x" s 0 with Some r => true | None => false end.

Lemma firsts_checked : (accepted a_first && accepted n_first && ended a_first One && ended n_first One &&
  rewarded a_first One "M" && negb (rewarded n_first One "M")) = true.
Proof. vm_compute. reflexivity. Qed.

Lemma rewarded_spec ops s u : ended ops s = true → ∃ r, propagate_rewards (grun ops) as_listed 100 "x" s 0 = Some r ∧
  (is_Some (r !! u) ↔ rewarded ops s u = true).
Proof.
  unfold ended, rewarded. destruct (propagate_rewards _ _ _ _ _ _) as [r|]; [|done]. intros _. exists r. split; [done|].
  rewrite bool_decide_eq_true. symmetry. apply elem_of_dom.
Qed.

Lemma order_matters : ∃ ops ops' r r', ops ≡ₚ ops' ∧ accepted ops = true ∧ accepted ops' = true ∧
  propagate_rewards (grun ops) as_listed 100 "x" One 0 = Some r ∧
  propagate_rewards (grun ops') as_listed 100 "x" One 0 = Some r' ∧
  is_Some (r !! "M") ∧ r' !! "M" = None.
Proof.
  pose proof firsts_checked as E. rewrite !andb_true_iff, negb_true_iff in E. destruct E as (((((E1 & E2) & E3) & E4) & E5) & E6).
  destruct (rewarded_spec a_first One "M" E3) as (r & Hr & HM). destruct (rewarded_spec n_first One "M" E4) as (r' & Hr' & HM').
  exists a_first, n_first, r, r'. refine (conj firsts_permuted (conj E1 (conj E2 (conj Hr (conj Hr' (conj _ _)))))).
  - apply HM. exact E5.
  - apply eq_None_not_Some. rewrite HM', E6. done.
Qed.

(** A library where encompassing equals dependency: a chain of ten lessons. *)
Definition chain_ops : list gop :=
  AddCourse "C" :: ((λ l, AddLesson l "C") <$> ["0"; "1"; "2"; "3"; "4"; "5"; "6"; "7"; "8"; "9"]) ++ [AddExercise "x" "0"] ++
  ((λ p : uid * uid, AddDependencies p.1 Lesson [p.2]) <$>
    [("0", "1"); ("1", "2"); ("2", "3"); ("3", "4"); ("4", "5"); ("5", "6"); ("6", "7"); ("7", "8"); ("8", "9"); ("0", "3")]).
Lemma chain_checked : (accepted chain_ops && encompasing_equals_dependency (grun chain_ops) && ended chain_ops Five &&
  forallb (rewarded chain_ops Five) ["1"; "2"; "3"; "4"; "5"; "6"; "7"; "8"; "9"] &&
  negb (rewarded chain_ops Three "1")) = true.
Proof. vm_compute. reflexivity. Qed.

Lemma equals_full g s u v w : encompasing_equals_dependency g = true → leads g s u v w → w = f_1.
Proof.
  unfold encompasing_equals_dependency. rewrite andb_true_iff, !bool_decide_eq_true. intros [E1 E2].
  unfold leads, encompasses, is_encompassed_by, lists, get_encompasses, get_encompassed_by.
  rewrite !decide_True by done.
  destruct (good_score s).
  - destruct (get_dependencies g u) as [d|]; cbn [fmap option_fmap option_map]; [|done].
    intros H. apply elem_of_list_fmap in H as (x & [= _ ->] & _). done.
  - destruct (get_dependents g u) as [d|]; cbn [fmap option_fmap option_map]; [|done].
    intros H. apply elem_of_list_fmap in H as (x & [= _ ->] & _). done.
Qed.

Lemma same_results ops ops' ord ord' s e ts l c fuel fuel' r r' : any_order ord → any_order ord' →
  resolve_roots (grun ops) e = Some (l, c) → resolve_roots (grun ops') e = Some (l, c) → l ≠ "" → c ≠ "" →
  (∀ u v w, leads (grun ops) s u v w ↔ leads (grun ops') s u v w) → (∀ u v w, leads (grun ops) s u v w → w = f_1) →
  propagate_rewards (grun ops) ord fuel e s ts = Some r → propagate_rewards (grun ops') ord' fuel' e s ts = Some r' → r = r'.
Proof.
  intros Ho Ho' R R' Hl Hc Hsame Hfull H H'.
  assert (ST : ∀ n u, steps (grun ops) s l c n u ↔ steps (grun ops') s l c n u).
  { intros n u. split; induction 1 as [root u w ? L|n u u' w ? ? L].
    - apply steps_first with root w; [done|]. by apply Hsame.
    - apply steps_next with u w; [done|]. by apply Hsame.
    - apply steps_first with root w; [done|]. by apply Hsame.
    - apply steps_next with u w; [done|]. by apply Hsame. }
  assert (DT : ∀ n u, distance (grun ops) s l c n u ↔ distance (grun ops') s l c n u).
  { intros n u. unfold distance. rewrite ST. split; intros [D1 D2]; (split; [done|]); intros m Hm; apply D2, ST, Hm. }
  apply map_eq. intros u. apply option_eq. intros x.
  rewrite (full_weights ops ord Ho s e ts l c R Hl Hc Hfull fuel r H).
  rewrite (full_weights ops' ord' Ho' s e ts l c R' Hl Hc (λ u v w L, Hfull u v w (proj2 (Hsame u v w) L)) fuel' r' H').
  split; intros (n & D & S & E); exists n; (split; [by apply DT|done]).
Qed.
