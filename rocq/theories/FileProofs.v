(** General facts about programs on files. *)
From stdpp Require Import gmap strings list.
From Coq Require Import Ascii.
From Verif Require Import Library StrFacts FileSystem FileSpec.
Local Open Scope string_scope.
Local Open Scope list_scope.

Lemma path_exists_true f p : path_exists f p = true ↔ f !! p ≠ None.
Proof. unfold path_exists. destruct (f !! p); naive_solver. Qed.
Lemma is_dir_true f p : is_dir f p = true ↔ f !! p = Some Dir.
Proof. unfold is_dir. destruct (f !! p) as [[]|]; naive_solver. Qed.
Lemma is_file_true f p : is_file f p = true ↔ ∃ s, f !! p = Some (File s).
Proof. unfold is_file. destruct (f !! p) as [[]|]; naive_solver. Qed.
Lemma parent_snoc p x : parent (p ++ [x]) = p.
Proof. unfold parent. rewrite app_length. cbn. replace (length p + 1 - 1) with (length p) by lia. apply take_app. Qed.

(** A run that is over went through every part. *)
Lemma bind_over {A B : Type} (m : io A) (k : A → io B) n f b n' f' : bind m k n f = Over b n' f' →
  ∃ a n1 f1, m n f = Over a n1 f1 ∧ k a n1 f1 = Over b n' f'.
Proof. unfold bind. destruct (m n f) as [a n1 f1| |]; [|done..]. eauto. Qed.
Lemma step_over c n f a n' f' : step c n f = Over a n' f' → c f = Some f'.
Proof. unfold step. destruct n as [[|n]|]; [done|..]; destruct (c f); naive_solver. Qed.
Lemma look_over {A : Type} (q : files → A) n f a n' f' : look q n f = Over a n' f' → a = q f ∧ n' = n ∧ f' = f.
Proof. intros [= <- <- <-]. done. Qed.
Lemma require_over q n f a n' f' : require q n f = Over a n' f' → q f = true ∧ n' = n ∧ f' = f.
Proof. unfold require, bind, look. destruct (q f); [|done]. intros [= _ <- <-]. done. Qed.
Lemma each_over {A : Type} (k : A → io ()) (P : list A → files → Prop) n f n' f' l a :
  (∀ l1 x l2 n1 f1 n2 f2 a, l = l1 ++ x :: l2 → P l1 f1 → k x n1 f1 = Over a n2 f2 → P (l1 ++ [x]) f2) →
  P [] f → each k l n f = Over a n' f' → P l f'.
Proof.
  intros Hk H0. assert (∀ l2 l1 n1 f1, l = l1 ++ l2 → P l1 f1 → each k l2 n1 f1 = Over a n' f' → P l f') as H; [|exact (H l [] n f eq_refl H0)].
  induction l2 as [|x l2 IH]; intros l1 n1 f1 Hl H1; cbn [each].
  - rewrite app_nil_r in Hl. subst l1. intros [= <- <- <-]. done.
  - intros H. apply bind_over in H as (a' & n2 & f2 & H2 & H3). eapply (IH (l1 ++ [x])); [rewrite <- app_assoc; done| |done]. eauto.
Qed.

(** Relations that hold between the files before and after, however the run ends. *)
Definition keeps {A : Type} (R : files → files → Prop) (m : io A) : Prop := ∀ n f, R f (final (m n f)).
Section keeps.
  Context (R : files → files → Prop) (HR : Reflexive R) (HT : Transitive R).
  Lemma keeps_give {A : Type} (a : A) : keeps R (give a).
  Proof using HR. intros n f. apply HR. Qed.
  Lemma keeps_fail {A : Type} : keeps R (@fail A).
  Proof using HR. intros n f. apply HR. Qed.
  Lemma keeps_look {A : Type} (q : files → A) : keeps R (look q).
  Proof using HR. intros n f. apply HR. Qed.
  Lemma keeps_bind {A B : Type} (m : io A) (k : A → io B) : keeps R m → (∀ a, keeps R (k a)) → keeps R (bind m k).
  Proof using HT. intros Hm Hk n f. unfold bind. pose proof (Hm n f) as H. destruct (m n f) as [a n1 f1| |]; [|done..]. cbn in H. etrans; [exact H|apply Hk]. Qed.
  Lemma keeps_step c : (∀ f f', c f = Some f' → R f f') → keeps R (step c).
  Proof using HR. intros Hc n f. unfold step. destruct n as [[|n]|]; [apply HR|..]; destruct (c f) eqn:E; cbn; eauto. Qed.
  Lemma keeps_require q : keeps R (require q).
  Proof using HR HT. apply keeps_bind; [apply keeps_look|]. intros []; [apply keeps_give|apply keeps_fail]. Qed.
  Lemma keeps_each {A : Type} (k : A → io ()) l : (∀ a, a ∈ l → keeps R (k a)) → keeps R (each k l).
  Proof using HR HT. induction l as [|x l IH]; intros H; [apply keeps_give|]. apply keeps_bind; [apply H; left|]. intros _. apply IH. intros a Ha. apply H. right. done. Qed.
End keeps.

(** ** Writing a file *)

Lemma write_all_over p s : ∀ n f a n' f' t, f !! p = Some (File t) → write_all p s n f = Over a n' f' → f' = <[p := File (t +:+ s)]> f.
Proof.
  induction s as [|c s IH]; intros n f a n' f' t Hp; cbn [write_all].
  - intros [= _ _ <-]. rewrite sapp_nil. rewrite insert_id; done.
  - intros H. apply bind_over in H as (a' & n1 & f1 & H1 & H2). apply step_over in H1. unfold append_char in H1. rewrite Hp in H1. injection H1 as <-.
    eapply IH in H2; [|apply lookup_insert]. rewrite H2, insert_insert, sapp_assoc. done.
Qed.
Lemma write_file_over p s n f a n' f' : write_file p s n f = Over a n' f' → f' = <[p := File s]> f ∧ f !! parent p = Some Dir ∧ f !! p ≠ Some Dir.
Proof.
  intros H. apply bind_over in H as (a' & n1 & f1 & H1 & H2). apply step_over in H1. unfold make_file in H1.
  destruct (is_dir f (parent p) && negb (is_dir f p)) eqn:E; [|done]. injection H1 as <-. apply andb_true_iff in E as [E1 E2].
  apply is_dir_true in E1. apply negb_true_iff in E2. eapply write_all_over in H2; [|apply lookup_insert]. rewrite insert_insert in H2. cbn in H2.
  split; [done|]. split; [done|]. intros H. apply is_dir_true in H. congruence.
Qed.
(** Written in full when nothing is in the way. *)
Lemma write_all_run p s : ∀ f t, f !! p = Some (File t) → write_all p s None f = Over () None (<[p := File (t +:+ s)]> f).
Proof.
  induction s as [|c s IH]; intros f t Hp; cbn [write_all].
  - rewrite sapp_nil, insert_id; done.
  - unfold bind, step, append_char. rewrite Hp. cbn. erewrite IH by apply lookup_insert. rewrite insert_insert, sapp_assoc. done.
Qed.
Lemma write_file_run p s f : f !! parent p = Some Dir → f !! p ≠ Some Dir → write_file p s None f = Over () None (<[p := File s]> f).
Proof.
  intros H1 H2. unfold write_file, bind, step, make_file. rewrite (proj2 (is_dir_true f (parent p)) H1).
  destruct (is_dir f p) eqn:E; [apply is_dir_true in E; done|]. cbn. erewrite write_all_run by apply lookup_insert. rewrite insert_insert. done.
Qed.
