(** Facts about machine sizes in a request for a batch. *)
From stdpp Require Import gmap strings list.
From Coq Require Import ZArith Lia.
From Verif Require Import F32 Graph GraphSpec Library LibrarySpec LibrarySample Options OptionsSpec Filters Batch BatchSpec FinishProofs SizeProofs
  Search SearchSpec BatchSample SearchSample Machine MachineSpec.
Local Open Scope Z_scope.

Lemma uses_initial mc env os fuel checks time f uf : uses env checks time f uf →
  initial_candidates_on mc env os fuel checks time f = unit_candidates_on mc env os fuel uf ∧
  initial_candidates env os fuel checks time f = unit_candidates env os fuel uf.
Proof.
  unfold uses, initial_candidates_on, initial_candidates. destruct f as [[f|s]|]; [by intros ->| |by intros ->].
  intros (p & Hp & H). unfold session_filter. rewrite Hp. cbn [mbind option_bind].
  destruct p; [by rewrite H| |by rewrite H]. destruct H as (f & Hf & ->). rewrite Hf. done.
Qed.
Lemma searches_reserve mc env os fuel f : searches f →
  unit_candidates_on mc env os fuel f = reserve mc (s_options env) (Ran (unit_candidates env os fuel f)).
Proof. destruct f as [[]|]; done. Qed.

Section sizes.
  Context (mc : machine) (Hb : 1 <= m_bytes mc).

  Lemma reserve_fits {A} o (next : ran A) : ten_batches mc o <= isize_max → grants mc (ten_batches mc o) → reserve mc o next = next.
  Proof using Hb.
    unfold reserve, times, with_capacity, ten_batches, isize_max, word. intros H Hg.
    set (b := Z.of_nat (batch_size o)) in *. assert (0 <= b) by (subst b; lia).
    assert (b * 10 <= 10 * b * m_bytes mc) by nia.
    replace (b * Z.of_nat 10) with (b * 10) by lia.
    destruct (Z.ltb_spec (b * 10) (2 ^ 64)) as [_|?]; [|lia].
    replace (Z.of_nat (batch_size o * 10)) with (b * 10) by (subst b; lia).
    destruct (Z.ltb_spec (2 ^ 63 - 1) (b * 10 * m_bytes mc)) as [?|_]; [lia|].
    rewrite Hg by lia. done.
  Qed.
  Lemma reserve_large {A} o (next : ran A) : isize_max < ten_batches mc o →
    reserve mc o next = Panics ∨ reserve mc o next = Wraps ∧ m_checked mc = false ∧ word <= 10 * Z.of_nat (batch_size o).
  Proof using Hb.
    unfold reserve, times, with_capacity, ten_batches, isize_max, word. intros H.
    replace (Z.of_nat (batch_size o) * Z.of_nat 10) with (10 * Z.of_nat (batch_size o)) by lia.
    destruct (Z.ltb_spec (10 * Z.of_nat (batch_size o)) (2 ^ 64)) as [?|?].
    - left. replace (Z.of_nat (batch_size o * 10)) with (10 * Z.of_nat (batch_size o)) by lia.
      destruct (Z.ltb_spec (2 ^ 63 - 1) (10 * Z.of_nat (batch_size o) * m_bytes mc)); [done|lia].
    - destruct (m_checked mc); [by left|]. right. done.
  Qed.
  Lemma reserve_needs {A} o (a a' : A) : reserve mc o (Ran a) = Ran a' → m_memory mc (ten_batches mc o) = true.
  Proof.
    unfold reserve, times, with_capacity, ten_batches. destruct (_ <? word); [|by destruct (m_checked mc)].
    destruct (isize_max <? _); [done|].
    replace (Z.of_nat (batch_size o * 10) * m_bytes mc) with (10 * Z.of_nat (batch_size o) * m_bytes mc) by lia.
    by destruct (m_memory mc _).
  Qed.
  Lemma filter_fits {A} o n (next : ran A) : ten_batches mc o <= isize_max → grants mc (ten_batches mc o) →
    filter_sizes mc o n next = next.
  Proof using Hb.
    intros H Hg. assert (∀ b, (b ≤ batch_size o)%nat → with_capacity mc b (times mc b 3 (λ _, next)) = next) as Hgo.
    { intros b Hle. unfold with_capacity, times, ten_batches, isize_max, word in *.
      assert (Z.of_nat b * m_bytes mc <= 10 * Z.of_nat (batch_size o) * m_bytes mc) by nia.
      assert (Z.of_nat b <= Z.of_nat b * m_bytes mc) by nia.
      destruct (Z.ltb_spec (2 ^ 63 - 1) (Z.of_nat b * m_bytes mc)) as [?|_]; [lia|].
      rewrite Hg by lia. assert (Z.of_nat b * 3 <= 10 * Z.of_nat (batch_size o) * m_bytes mc) by nia.
      replace (Z.of_nat b * Z.of_nat 3) with (Z.of_nat b * 3) by lia.
      destruct (Z.ltb_spec (Z.of_nat b * 3) (2 ^ 64)); [done|lia]. }
    unfold filter_sizes. destruct (Nat.ltb (batch_size o) 10); [by apply Hgo|].
    unfold times at 1. unfold ten_batches, isize_max, word in *.
    assert (Z.of_nat (batch_size o) * 3 <= 10 * Z.of_nat (batch_size o) * m_bytes mc) by nia.
    replace (Z.of_nat (batch_size o) * Z.of_nat 3) with (Z.of_nat (batch_size o) * 3) by lia.
    destruct (Z.ltb_spec (Z.of_nat (batch_size o) * 3) (2 ^ 64)); [|lia]. apply Hgo, dynamic_le.
  Qed.

  Lemma collect_fits (us : list uid) (h : nat → uid → ran sresult) (k : nat → uid → sresult) :
    (∀ i u, h i u = Ran (k i u)) → collect_on (imap h us) = Ran (collect (imap k us)).
  Proof using.
    revert h k. induction us as [|u us IH]; intros h k E; [done|].
    rewrite !imap_cons. cbn [collect_on collect]. rewrite E. rewrite (IH _ (k ∘ S)) by (intros i v; apply E).
    destruct (k 0%nat u); [|done|done]. by destruct (collect (imap (k ∘ S) us)).
  Qed.
  Lemma units_fit env os fuel f : ten_batches mc (s_options env) <= isize_max → grants mc (ten_batches mc (s_options env)) →
    unit_candidates_on mc env os fuel f = Ran (unit_candidates env os fuel f).
  Proof using Hb.
    intros H Hg. destruct f as [[]|]; cbn [unit_candidates_on]; rewrite ?reserve_fits by done; try done.
    unfold unit_candidates, from_review_list. apply collect_fits. intros i u. unfold entry_on.
    destruct (get_unit_type (s_graph env) u) as [[]|]; rewrite ?reserve_fits by done; done.
  Qed.
  Lemma batch_fits env os fuel checks time m r e oc rate pile f :
    ten_batches mc (s_options env) <= isize_max → grants mc (ten_batches mc (s_options env)) →
    ten_batches mc (oc_filter oc) <= isize_max → grants mc (ten_batches mc (oc_filter oc)) →
    batch_on mc env os fuel checks time m r e oc rate pile f =
    Ran (get_exercise_batch env os fuel checks time m r e oc rate pile f).
  Proof using Hb.
    intros H1 H2 H3 H4. unfold batch_on, get_exercise_batch.
    assert (initial_candidates_on mc env os fuel checks time f = Ran (initial_candidates env os fuel checks time f)) as ->.
    { unfold initial_candidates_on, initial_candidates. destruct f as [[f|s]|]; [by apply units_fit| |by apply units_fit].
      destruct (session_filter env checks s time); [by apply units_fit|done]. }
    destruct (initial_candidates env os fuel checks time f) as [cs| |]; [|done|done].
    destruct (knock_out_reviews e (r_units r) cs) as [k|] eqn:E; [by rewrite filter_fits by done|].
    unfold finish_batch, finish_candidates. rewrite E. done.
  Qed.
  Lemma batch_large env os fuel checks time m r e oc rate pile f uf : uses env checks time f uf → searches uf →
    isize_max < ten_batches mc (s_options env) →
    let ended := batch_on mc env os fuel checks time m r e oc rate pile f in
    ended = Panics ∨ ended = Wraps ∧ m_checked mc = false ∧ word <= 10 * Z.of_nat (batch_size (s_options env)).
  Proof using Hb.
    intros Hu Hs H. cbn zeta. unfold batch_on. destruct (uses_initial mc env os fuel checks time f uf Hu) as [-> _].
    rewrite searches_reserve by done.
    destruct (reserve_large (s_options env) (Ran (unit_candidates env os fuel uf)) H) as [->|(-> & ? & ?)]; auto.
  Qed.
  Lemma batch_needs env os fuel checks time m r e oc rate pile f uf batch : uses env checks time f uf → searches uf →
    batch_on mc env os fuel checks time m r e oc rate pile f = Ran batch → m_memory mc (ten_batches mc (s_options env)) = true.
  Proof.
    intros Hu Hs. unfold batch_on. destruct (uses_initial mc env os fuel checks time f uf Hu) as [-> _].
    rewrite searches_reserve by done. destruct (reserve mc _ _) as [a| | |] eqn:E; [|done|done|done].
    intros _. by apply reserve_needs in E.
  Qed.
End sizes.

Lemma huge_size : Z.of_nat huge = 2 ^ 60.
Proof. unfold huge. rewrite Z2Nat.id; [done|]. by vm_compute. Qed.
Lemma huge_accepted : verify_options (create_scheduler_options (Some huge)) = true.
Proof.
  assert (negb (Nat.eqb huge 0) = true) as H.
  { apply negb_true_iff, Nat.eqb_neq. intros E. pose proof huge_size as E2. rewrite E in E2. done. }
  generalize dependent huge. intros b H. unfold verify_options, create_scheduler_options.
  change (batch_size (set_batch_size b default_options)) with b. rewrite H.
  change (verify_options default_options = true). vm_compute. reflexivity.
Qed.
Lemma huge_panics : ∃ b, verify_options (create_scheduler_options (Some b)) = true ∧
  ∀ mc env os fuel checks time m r e oc rate pile, 1 <= m_bytes mc → s_options env = create_scheduler_options (Some b) →
    batch_on mc env os fuel checks time m r e oc rate pile None = Panics.
Proof.
  exists huge. split; [apply huge_accepted|]. intros mc env os fuel checks time m r e oc rate pile Hb Ho.
  pose proof huge_size as Hs.
  assert (batch_size (s_options env) = huge) as Hz by (rewrite Ho; done).
  destruct (batch_large mc Hb env os fuel checks time m r e oc rate pile None None) as [H|(_ & _ & H)]; [done|done| |done|].
  - unfold ten_batches, isize_max. rewrite Hz, Hs. nia.
  - rewrite Hz, Hs in H. unfold word in H. lia.
Qed.

(** A machine with 64 bytes for a candidate and a gigabyte of memory, and a library with a batch. *)
Definition a_machine : machine := Machine 64 true (λ n, n <=? 2 ^ 30).
Lemma a_machine_fits : 1 <= m_bytes a_machine ∧ ten_batches a_machine default_options <= isize_max ∧
  grants a_machine (ten_batches a_machine default_options).
Proof.
  assert (ten_batches a_machine default_options = 32000) as E by (vm_compute; reflexivity). rewrite E.
  unfold isize_max. split; [simpl; lia|]. split; [lia|]. intros n [_ H]. apply Z.leb_le. lia.
Qed.
Lemma a_machine_runs : ∃ lib es, opened lib ∧ es ≠ [] ∧
  let env := an_env default_options [] [] [] lib in
  batch_on a_machine env plain 30 true 0 no_libm first_choices (graph_edges (s_graph env)) (same_options default_options) f_1 ∅ None = Ran (BatchOf es).
Proof.
  assert (library_check (λ lib, match batch_on a_machine (an_env default_options [] [] [] lib) plain 30 true 0 no_libm first_choices
      (graph_edges (lib_graph lib)) (same_options default_options) f_1 ∅ None with Ran (BatchOf (_ :: _)) => true | _ => false end)
    (a_library [("A", [], [("A::1", [], ["A::1::x"])])]) = true) as H by (vm_compute; reflexivity).
  destruct (library_checked _ _ (a_library_consistent _) H) as (lib & Ho & E).
  set (env := an_env default_options [] [] [] lib) in *.
  change (lib_graph lib) with (s_graph env) in E.
  destruct (batch_on a_machine env _ _ _ _ _ _ _ _ _ _ _) as [b| | |] eqn:Eb; try discriminate E.
  destruct b as [es| | |]; try discriminate E. exists lib, es. split; [exact Ho|]. split; [by destruct es|]. exact Eb.
Qed.
(** The limit in plain numbers, for the machine above. *)
Lemma a_limit b : isize_max < ten_batches a_machine (set_batch_size b default_options) ↔ (2 ^ 63 - 1) / 640 < Z.of_nat b.
Proof.
  unfold ten_batches. change (m_bytes a_machine) with 64. change (batch_size (set_batch_size b default_options)) with b. unfold isize_max.
  change ((2 ^ 63 - 1) / 640) with 14411518807585587. change (2 ^ 63 - 1) with 9223372036854775807. lia.
Qed.
