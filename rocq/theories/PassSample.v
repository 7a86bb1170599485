(** A course that is not passed although all of its lessons are, for P_Pass.v. *)
From stdpp Require Import gmap strings list relations.
From Coq Require Import ZArith Lia.
From Verif Require Import F32 Graph GraphSpec GraphProofs Library LibrarySpec LibraryQueries LibrarySample Filters Options OptionsSpec Batch BatchSpec Search SearchSpec
  ProgressSpec LibFacts CandidateProofs WholeProofs SearchSample SearchMore ProgressSample ScorerSpec UnitScorer UnitSpec UnitEnds Practice PracticeSpec RangeSpec UnitAverageSample
  PassSpec PassProofs.
Local Open Scope string_scope.
Local Open Scope list_scope.
Local Open Scope bool_scope.

(** Three lessons of five exercises. *)
Definition thin_library : list open_course :=
  a_library [("A", [], [("A::1", [], ["A::1::a"; "A::1::b"; "A::1::c"; "A::1::d"; "A::1::e"]);
                        ("A::2", [], ["A::2::a"; "A::2::b"; "A::2::c"; "A::2::d"; "A::2::e"]);
                        ("A::3", [], ["A::3::a"; "A::3::b"; "A::3::c"; "A::3::d"; "A::3::e"])]);
             ("B", ["A"], [("B::1", [], ["B::1::a"])])].
(** One exercise of each lesson was practised [n] times, the others twice, with a score of 5; the
    course B is new. *)
Definition thin_score (n : nat) (e : uid) : cached_score :=
  if bool_decide (e = "B::1::a") then Cached fzero fzero None 0
  else Cached f_5 fzero None (if bool_decide (e ∈ ["A::1::e"; "A::2::e"; "A::3::e"]) then n else 2).
Definition thin_world (n : nat) (lib : library) : world := World (lib_graph lib) ∅ (λ e, Val (thin_score n e)) f_3_75 elements.
Lemma thin_ok n e : n ≤ 2 → entry_ok (thin_score n e) ∧ ca_trials (thin_score n e) ≤ 2.
Proof.
  intros Hn. unfold thin_score. destruct (bool_decide (e = "B::1::a")); [|destruct (bool_decide (e ∈ _))];
    (split; [split; split; vm_compute; reflexivity|cbn [ca_trials]; lia]).
Qed.

Definition plain_library (lib : library) : bool :=
  bool_decide (supersedes_graph (lib_graph lib) = ∅) && bool_decide (map_Forall (λ _ s, size s ≤ 5) (lesson_exercise_map (lib_graph lib))) &&
  bool_decide (map_Forall (λ _ s, size s ≤ 5) (course_lesson_map (lib_graph lib))).
Lemma plain_library_ok lib : opened lib → plain_library lib = true →
  (∀ u v, ¬ supersedes (lib_graph lib) u v) ∧ acyclic (below (lib_graph lib)) ∧ modest (lib_graph lib).
Proof.
  intros Ho H. unfold plain_library in H. rewrite !andb_true_iff, !bool_decide_eq_true in H. destruct H as [[H1 H2] H3].
  assert (Hs : ∀ u v, ¬ supersedes (lib_graph lib) u v).
  { intros u v Huv. unfold supersedes, answers, get_supersedes in Huv. by rewrite H1, lookup_empty in Huv. }
  split; [done|]. split.
  - apply same_kind_acyclic; [done|]. intros u v Huv. by destruct (Hs u v).
  - unfold limit. split; [intros l es E; specialize (H2 l es E)|intros c ls E; specialize (H3 c ls E)]; cbn beta in *; unfold limit; lia.
Qed.

Definition passes_now (env : senv) (u : uid) : bool := passes_threshold env (default None (s_score env u)) (s_trials env u).
Lemma passes_now_true env u : passes_now env u = true → passed env u.
Proof. intros H s t Hs Ht. unfold passes_now, passes_threshold in H. rewrite Hs, Ht in H. by apply andb_true_iff in H. Qed.
Lemma passes_now_false env u : passes_now env u = false → ¬ passed env u.
Proof.
  intros H Hp. unfold passes_now, passes_threshold in H. destruct (s_score env u) as [[s|]|] eqn:Es; [|done..].
  cbn [default] in H. destruct (s_trials env u) as [t|] eqn:Et; [|done]. destruct (Hp s t Es Et) as [H1 H2].
  change (fge s (min_score (passing_score (s_options env))) && fge t (min_avg_trials (passing_score (s_options env))) = false) in H.
  by rewrite H1, H2 in H.
Qed.

Definition thin_check (lib : library) : bool :=
  let env := asking lib (thin_world 1 lib) default_options 5 in
  match unit_candidates env plain 30 None with
  | Found cs => negb (bool_decide (cs = [])) && forallb (λ c, bool_decide (lesson_id c ∈ ["A::1"; "A::2"; "A::3"])) cs
  | _ => false
  end &&
  (plain_library lib && own_deps lib && course_deps lib && has_deps lib "B" ["A"] && has_deps lib "B::1" [] && in_course lib "B::1" "B" &&
   bool_decide (default ∅ (get_course_lessons (lib_graph lib) "A") = list_to_set ["A::1"; "A::2"; "A::3"]) &&
   forallb (λ l, scored_five env l && passes_now env l) ["A::1"; "A::2"; "A::3"] && scored_five env "A" && negb (passes_now env "A")).

Lemma thin_course : ∃ lib w x fuel cs, opened lib ∧ w_graph w = lib_graph lib ∧ w_banned w = ∅ ∧ (∀ s, w_ord w s ≡ₚ elements s) ∧
  (∀ e, w_exercise w e = Val (x e) ∧ entry_ok (x e) ∧ ca_trials (x e) ≤ 2) ∧
  (∀ u v, ¬ supersedes (lib_graph lib) u v) ∧ modest (lib_graph lib) ∧
  let env := asking lib w default_options fuel in
  tidy env ∧ (∀ l, SearchSpec.lesson_of env l "A" ↔ l ∈ ["A::1"; "A::2"; "A::3"]) ∧
  (∀ l, SearchSpec.lesson_of env l "A" → scored_five env l = true ∧ passed env l) ∧ scored_five env "A" = true ∧ ¬ passed env "A" ∧
  (∀ d, depends_on (s_graph env) "B" d ↔ d = "A") ∧ SearchSpec.lesson_of env "B::1" "B" ∧ (∀ d, ¬ depends_on (s_graph env) "B::1" d) ∧
  unit_candidates env plain 30 None = Found cs ∧ cs ≠ [] ∧ ∀ c, c ∈ cs → SearchSpec.lesson_of env (lesson_id c) "A".
Proof.
  destruct (library_checked thin_check thin_library) as (lib & Ho & H); [apply a_library_consistent|vm_compute; reflexivity|].
  unfold thin_check in H. cbv zeta in H. set (env := asking lib (thin_world 1 lib) default_options 5) in *.
  destruct (unit_candidates env plain 30 None) as [cs| |] eqn:Ecs; [|discriminate H..].
  rewrite !andb_true_iff, !negb_true_iff in H. destruct H as [[H1 H2] [[[[[[[[[H3 H4] H5] H6] H7] H8] H9] H10] H11] H12]].
  apply bool_decide_eq_false in H1. apply bool_decide_eq_true in H8, H9.
  destruct (plain_library_ok lib Ho H3) as (P1 & _ & P3). pose proof (opened_ok lib Ho) as K.
  assert (HA : ∀ l, SearchSpec.lesson_of env l "A" ↔ l ∈ ["A::1"; "A::2"; "A::3"]).
  { intros l. rewrite <- (course_lesson_elem env K). unfold course_lessons.
    change (get_course_lessons (s_graph env) "A") with (get_course_lessons (lib_graph lib) "A"). rewrite H9. apply elem_of_list_to_set. }
  exists lib, (thin_world 1 lib), (thin_score 1), 5, cs. split; [exact Ho|]. split; [done|]. split; [done|]. split; [done|].
  split. { intros e. split; [done|]. apply thin_ok. lia. }
  split; [exact P1|]. split; [exact P3|]. cbv zeta. fold env. split; [by apply own_tidy|]. split; [exact HA|].
  split. { intros l Hl. apply HA in Hl. rewrite forallb_forall in H10. specialize (H10 l ltac:(by apply elem_of_list_In)).
    apply andb_true_iff in H10 as [Q1 Q2]. split; [done|]. by apply passes_now_true. }
  split; [exact H11|]. split; [by apply passes_now_false|].
  split. { intros d. rewrite (has_deps_iff env "B" ["A"] H6). apply elem_of_list_singleton. }
  split; [exact H8|]. split. { intros d Hd. apply (has_deps_iff env "B::1" [] H7) in Hd. by apply elem_of_nil in Hd. }
  split; [exact Ecs|]. split; [exact H1|]. intros c Hc. apply HA. rewrite forallb_forall in H2. specialize (H2 c ltac:(by apply elem_of_list_In)).
  by apply bool_decide_eq_true in H2.
Qed.

(** With two trials of everything the course is passed. *)
Definition full_check (lib : library) : bool :=
  let w := thin_world 2 lib in
  plain_library lib && bool_decide (get_unit_type (lib_graph lib) "A" = Some Course) &&
  forallb (λ u, answer_is (fst (unit_score w 5 u no_caches)) (Some f_5) && answer_is (fst (avg_trials w 5 u no_caches)) (Some f_2)) ["A::1"; "A::2"; "A::3"; "A"].
Lemma full_course : ∃ lib w x, opened lib ∧ acyclic (below (lib_graph lib)) ∧ modest (lib_graph lib) ∧
  w_graph w = lib_graph lib ∧ (∀ s, w_ord w s ≡ₚ elements s) ∧
  (∀ e, w_exercise w e = Val (x e) ∧ in_range (ca_score (x e)) ∧ (Z.of_nat (ca_trials (x e)) <= 2 ^ 64)%Z) ∧
  get_unit_type (lib_graph lib) "A" = Some Course ∧
  ∀ u, u ∈ ["A::1"; "A::2"; "A::3"; "A"] →
    answer_is (fst (unit_score w 5 u no_caches)) (Some f_5) = true ∧ answer_is (fst (avg_trials w 5 u no_caches)) (Some f_2) = true.
Proof.
  destruct (library_checked full_check thin_library) as (lib & Ho & H); [apply a_library_consistent|vm_compute; reflexivity|].
  unfold full_check in H. cbv zeta in H. rewrite !andb_true_iff in H. destruct H as [[H1 H2] H3]. apply bool_decide_eq_true in H2.
  destruct (plain_library_ok lib Ho H1) as (_ & P2 & P3). exists lib, (thin_world 2 lib), (thin_score 2).
  split; [exact Ho|]. split; [exact P2|]. split; [exact P3|]. split; [done|]. split; [done|].
  split. { intros e. destruct (thin_ok 2 e ltac:(lia)) as [[Q1 _] Q2]. split; [done|]. split; [done|]. lia. }
  split; [exact H2|]. intros u Hu. rewrite forallb_forall in H3. specialize (H3 u ltac:(by apply elem_of_list_In)). by apply andb_true_iff in H3.
Qed.
