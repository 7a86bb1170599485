(** C100: every exercise that comes into question can be chosen. *)
From stdpp Require Import gmap strings list.
From Coq Require Import ZArith.
From Verif Require Import F32 Graph GraphSpec Library LibrarySpec Filters Options OptionsSpec Batch BatchSpec BatchSample FinishProofs
  Search SearchSpec SearchSample ChanceSpec ChanceProofs ChanceSample.
Local Open Scope string_scope.
Local Open Scope list_scope.

(** C100 in full is false: when all candidates cover each other, none of them is given, whatever
    the draw. *)
Theorem C100_knocked_out_refuted : ∃ ord courses lib e cs m r, order_ok ord ∧ Forall consistent courses ∧
  open_library ord courses = Some lib ∧ edges_of (lib_graph lib) e ∧ choices_ok r ∧ cs ≠ [] ∧
  NoDup (exercise_id <$> cs) ∧ (∀ c, c ∈ cs → score_in_range (exercise_score c)) ∧
  ∀ draw, choices_ok (with_draw r draw) →
    finish_candidates m (with_draw r draw) e (OptionCopies default_options default_options default_options) f_1 ∅ cs = Some [].
Proof. exact never_chosen. Qed.
Print Assumptions C100_knocked_out_refuted.

(** C100, partial: of the candidates of a batch, every one whose score lies in a window and that
    is not both mastered and covered ten times by the others is given by some draw. *)
Theorem C100_batch_partial : ∀ ops e m r o rate pile cs c, choices_ok r → edges_of (grun ops) e →
  NoDup (exercise_id <$> cs) → c ∈ cs → 1 ≤ length (windows_of (oc_filter o) (exercise_score c)) →
  fge (exercise_score c) f_4_5 = false ∨ ¬ covered_times e cs c 10 →
  ∃ draw batch, choices_ok (with_draw r draw) ∧
    finish_candidates m (with_draw r draw) e o rate pile cs = Some batch ∧ exercise_id c ∈ exercise_id <$> batch.
Proof. exact can_be_chosen. Qed.
Print Assumptions C100_batch_partial.

(** C100, partial: the same for a whole request to an opened library. *)
Theorem C100_request_partial : ∀ env os fuel checks time m r e oc rate pile f uf cs c,
  opened (s_lib env) → (∀ i, orders_ok (os i)) → choices_ok r → uses env checks time f uf →
  edges_of (s_graph env) e → lists_once uf → (∀ x, x ∈ pile → get_unit_type (s_graph env) x = Some Exercise) →
  initial_candidates env os fuel checks time f = Found cs → c ∈ cs →
  1 ≤ length (windows_of (oc_filter oc) (exercise_score c)) →
  fge (exercise_score c) f_4_5 = false ∨ ¬ covered_times e cs c 10 →
  ∃ draw es, choices_ok (with_draw r draw) ∧
    get_exercise_batch env os fuel checks time m (with_draw r draw) e oc rate pile f = BatchOf es ∧
    exercise_id c ∈ em_id <$> es.
Proof. exact request_can_give. Qed.
Print Assumptions C100_request_partial.

(** A batch of one exercise of three. The first draw gives the first exercise; the theorems say
    that another one gives the third. *)
Example C100_nonvacuous : ∃ env es cs c, opened (s_lib env) ∧ (∀ i, orders_ok (plain i)) ∧ choices_ok first_choices ∧
  uses env true 0 None None ∧ lists_once None ∧
  initial_candidates env plain 30 true 0 None = Found cs ∧ c ∈ cs ∧ exercise_id c = "A::2::x" ∧
  fge (exercise_score c) f_4_5 = false ∧ 1 ≤ length (windows_of small_options (exercise_score c)) ∧
  get_exercise_batch env plain 30 true 0 no_libm first_choices (graph_edges (s_graph env)) (same_options small_options) f_1 ∅ None = BatchOf es ∧
  em_id <$> es = ["A::1::x"].
Proof. exact one_of_three. Qed.
