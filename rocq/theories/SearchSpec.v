(** What the properties of the search for candidates speak about. *)
From stdpp Require Import gmap strings list.
From Verif Require Import F32 Graph GraphSpec Library LibrarySpec Filters Options OptionsSpec Batch BatchSpec Search.

(** A library that was opened from manifests. *)
Definition opened (lib : library) : Prop :=
  ∃ ord courses, order_ok ord ∧ Forall consistent courses ∧ open_library ord courses = Some lib.

(** Orders and shuffles list the same things. *)
Record orders_ok (o : orders) : Prop := {
  o_set_ok : ∀ i s, o_set o i s ≡ₚ elements s;
  o_units_ok : ∀ i l, o_units o i l ≡ₚ l;
  o_stack_ok : ∀ i l, o_stack o i l ≡ₚ l;
  o_pick_ok : ∀ i l, o_pick o i l ≡ₚ l }.

Section spec.
  Context (env : senv).
  Let g := s_graph env.

  (** ** Units *)
  Definition is_course (u : uid) : Prop := get_unit_type g u = Some Course.
  Definition is_lesson (u : uid) : Prop := get_unit_type g u = Some Lesson.
  Definition missing (u : uid) : Prop := get_unit_type g u = None.
  Definition lesson_of (l c : uid) : Prop := get_lesson_course g l = Some c.
  Definition exercise_of (e l : uid) : Prop := get_exercise_lesson g e = Some l.
  (** A lesson of a course that depends on no lesson of that course. *)
  Definition first_lesson (c l : uid) : Prop := lesson_of l c ∧ ∀ d, depends_on g l d → ¬ lesson_of d c.

  (** The unit passes the filter: everything passes when there is none. *)
  Definition lets_through (f : option kv_filter) (u : uid) : Prop :=
    match f with
    | None => True
    | Some f =>
        (∃ cm, is_course u ∧ course_map (s_lib env) !! u = Some cm ∧ apply_to_course f (cm_metadata cm) = true) ∨
        (∃ c cm lm, is_lesson u ∧ lesson_of u c ∧ course_map (s_lib env) !! c = Some cm ∧
           lesson_map (s_lib env) !! u = Some lm ∧ apply_to_lesson f (cm_metadata cm) (lm_metadata lm) = true)
    end.

  (** ** Satisfied dependencies *)
  (** The score and the number of trials are unknown or high enough. *)
  Definition passed (u : uid) : Prop :=
    ∀ s t, s_score env u = Some (Some s) → s_trials env u = Some t →
      fge s (min_score (passing_score (s_options env))) = true ∧
      fge t (min_avg_trials (passing_score (s_options env))) = true.
  Definition satisfied (u : uid) : Prop :=
    missing u ∨ u ∈ s_banned env ∨ (∃ c, lesson_of u c ∧ c ∈ s_banned env) ∨
    s_superseded env u = true ∨ passed u.
  (** A lesson of the course that passes the filter and that no such lesson depends on. *)
  Definition last_lesson (f : option kv_filter) (c l : uid) : Prop :=
    lesson_of l c ∧ lets_through f l ∧ ∀ x, depends_on g x l → lesson_of x c → ¬ lets_through f x.
  (** A dependency on [d] stands for dependencies on the units [t] that pass the filter: [d]
      itself, the last lessons of a course, or what is found through the dependencies of [d]
      and, for a first lesson, of its course. *)
  Inductive stands_for (f : option kv_filter) : uid → uid → Prop :=
    | stands_itself d : lets_through f d → stands_for f d d
    | stands_last c l : is_course c → ¬ lets_through f c → last_lesson f c l → stands_for f c l
    | stands_course c d t : is_course c → ¬ lets_through f c → (∀ l, ¬ last_lesson f c l) →
        depends_on g c d → stands_for f d t → stands_for f c t
    | stands_lesson l d t : is_lesson l → ¬ lets_through f l →
        depends_on g l d ∨ (∃ c, first_lesson c l ∧ depends_on g c d) → stands_for f d t → stands_for f l t.
  (** Every dependency is satisfied. *)
  Definition unlocked (f : option kv_filter) (u : uid) : Prop :=
    ∀ d t, depends_on g u d → stands_for f d t → satisfied t.

  (** ** Reachable units *)
  (** A course none of whose dependencies are in the library, or a lesson with dependencies, all
      of them missing from the library. *)
  Definition starting_unit (u : uid) : Prop :=
    (∀ d, depends_on g u d → missing d) ∧ (is_course u ∨ is_lesson u ∧ ∃ d, depends_on g u d).
  (** A course leads to its first lessons and, when all its lessons were reached, it is reached
      itself; a unit leads to the units that depend on it. *)
  Inductive reachable (f : option kv_filter) (start : uid → Prop) : uid → Prop :=
    | reach_start u : start u → is_course u ∨ is_lesson u → reachable f start u
    | reach_first c l : reachable f start c → first_lesson c l → unlocked f l → reachable f start l
    | reach_next u v : reachable f start u → depends_on g v u → unlocked f v → reachable f start v
    | reach_course c l : lesson_of l c → (∀ l, lesson_of l c → reachable f start l) → reachable f start c.

  (** ** Candidates *)
  (** The exercise, its lesson and its course are not blacklisted. *)
  Definition clean (e : uid) : Prop :=
    e ∉ s_banned env ∧ ∀ l, exercise_of e l → l ∉ s_banned env ∧ ∀ c, lesson_of l c → c ∉ s_banned env.
  (** The candidate names an exercise, its lesson and its course. *)
  Definition in_place (c : candidate) : Prop :=
    exercise_of (exercise_id c) (lesson_id c) ∧ lesson_of (lesson_id c) (course_id c).

  (** The candidate has the score that is known for its exercise, or 0. *)
  Definition scored_by (c : candidate) : Prop :=
    ∃ s, s_score env (exercise_id c) = Some s ∧ exercise_score c = default fzero s.

  (** The exercises of a lesson that are not blacklisted, in any order. *)
  Definition open_exercises (l : uid) (es : list uid) : Prop :=
    NoDup es ∧ ∀ e, e ∈ es ↔ exercise_of e l ∧ clean e.
  (** [x] is the average score of the lesson, summed in some order. *)
  Definition lesson_score (l : uid) (x : f32) : Prop :=
    ∃ es scores, open_exercises l es ∧ es ≠ [] ∧
      Forall2 (λ e s, ∃ o, s_score env e = Some o ∧ s = default fzero o) es scores ∧ x = average scores.
  (** The score of the lesson is beyond the target window. *)
  Definition beyond_target (l : uid) : Prop :=
    ∃ x, lesson_score l x ∧ fle x (range_hi (target_window (s_options env))) = false.
End spec.

(** The passing options were verified and have no NaN. *)
Definition passing_numbers (env : senv) : Prop :=
  verify_passing (passing_score (s_options env)) = true ∧
  fis_nan (min_score (passing_score (s_options env))) = false ∧
  fis_nan (min_fraction (passing_score (s_options env))) = false.

Section waiting.
  Context (env : senv).
  Let g := s_graph env.

  (** ** Units that wait for others *)
  (** A unit waits for its dependencies, for the lessons of the courses it depends on, and a
      lesson waits for its course. *)
  Inductive waits : uid → uid → Prop :=
    | waits_dependency u d : depends_on g u d → waits u d
    | waits_lessons u c l : depends_on g u c → lesson_of env l c → waits u l
    | waits_course l c : lesson_of env l c → waits l c.

  (** Everything was mastered: every unit with a score passed, and the average of every lesson is
      at least 4, passes, and lies beyond the target window. *)
  Record mastered : Prop := {
    m_passed : ∀ u, passed env u;
    m_score : ∀ l x, lesson_score env l x →
      fge x f_4 = true ∧ fge x (min_score (passing_score (s_options env))) = true ∧
      fle x (range_hi (target_window (s_options env))) = false;
    m_trials : ∀ u t, s_trials env u = Some t → fge t (min_avg_trials (passing_score (s_options env))) = true }.

  (** The stores answer for every exercise. *)
  Definition answers_exercises : Prop := ∀ e l, exercise_of env e l →
    is_Some (s_score env e) ∧ is_Some (s_urgency env e) ∧ is_Some (s_velocity env e).

  (** A course without dependencies where some first lesson has dependencies, all of them in the
      library. *)
  Definition hidden_course (c : uid) : Prop :=
    is_course env c ∧ (∀ d, ¬ depends_on g c d) ∧
    ∃ l, first_lesson env c l ∧ (∃ d, depends_on g l d) ∧ ∀ d, depends_on g l d → ¬ missing env d.
End waiting.

Section filters.
  Context (env : senv).
  Let g := s_graph env.

  (** [v] is [n] dependencies below [u], or fewer if it has none. *)
  Inductive below : nat → uid → uid → Prop :=
  | below_here u : below 0 u u
  | below_end n u : (∀ d, ¬ depends_on g u d) → below (S n) u u
  | below_next n u d v : depends_on g u d → below n d v → below (S n) u v.

  (** The candidate is what the filter asks for. *)
  Definition asked_for (f : option unit_filter) (c : candidate) : Prop :=
    match f with
    | None => reachable env None (starting_unit env) (lesson_id c)
    | Some (FCourses cs) => course_id c ∈ cs
    | Some (FLessons ls) => lesson_id c ∈ ls
    | Some (FMetadata kv) =>
        lets_through env (Some kv) (lesson_id c) ∧ reachable env (Some kv) (starting_unit env) (lesson_id c)
    | Some FReviewList =>
        exercise_id c ∈ s_review env ∨ lesson_id c ∈ s_review env ∨ course_id c ∈ s_review env
    | Some (FDependents us) => reachable env None (λ u, u ∈ us) (lesson_id c)
    | Some (FDependencies us d) =>
        reachable env None (λ v, ∃ u, u ∈ us ∧ below d u v ∧ is_Some (get_unit_type g v)) (lesson_id c)
    end.

  (** At most [n] lessons of the candidates have a score that is not beyond the target window. *)
  Definition in_progress_at_most (n : nat) (cs : list candidate) : Prop :=
    ∃ P : gset uid, size P ≤ n ∧ ∀ c, c ∈ cs → lesson_id c ∈ P ∨ beyond_target env (lesson_id c).

  (** Every entry of the review list is a unit of the library. *)
  Definition review_known : Prop := ∀ u, u ∈ s_review env → ¬ missing env u.
End filters.

(** Filters that list nothing twice. *)
Definition lists_once (f : option unit_filter) : Prop :=
  match f with
  | Some (FLessons ls) => NoDup ls
  | Some FReviewList => False
  | _ => True
  end.
(** Filters that lead to one search of the graph. *)
Definition one_search (f : option unit_filter) : Prop :=
  match f with
  | Some (FLessons _) | Some FReviewList => False
  | _ => True
  end.

(** The unit filter that is used for a requested filter: the one of the current part of a study
    session. *)
Definition uses (env : senv) (checks : bool) (time : Z) (f : option exercise_filter) (uf : option unit_filter) : Prop :=
  match f with
  | None => uf = None
  | Some (EUnit f) => uf = Some f
  | Some (ESession s) =>
      ∃ p, get_part checks s time = Some p ∧
        match p with
        | PNone _ => uf = None
        | PUnit f _ => uf = Some f
        | PSaved id _ => ∃ f, s_saved env id = Some f ∧ uf = Some f
        end
  end.

(** The exercise is what the filter asks for, wherever it is in the library. *)
Definition exercise_asked (env : senv) (f : option unit_filter) (e : uid) : Prop :=
  ∃ c, exercise_id c = e ∧ in_place env c ∧ asked_for env f c.
