(** What is within reach of a student: what the theorems about it speak about. *)
From stdpp Require Import gmap strings list.
From Verif Require Import F32 Graph GraphSpec Library LibrarySpec Filters Options OptionsSpec Batch BatchSpec Search SearchSpec ProgressSpec.

Section spec.
  (** [f] is the metadata filter of the request, if it has one. *)
  Context (env : senv) (f : option kv_filter).
  Let g := s_graph env.
  Let p := passing_score (s_options env).

  (** Where a search of the whole library begins: units that depend on nothing in the library. A
      lesson must depend on something, and a course must not hide behind a first lesson. *)
  Definition begins (u : uid) : Prop :=
    (∀ d, depends_on g u d → missing env d) ∧ (is_course env u ∨ ∃ d, depends_on g u d) ∧ ¬ hidden_course env u.
  (** A course where the search begins is replaced by those of its first lessons that are
      unlocked, if there are any. *)
  Definition starts (u : uid) : Prop :=
    (begins u ∧ ∀ l, first_lesson env u l → ¬ unlocked env f l) ∨
    (∃ c, begins c ∧ first_lesson env c u ∧ unlocked env f u).

  (** The lesson does not pass the filter, is blacklisted or superseded, or its course is superseded. *)
  Definition passed_over (l : uid) : Prop :=
    ¬ lets_through env f l ∨ l ∈ s_banned env ∨ s_superseded env l = true ∨ ∃ c, lesson_of env l c ∧ s_superseded env c = true.
  (** With the average [x] the lesson passes. *)
  Definition passes_with (l : uid) (x : f32) : Prop :=
    ∀ t, s_trials env l = Some t → fge x (min_score p) = true ∧ fge t (min_avg_trials p) = true.
  (** The lesson leads on to what depends on it, in whatever order its scores are added up; or in
      some order. *)
  Definition surely_leads (l : uid) : Prop := passed_over l ∨ ∀ x, lesson_score env l x → passes_with l x.
  Definition maybe_leads (l : uid) : Prop :=
    passed_over l ∨ ∀ x, lesson_score env l x → ∃ y, lesson_score env l y ∧ passes_with l y.

  (** What is within reach from the units in [start], if the lessons in [leads] lead on. *)
  Inductive in_reach (start leads : uid → Prop) : uid → Prop :=
    | in_start u : start u → is_course env u ∨ is_lesson env u → in_reach start leads u
    (** a course leads to its first lessons *)
    | in_first c l : in_reach start leads c → first_lesson env c l → unlocked env f l → in_reach start leads l
    (** a lesson leads to the units that depend on it *)
    | in_next l v : in_reach start leads l → is_lesson env l → leads l → depends_on g v l → unlocked env f v → in_reach start leads v
    (** a course whose lessons are all within reach is within reach *)
    | in_whole c l : lesson_of env l c → (∀ l, lesson_of env l c → in_reach start leads l) → in_reach start leads c
    (** a course that does not pass the filter, is blacklisted or superseded, or whose lessons are
        all within reach, leads to the units that depend on it *)
    | in_over c v : in_reach start leads c → is_course env c → ¬ lets_through env f c ∨ c ∈ s_banned env ∨ s_superseded env c = true →
        depends_on g v c → unlocked env f v → in_reach start leads v
    | in_done c v : in_reach start leads c → is_course env c → (∀ l, lesson_of env l c → in_reach start leads l) →
        depends_on g v c → unlocked env f v → in_reach start leads v.

  (** What is within reach from the first lessons of some courses without leaving them. A lesson
      that is itself named among the courses is left out. *)
  Inductive in_courses (ks : list uid) (leads : uid → Prop) : uid → Prop :=
    | inside_first c l : c ∈ ks → first_lesson env c l → l ∉ ks → in_courses ks leads l
    | inside_next l v c : in_courses ks leads l → leads l → depends_on g v l → unlocked env f v → lesson_of env v c → c ∈ ks → v ∉ ks →
        in_courses ks leads v.

  (** The lesson is offered: with all of its exercises that are not blacklisted if its average fails
      or is at least 4, else with at least one. *)
  Definition is_offered (cs : list candidate) (l : uid) : Prop :=
    (∃ c, c ∈ cs ∧ lesson_id c = l) ∧
    ((∀ x, lesson_score env l x → fge x f_4 = true ∨ flt x (min_score p) = true) →
      ∀ e, exercise_of env e l → clean env e → e ∈ exercise_id <$> cs).
  (** The lesson is not beyond the target window, and enough such lessons are offered. *)
  Definition left_for_later (cs : list candidate) (l : uid) : Prop :=
    enough_in_progress env cs ∧ ∃ x, lesson_score env l x ∧ fle x (range_hi (target_window (s_options env))) = true.

  (** What a search from [start] finds: only lessons within reach, and all of them, unless ten times
      the size of a batch was found. *)
  Definition found_from (start : uid → Prop) (cs : list candidate) : Prop :=
    (∀ c, c ∈ cs → in_reach start maybe_leads (lesson_id c) ∧ ¬ passed_over (lesson_id c) ∧ in_place env c ∧ clean env (exercise_id c)) ∧
    (max_candidates env ≤ length cs ∨
     ∀ l e, in_reach start surely_leads l → ¬ passed_over l → exercise_of env e l → clean env e →
       is_offered cs l ∨ left_for_later cs l).
  (** What a search inside some courses finds. *)
  Definition found_inside (ks : list uid) (cs : list candidate) : Prop :=
    (∀ c, c ∈ cs → in_courses ks maybe_leads (lesson_id c) ∧ ¬ passed_over (lesson_id c) ∧ in_place env c ∧ clean env (exercise_id c)) ∧
    (max_candidates env ≤ length cs ∨
     ∀ l e, in_courses ks surely_leads l → ¬ passed_over l → exercise_of env e l → clean env e →
       is_offered cs l ∨ left_for_later cs l).
End spec.

(** What a request finds for its filter. A filter on dependencies starts from the units the given
    number of dependencies below, or fewer where the dependencies end. The lessons that are named
    in a filter or on the review list are offered even if they are locked, and so are the exercises
    on the review list. *)
Definition serves (env : senv) (uf : option unit_filter) (cs : list candidate) : Prop :=
  match uf with
  | None => found_from env None (starts env None) cs
  | Some (FMetadata kv) => found_from env (Some kv) (starts env (Some kv)) cs
  | Some (FDependents us) => found_from env None (λ u, u ∈ us) cs
  | Some (FDependencies us n) => found_from env None (λ v, ∃ u, u ∈ us ∧ below env n u v) cs
  | Some (FCourses ks) => found_inside env None ks cs
  | Some (FLessons ls) =>
      (∀ c, c ∈ cs → lesson_id c ∈ ls ∧ in_place env c ∧ clean env (exercise_id c)) ∧
      (∀ l e, l ∈ ls → exercise_of env e l → clean env e → is_offered env cs l)
  | Some FReviewList =>
      (∀ c, c ∈ cs → in_place env c ∧ (exercise_id c ∈ s_review env ∨ lesson_id c ∈ s_review env ∨ course_id c ∈ s_review env)) ∧
      ∀ u, u ∈ s_review env →
        (∀ l, exercise_of env u l → u ∈ exercise_id <$> cs) ∧
        (∀ e, exercise_of env e u → clean env e → is_offered env cs u) ∧
        (is_course env u → ∃ part, (∀ c, c ∈ part → c ∈ cs) ∧ found_inside env None [u] part)
  end.
