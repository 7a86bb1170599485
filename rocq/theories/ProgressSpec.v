(** What the theorems about progress through a library speak about. *)
From stdpp Require Import gmap strings list.
From Verif Require Import F32 Graph GraphSpec Library LibrarySpec Filters Options OptionsSpec Batch BatchSpec Search SearchSpec.

Section spec.
  Context (env : senv).
  Let g := s_graph env.
  Let p := passing_score (s_options env).

  (** Lessons depend on lessons of their own course, courses depend on courses; dependencies may
      also be missing from the library. *)
  Definition tidy : Prop :=
    (∀ l c d, lesson_of env l c → depends_on g l d → lesson_of env d c ∨ missing env d) ∧
    (∀ c d, is_course env c → depends_on g c d → is_course env d ∨ missing env d).

  (** The lesson has a score and trials, and one of them is not high enough to pass. *)
  Definition not_passed (l : uid) : Prop :=
    ∃ x t, lesson_score env l x ∧ s_trials env l = Some t ∧
      (fge x (min_score p) = false ∨ fge t (min_avg_trials p) = false).

  (** As many lessons as are allowed at a time are offered, and none of them is beyond the target
      window. *)
  Definition enough_in_progress (cs : list candidate) : Prop :=
    ∃ P : gset uid, max_lessons_in_progress (s_options env) ≤ size P ∧
      ∀ l, l ∈ P → ∃ c x, c ∈ cs ∧ lesson_id c = l ∧ lesson_score env l x ∧
        fle x (range_hi (target_window (s_options env))) = true.

  (** Scores of units agree with those of their parts: a lesson whose exercises pass on average
      passes, a lesson has a score only if it has exercises outside the blacklist, a course with
      nothing but satisfied lessons is satisfied, and units that are missing have no score. *)
  Record steady : Prop := {
    sy_lesson : ∀ l x s, is_lesson env l → lesson_score env l x → fge x (min_score p) = true →
      s_score env l = Some (Some s) → fge s (min_score p) = true;
    sy_scored : ∀ l s, is_lesson env l → s_score env l = Some (Some s) → ∃ x, lesson_score env l x;
    sy_course : ∀ c, is_course env c → (∀ l, lesson_of env l c → satisfied env l) → satisfied env c;
    sy_missing : ∀ u s, missing env u → s_score env u ≠ Some (Some s);
    sy_number : ∀ l x, lesson_score env l x → fis_nan x = false }.

  (** Nothing waits for itself, hides behind a first lesson or depends on an exercise. *)
  Record well_ordered : Prop := {
    wo_waits : acyclic (waits env);
    wo_hidden : ∀ c, ¬ hidden_course env c;
    wo_units : ∀ u e, depends_on g u e → get_unit_type g e ≠ Some Exercise }.
End spec.
