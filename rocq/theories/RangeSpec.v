(** What the theorems about the ranges of scores in whole histories are stated with. *)
From stdpp Require Import gmap strings list.
From Coq Require Import ZArith.
From Verif Require Import F32 Graph GraphSpec Library SearchSpec Stores StoresSpec ScorerSpec PropagateSpec UnitScorer Practice.

(** A score between 0 and 5; a score and an urgency between 0 and 1 of an exercise. *)
Definition in_range (x : f32) : Prop := between fzero x f_5.
Definition entry_ok (x : cached_score) : Prop := in_range (ca_score x) ∧ between fzero (ca_urgency x) f_1.

(** No lesson has more than three million exercises and no course more than three million
    lessons: their number, times 5, is exact as an [f32]. *)
Definition limit : Z := 3000000.
Definition modest (g : graph) : Prop :=
  (∀ l es, get_lesson_exercises g l = Some es → (Z.of_nat (size es) <= limit)%Z) ∧
  (∀ c ls, get_course_lessons g c = Some ls → (Z.of_nat (size ls) <= limit)%Z).

(** What is assumed of a setting: an opened library of modest size, a power function with the
    ranges of the true one, orders that list the same things, and a number of trials that fits
    in a machine word. *)
Record setting_ok (s : setting) : Prop := {
  ok_lib : opened (g_lib s);
  ok_modest : modest (lib_graph (g_lib s));
  ok_powf : power_ok (g_powf s);
  ok_ord : ∀ x, g_ord s x ≡ₚ elements x;
  ok_listed : any_order (g_listed s);
  ok_order : sorts_newest_first (g_order s);
  ok_reward_order : sorts_newest_first (g_reward_order s);
  ok_trials : (Z.of_nat (g_num_trials s) < 18446744073709551616)%Z }.
