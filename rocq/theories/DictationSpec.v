(** Vocabulary for the statements about literacy courses with and without dictation. *)
From stdpp Require Import gmap strings list.
From Verif Require Import F32 Graph Library LibrarySpec.

(** Some manifest of the library mentions the unit [x] in one of its relations. *)
Definition mentions (courses : list open_course) (x : uid) : Prop :=
  ∃ d, d ∈ declared courses ∧ (x ∈ d_deps d ∨ x ∈ d_sup d ∨ x ∈ (d_enc d).*1).
