(** Concrete knowledge bases on disk. *)
From stdpp Require Import gmap strings list sorting countable.
From Coq Require Import Ascii Eqdep_dec.
From Flocq Require Import IEEE754.BinarySingleNaN.
From Verif Require Import F32 F32Real Graph Library Compute LibrarySample Generators GenSpec GenSample StrFacts GenBase GenKb FileSystem FileSpec FileProofs BuildProofs FileSample KbBuilder KbSpec KbOpens KbDisk KbRead KbMain.
Local Open Scope string_scope.
Local Open Scope list_scope.

(** ** A way of writing that can be read back *)
Fixpoint bits (p : positive) : string := match p with xI p => String "1" (bits p) | xO p => String "0" (bits p) | xH => "" end.
Fixpoint unbits (s : string) : option positive :=
  match s with
  | EmptyString => Some xH
  | String a s => p ← unbits s; if Ascii.eqb a "1" then Some (xI p) else if Ascii.eqb a "0" then Some (xO p) else None
  end.
Lemma unbits_bits p : unbits (bits p) = Some p.
Proof. induction p as [p IH|p IH|]; cbn; [rewrite IH..|]; done. Qed.
Definition put {A : Type} `{Countable A} (x : A) : string := bits (encode x).
Definition get {A : Type} `{Countable A} (s : string) : option A := unbits s ≫= decode.
Lemma get_put {A : Type} `{Countable A} (x : A) : get (put x) = Some x.
Proof. unfold get, put. rewrite unbits_bits. cbn. apply decode_encode. Qed.
(** Weights. *)
Definition parts (x : f32) : bool * option (positive * Z) :=
  match x with B754_zero s => (s, None) | B754_finite s m e _ => (s, Some (m, e)) | _ => (false, None) end.
Definition joined (y : bool * option (positive * Z)) : option f32 :=
  match y with
  | (s, None) => Some (B754_zero s)
  | (s, Some (m, e)) =>
      match Bool.bool_dec (SpecFloat.bounded 24 128 m e) true with
      | left H => Some (B754_finite s m e H)
      | right _ => None
      end
  end.
Lemma joined_parts x : fin x → joined (parts x) = Some x.
Proof.
  destruct x as [s|s| |s m e H]; cbn; try discriminate; [done|]. intros _. destruct (Bool.bool_dec _ true) as [H'|H']; [|congruence].
  do 2 f_equal. apply UIP_dec, Bool.bool_dec.
Qed.
Definition put_weights (l : list (uid * f32)) : string := put ((λ y : uid * f32, (y.1, parts y.2)) <$> l).
Definition get_weights (s : string) : option (list (uid * f32)) :=
  l ← get (A := list (string * (bool * option (positive * Z)))) s; try_map (λ y : string * (bool * option (positive * Z)), pair y.1 <$> joined y.2) l.
Lemma get_put_weights l : Forall (λ y, fin y.2) l → get_weights (put_weights l) = Some l.
Proof.
  intros H. unfold get_weights, put_weights. rewrite get_put. cbn [mbind option_bind]. induction H as [|[u x] l Hx _ IH]; [done|].
  rewrite fmap_cons. cbn [try_map fst snd]. rewrite joined_parts by done. cbn [fmap option_fmap option_map mbind option_bind]. rewrite IH. done.
Qed.
Definition put_course (c : course_manifest) : string := put (cm_id c).
Definition bit_writers : writers := Writers put put put_weights put put put_course.
Definition bit_read (s : string) : content := Content (get s) (get_weights s) (get s) (get s) (get s) (Some s) None None.
Lemma bit_ok : codec_ok bit_writers bit_read.
Proof.
  split; [intros x; apply get_put|]. split; [intros x; apply get_put|]. split; [intros x; apply get_put_weights|].
  split; [intros x; apply get_put|]. split; [intros x; apply get_put|done].
Qed.

(** ** A course *)
Definition half_weight : f32 := lit false 8388608 (-24) eq_refl.
Definition kb_first : kb_lesson_builder :=
  KbLessonBuilder "first" (Some "First") None [] [] [] (Some {[ "topic" := ["a"; "b"] ]}) (Some false)
    [KbExerciseBuilder "x" (Some "X") None None [AssetBuilder ["x.front.md"] "Q"; AssetBuilder ["x.back.md"] "A"];
     KbExerciseBuilder "y" None None (Some true) [AssetBuilder ["y.front.md"] "R"; AssetBuilder ["images"; "y.png"] "I"]]
    [AssetBuilder ["lesson.material.md"] "M"].
Definition kb_second : kb_lesson_builder :=
  KbLessonBuilder "second" None None ["first"; "other::lesson"] ["first"] [("first", half_weight)] None None [] [].
Definition kb_sample_builder : kb_course_builder := KbCourseBuilder "kb" [kb_first; kb_second] [AssetBuilder ["notes.md"] "N"] (plain_course "K").
Lemma half_fin : fin half_weight.
Proof. done. Qed.
Lemma is_plain n : (match kb_kind n with None | Some KLessonInstructions | Some KLessonMaterial => true | _ => false end) = true → plain_name n.
Proof. unfold plain_name. destruct (kb_kind n) as [[]|]; try discriminate; auto. Qed.
Lemma sample_builder_tidy : tidy_course kb_sample_builder.
Proof.
  split; [by_compute|]. split.
  - intros l Hl. repeat (apply elem_of_cons in Hl as [->|Hl]); [| |by apply elem_of_nil in Hl].
    + split; [by_compute|]. split; [|split; [|constructor]].
      * intros e He. repeat (apply elem_of_cons in He as [->|He]); [| |by apply elem_of_nil in He].
        -- split; [done|]. split; [done|]. split; [eexists; split; [left|done]|]. intros a Ha.
           repeat (apply elem_of_cons in Ha as [->|Ha]); [left; done|right; left; done|by apply elem_of_nil in Ha].
        -- split; [done|]. split; [done|]. split; [eexists; split; [left|done]|]. intros a Ha.
           repeat (apply elem_of_cons in Ha as [->|Ha]); [left; done| |by apply elem_of_nil in Ha].
           right. right. exists "images", ["y.png"]. split; [done|]. apply is_plain. vm_compute. reflexivity.
      * intros a ->%elem_of_list_singleton. exists "lesson.material.md", []. split; [done|]. apply is_plain. vm_compute. reflexivity.
    + split; [constructor|]. split; [intros e He; by apply elem_of_nil in He|]. split; [intros a Ha; by apply elem_of_nil in Ha|].
      constructor; [apply half_fin|constructor].
  - intros a n rest s ->%elem_of_list_singleton [= <- _] E. revert E. apply (ends_differ "" s "notes.md" ".lesson" eq_refl).
Qed.
(** Whether a run is over. *)
Definition is_over {A : Type} (r : run A) : bool := match r with Over _ _ _ => true | _ => false end.
Lemma over_run (m : io ()) f : is_over (m None f) = true → ∃ n' f', m None f = Over () n' f'.
Proof. destruct (m None f) as [[] n' f'| |]; [eauto|discriminate..]. Qed.
Lemma sample_built : codec_ok bit_writers bit_read ∧ tree empty_disk ∧ tidy_course kb_sample_builder ∧
  ∃ n' f', build_kb_course bit_writers [] kb_sample_builder None empty_disk = Over () n' f'.
Proof.
  split; [apply bit_ok|]. split; [apply empty_tree|]. split; [apply sample_builder_tidy|]. apply over_run. vm_compute. reflexivity.
Qed.

(** ** Simple courses *)
Definition simple_one (exercises : list string) : simple_lesson :=
  SimpleLesson "one" [] [] [("other", half_weight)] ((λ e, SimpleExercise e ["front"; "lines"] ["back"]) <$> exercises) None [AssetBuilder ["lesson.instructions.md"] "I"].
Definition simple_two : simple_lesson := SimpleLesson "two" ["one"] [] [] [SimpleExercise "z" ["Z"] []] None [].
Definition simple_full : simple_course := SimpleCourse (plain_course "S") [("other", half_weight)] [simple_one ["a"; "b"]; simple_two].
Definition simple_less : simple_course := SimpleCourse (plain_course "S") [] [simple_one ["a"]].
Lemma simple_one_tidy es a : a ∈ sl_files (simple_one es) → plain_asset a.
Proof. intros ->%elem_of_list_singleton. exists "lesson.instructions.md", []. split; [done|]. apply is_plain. vm_compute. reflexivity. Qed.
Lemma simple_full_tidy : tidy_simple simple_full.
Proof.
  intros l Hl. repeat (apply elem_of_cons in Hl as [->|Hl]); [| |by apply elem_of_nil in Hl].
  - split; [apply simple_one_tidy|]. constructor; [apply half_fin|constructor].
  - split; [intros a Ha; by apply elem_of_nil in Ha|constructor].
Qed.
Lemma simple_less_tidy : tidy_simple simple_less.
Proof. intros l ->%elem_of_list_singleton. split; [apply simple_one_tidy|]. constructor; [apply half_fin|constructor]. Qed.
Lemma full_valid : valid_simple simple_full.
Proof. apply simple_valid. split; [apply is_Some_true; vm_compute; reflexivity|by_compute]. Qed.
Definition root_disk : gmap (list string) node := some_disk.
Lemma root_tree : tree root_disk.
Proof.
  split; [vm_compute; reflexivity|]. intros p x n H. unfold root_disk, some_disk in H. apply lookup_insert_Some in H as [[E _]|[_ H]].
  - destruct p as [|y [|z p]]; [vm_compute; reflexivity|discriminate E|discriminate E].
  - unfold empty_disk in H. apply lookup_singleton_Some in H as [H _]. symmetry in H. apply snoc_nonempty in H as [].
Qed.
Definition full_disk : gmap (list string) node := final (build_simple bit_writers ["lib"] simple_full None root_disk).
Definition less_disk : gmap (list string) node := final (build_simple bit_writers ["lib"] simple_less None full_disk).
Lemma over_final (m : io ()) f : is_over (m None f) = true → ∃ n', m None f = Over () n' (final (m None f)).
Proof. destruct (m None f) as [[] n' f'| |]; [eauto|discriminate..]. Qed.
Lemma full_built : ∃ n', build_simple bit_writers ["lib"] simple_full None root_disk = Over () n' full_disk.
Proof. apply over_final. vm_compute. reflexivity. Qed.
Lemma less_built : ∃ n', build_simple bit_writers ["lib"] simple_less None full_disk = Over () n' less_disk.
Proof. apply over_final. vm_compute. reflexivity. Qed.
Lemma again_built : ∃ n' f', build_simple bit_writers ["lib"] simple_full None full_disk = Over () n' f'.
Proof. apply over_run. vm_compute. reflexivity. Qed.
Lemma no_lessons s : root_disk !! (["lib"] ++ [s +:+ ".lesson"]) = Some Dir → s ∈ sl_id <$> sc_lessons simple_full.
Proof. unfold root_disk. rewrite disk_only by discriminate. discriminate. Qed.
Lemma simple_sample : codec_ok bit_writers bit_read ∧ tree root_disk ∧ tidy_simple simple_full ∧ valid_simple simple_full ∧
  (∀ s, root_disk !! (["lib"] ++ [s +:+ ".lesson"]) = Some Dir → s ∈ sl_id <$> sc_lessons simple_full) ∧
  (∃ n', build_simple bit_writers ["lib"] simple_full None root_disk = Over () n' full_disk) ∧
  ∃ n' f', build_simple bit_writers ["lib"] simple_full None full_disk = Over () n' f'.
Proof.
  split; [apply bit_ok|]. split; [apply root_tree|]. split; [apply simple_full_tidy|]. split; [apply full_valid|]. split; [apply no_lessons|].
  split; [apply full_built|apply again_built].
Qed.
(** A lesson that was removed from the configuration is still there. *)
Definition lesson_ids (o : option open_course) : list uid := match o with Some oc => ids oc | None => [] end.
Lemma lesson_there o x : bool_decide (x ∈ lesson_ids o) = true → ∃ oc, o = Some oc ∧ x ∈ ids oc.
Proof. intros H%bool_decide_eq_true. destruct o as [oc|]; [eauto|]. by apply elem_of_nil in H. Qed.
Lemma simple_stale : ∃ w read f0 c0 f c f' n n' dirs oc, codec_ok w read ∧ tree f0 ∧ tidy_simple c0 ∧ tidy_simple c ∧ build_simple w ["lib"] c0 None f0 = Over () n f ∧
  build_simple w ["lib"] c None f = Over () n' f' ∧ lists_dirs read f' ["lib"] dirs ∧
  generate_kb same_order (λ l, l) false dirs (simple_manifest c) = Some oc ∧
  (∀ l, l ∈ sc_lessons c → sl_id l ≠ "two") ∧ id_of "S" ["two"] ∈ (λ le, lm_id le.1) <$> oc_lessons oc.
Proof.
  destruct full_built as [n Hn]. destruct less_built as [n' Hn'].
  destruct (lesson_there (generate_kb same_order (λ l, l) false (dir_entries bit_read less_disk ["lib"]) (simple_manifest simple_less)) (id_of "S" ["two"])) as (oc & E & H).
  { vm_compute. reflexivity. }
  exists bit_writers, bit_read, root_disk, simple_full, full_disk, simple_less, less_disk, n, n', (dir_entries bit_read less_disk ["lib"]), oc.
  split; [apply bit_ok|]. split; [apply root_tree|]. split; [apply simple_full_tidy|]. split; [apply simple_less_tidy|]. split; [exact Hn|]. split; [exact Hn'|].
  split; [apply dirs_listed|]. split; [exact E|]. split; [|exact H]. intros l ->%elem_of_list_singleton. discriminate.
Qed.
(** A build that is interrupted loses a lesson that was there. *)
Lemma simple_interrupted : ∃ w root c f0 f f' n p s, tree f0 ∧ tidy_simple c ∧ valid_simple c ∧
  (∃ n', build_simple w root c None f0 = Over () n' f) ∧ build_simple w root c (Some n) f = Interrupted f' ∧ f !! p = Some (File s) ∧ f' !! p = None.
Proof.
  exists bit_writers, ["lib"], simple_full, root_disk, full_disk, (final (build_simple bit_writers ["lib"] simple_full (Some 1) full_disk)), 1,
    ["lib"; "one.lesson"; "a.front.md"], (join_lines ["front"; "lines"]).
  split; [apply root_tree|]. split; [apply simple_full_tidy|]. split; [apply full_valid|]. split; [apply full_built|]. split; [|split; vm_compute; reflexivity].
  assert (∀ (r : run ()), match r with Interrupted _ => true | _ => false end = true → r = Interrupted (final r)) as H by (by intros []).
  apply H. vm_compute. reflexivity.
Qed.
