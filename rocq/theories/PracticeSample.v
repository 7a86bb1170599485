(** Histories after which a cached score is not what would be computed. *)
From stdpp Require Import gmap strings list relations.
From Coq Require Import ZArith Lia Reals Lra.
From Flocq Require Import IEEE754.BinarySingleNaN.
From Verif Require Import F32 F32Real F32More Graph GraphSpec Library LibrarySpec LibraryQueries LibrarySample LibFacts SearchSpec SearchSample
  Sql Stores StoresSpec StoresSample Options Scorer ScorerSpec ScorerProofs ScoreProofs PowerSample ScoreSample Propagate UnitScorer UnitSpec UnitProofs Practice PracticeSpec PracticeProofs PracticeMore UnitSample.
Local Open Scope string_scope.
Local Open Scope list_scope.
Local Open Scope bool_scope.

(** A course with two lessons, one of which supersedes the other. *)
Definition two_lessons : list open_course :=
  [OpenCourse (CourseManifest "course" [] [] [] None)
     [(LessonManifest "lesson" "course" [] [] [] None, [sample_exercise "exercise" "lesson" "course"]);
      (LessonManifest "better" "course" [] [] ["lesson"] None, [sample_exercise "other" "better" "course"])]].
Lemma two_lessons_consistent : Forall consistent two_lessons.
Proof.
  constructor; [|constructor]. intros lm exs H. cbn in H.
  apply elem_of_cons in H as [H|H]; [|apply elem_of_list_singleton in H]; injection H as -> ->;
    (split; [done|]); intros em Hem; apply elem_of_list_singleton in Hem; by subst.
Qed.
Definition two_lessons_graph (lib : library) : Prop :=
  let g := lib_graph lib in
  (get_unit_type g "course" = Some Course ∧ get_unit_type g "lesson" = Some Lesson ∧ get_unit_type g "better" = Some Lesson ∧
   get_unit_type g "exercise" = Some Exercise ∧ get_unit_type g "other" = Some Exercise) ∧
  (get_superseded_by g "lesson" = Some {["better"]} ∧ get_superseded_by g "course" = None ∧ get_superseded_by g "better" = None) ∧
  (get_course_lessons g "course" = Some {["lesson"; "better"]} ∧ get_lesson_exercises g "lesson" = Some {["exercise"]} ∧
   get_lesson_exercises g "better" = Some {["other"]} ∧ get_course_lessons g "better" = None) ∧
  (get_lesson_course g "lesson" = Some "course" ∧ get_lesson_course g "better" = Some "course" ∧
   get_exercise_lesson g "exercise" = Some "lesson" ∧ get_exercise_lesson g "other" = Some "better") ∧
  alone lib "lesson" "course" ∧ map_Forall (λ u _, get_unit_type g u = Some Lesson) (supersedes_graph g).
Global Instance two_lessons_graph_dec lib : Decision (two_lessons_graph lib).
Proof. unfold two_lessons_graph. apply _. Defined.
Lemma two_lessons_opened : ∃ lib, opened lib ∧ two_lessons_graph lib.
Proof.
  destruct (library_checked (λ lib, bool_decide (two_lessons_graph lib)) two_lessons two_lessons_consistent) as (lib & Ho & H).
  { vm_compute. reflexivity. }
  exists lib. split; [done|]. by apply bool_decide_eq_true in H.
Qed.

Definition setting_of (powf : f32 → f32 → f32) (lib : library) : setting :=
  Setting lib 10 20 f_3_75 powf (λ _, true) elements (λ _ l, l) by_time by_time.

(** ** One call *)
Lemma invalidate_own g e x : get_unit_type g e = Some Exercise → invalidate g e (set_exercise <[e := x]> no_caches) = no_caches.
Proof.
  intros He. unfold invalidate. rewrite He.
  assert (E : forget_courses {[e]} (forget_lessons {[e]} (forget_exercises {[e]} (set_exercise <[e:=x]> no_caches))) = no_caches).
  { unfold forget_courses, forget_lessons, forget_exercises, set_course_trials, set_course, set_lesson_trials, set_lesson, set_exercise, no_caches.
    cbn [c_exercise c_lesson c_course c_lesson_trials c_course_trials]. rewrite !map_filter_empty. f_equal.
    rewrite map_filter_insert_False by (cbn; set_solver). rewrite delete_empty. apply map_filter_empty. }
  rewrite E. destruct (get_exercise_lesson g e); [|done].
  unfold forget_courses, forget_lessons, set_course_trials, set_course, set_lesson_trials, set_lesson, no_caches.
  cbn [c_exercise c_lesson c_course c_lesson_trials c_course_trials]. by rewrite !map_filter_empty.
Qed.

Section one_call.
  Context (s : setting) (now ts : Z) (e : uid) (sc : mastery_score) (p : practice) (x : cached_score) (fuel : nat).
  Context (He : get_unit_type (lib_graph (g_lib s)) e = Some Exercise) (Hc : p_caches p = no_caches)
    (Hx : compute_exercise s now p e = Val x)
    (Hr : propagate_rewards (lib_graph (g_lib s)) (g_listed s) (S fuel) e sc ts = Some ∅).
  Definition delta_of : entry f32 := Entry e (fsub (float_score sc) (ca_score x)) ts.
  Definition deltas_after : table f32 :=
    if Nat.ltb 0 (ca_trials x) then fst (record_entries bind_f32 false (p_deltas p) [delta_of]) else p_deltas p.
  Definition practice_after : practice :=
    Practice (fst (record_entries bind_f32 false (p_trials p) [Entry e (float_score sc) ts])) deltas_after (p_rewards p) (p_banned p) no_caches.
  Context (Hd : snd (record_entries bind_f32 false (p_deltas p) [delta_of]) = true)
    (Ht : snd (record_entries bind_f32 false (p_trials p) [Entry e (float_score sc) ts]) = true).
  Lemma one_score : score_call s (S fuel) now no_faults e sc ts p = Some (practice_after, true).
  Proof using He Hc Hx Hr Hd Ht.
    unfold score_call. unfold run at 1. rewrite Hc. cbn [unit_score]. cbn [world_of w_graph]. rewrite He.
    unfold or_default at 1, then_do at 1. unfold exercise_score, then_do at 1, exercise_entry at 1. cbn [no_caches c_exercise]. rewrite lookup_empty.
    cbn [world_of w_exercise]. rewrite Hx. cbn [done_with]. unfold run at 1. cbn [with_caches p_caches].
    unfold or_default, exercise_num_trials, then_do, exercise_entry. cbn [set_exercise c_exercise]. rewrite lookup_insert. cbn [done_with].
    cbn [with_caches p_trials p_deltas p_rewards p_banned p_caches from_option Datatypes.id no_faults f_delta f_score f_rewards].
    change (Entry e (fsub (float_score sc) (ca_score x)) ts) with delta_of. unfold practice_after, deltas_after.
    destruct (record_entries bind_f32 false (p_deltas p) [delta_of]) as [d okd]. cbn [fst snd] in *. subst okd.
    assert (E : (if Nat.ltb 0 (ca_trials x) then (d, true) else (p_deltas p, true)) = (if Nat.ltb 0 (ca_trials x) then d else p_deltas p, true)).
    { by destruct (Nat.ltb 0 (ca_trials x)). }
    rewrite E. clear E. destruct (record_entries bind_f32 false (p_trials p) [Entry e (float_score sc) ts]) as [t okt]. cbn [fst snd] in *. subst okt.
    rewrite Hr. rewrite map_to_list_empty. cbn [fmap list_fmap record_unit_rewards reward_loop]. cbn [with_caches p_trials p_deltas p_rewards p_banned p_caches fold_left].
    do 2 f_equal. unfold with_caches. cbn [p_trials p_deltas p_rewards p_banned p_caches]. rewrite (invalidate_own _ e x He). by destruct (p_rewards p).
  Qed.
  Lemma one_call : call_step s (S fuel) now p (CScore no_faults e sc ts) = Some practice_after.
  Proof using He Hc Hx Hr Hd Ht. unfold call_step. by rewrite one_score. Qed.
End one_call.

Lemma few_deltas powf ty trials deltas now : length deltas < 2 → score_exercise powf ty trials deltas now = score_exercise powf ty trials [] now.
Proof.
  intros H. destruct trials as [|t l]; [done|]. unfold score_exercise. destruct (out_of_order _); [done|]. cbv zeta.
  assert (E : ∀ r, compute_delta powf deltas r = compute_delta powf [] r).
  { intros r. unfold compute_delta. cbn [length]. by rewrite (proj2 (Nat.ltb_lt _ _) H). }
  by rewrite !E.
Qed.
(** With at most two trials and one delta, no rewards are applied. *)
Lemma compute_short s now p e trials deltas sc :
  default [] (get_entries (g_order s) (p_trials p) e (g_num_trials s)) = trials →
  default [] (get_entries (g_order s) (p_deltas p) e (g_num_trials s)) = deltas →
  length trials <= 2 → length deltas < 2 → score_exercise (g_powf s) (exercise_type_of s e) trials [] now = Some sc →
  compute_exercise s now p e = Val (Cached (sc_value sc) (sc_urgency sc) (sc_velocity sc) (length trials)).
Proof.
  intros Et Ed Ht Hd Hs. unfold compute_exercise. rewrite Et, Ed, few_deltas, Hs by done. cbv zeta.
  assert (E : ∀ r, apply_reward r trials now = Some false).
  { intros r. unfold apply_reward. destruct trials as [|t l]; [done|]. by rewrite (proj2 (Nat.leb_le _ _) Ht). }
  by rewrite E.
Qed.

(** The stores after one and two scores of five, recorded at the time 0. *)
Definition five : entry f32 := Entry "exercise" (float_score Five) 0.
Definition trials_1 : table f32 := fst (record_entries bind_f32 false empty_table [five]).
Definition trials_2 : table f32 := fst (record_entries bind_f32 false trials_1 [five]).
Lemma trials_1_read : get_entries by_time trials_1 "exercise" 10 = Some [a_trial].
Proof. reflexivity. Qed.
Lemma trials_2_read : get_entries by_time trials_2 "exercise" 10 = Some two_trials.
Proof. reflexivity. Qed.
Lemma trials_1_other : get_entries by_time trials_1 "other" 10 = Some [].
Proof. reflexivity. Qed.
Lemma trials_2_other : get_entries by_time trials_2 "other" 10 = Some [].
Proof. reflexivity. Qed.
Lemma delta_recorded d : snd (record_entries bind_f32 false empty_table [Entry "exercise" d 0%Z]) = true.
Proof. reflexivity. Qed.
Lemma delta_read d : length (default [] (get_entries by_time (fst (record_entries bind_f32 false empty_table [Entry "exercise" d 0%Z])) "exercise" 10)) < 2.
Proof.
  unfold record_entries. cbn [insert_entries]. unfold insert_entry. cbn [e_unit e_val e_ts]. generalize (bind_f32 d) as v. intros v. apply Nat.ltb_lt.
  destruct v; vm_compute; reflexivity.
Qed.

Lemma flt_irrefl x : flt x x = false.
Proof.
  unfold flt, Bltb. unfold SpecFloat.SFltb. destruct x as [[]|[]| |[] m e H]; try done; cbn; rewrite Z.compare_refl, Pos.compare_cont_refl; done.
Qed.

(** ** Lessons with one exercise and nothing that supersedes them *)
Section one_exercise.
  Context (w : world) (fuel : nat) (l e : uid) (x : cached_score) (c : caches).
  Context (Hl : get_unit_type (w_graph w) l = Some Lesson) (Hs : get_superseded_by (w_graph w) l = None)
    (He : get_lesson_exercises (w_graph w) l = Some {[e]}) (Ho : w_ord w {[e]} = [e]) (Hb : w_bans w l = false) (Hc : c_lesson c !! l = None).
  Lemma lesson_banned : w_bans w e = true → unit_score w (S fuel) l c = (Val None, set_lesson <[l := None]> c).
  Proof using Hl Hs He Ho Hb Hc.
    intros Hbe. cbn [unit_score]. rewrite Hl. unfold lesson_score. rewrite Hc, Hb. unfold superseded. rewrite Hs.
    cbn [then_do done_with]. rewrite He, Ho. cbn [List.filter]. rewrite Hbe. reflexivity.
  Qed.
  Lemma lesson_scored : w_bans w e = false → c_exercise c !! e = None → w_exercise w e = Val x →
    unit_score w (S fuel) l c = (Val (Some (average [ca_score x])), set_lesson <[l := Some (average [ca_score x])]> (set_exercise <[e := x]> c)).
  Proof using Hl Hs He Ho Hb Hc.
    intros Hbe Hce Hx. cbn [unit_score]. rewrite Hl. unfold lesson_score. rewrite Hc, Hb. unfold superseded. rewrite Hs.
    unfold then_do at 1. cbn [done_with]. rewrite He, Ho. cbn [List.filter]. rewrite Hbe. cbn [negb each].
    unfold then_do, exercise_score, exercise_entry, then_do. rewrite Hce, Hx. reflexivity.
  Qed.
End one_exercise.

Lemma lesson_out w fuel l c : get_unit_type (w_graph w) l = Some Lesson → w_bans w l = true → c_lesson c !! l = None →
  unit_score w (S fuel) l c = (Val None, set_lesson <[l := None]> c).
Proof. intros Hl Hb Hc. cbn [unit_score]. rewrite Hl. unfold lesson_score. rewrite Hc, Hb. reflexivity. Qed.
Lemma invalidate_keeps g u c l s : get_unit_type g u = Some Lesson → l ≠ u → c_lesson c !! l = Some s → c_lesson (invalidate g u c) !! l = Some s.
Proof.
  intros Hu Hn Hl. unfold invalidate. rewrite Hu. cbv zeta.
  assert (E1 : ∀ S c, c_lesson (forget_courses S c) = c_lesson c) by reflexivity.
  assert (E2 : ∀ S c, c_lesson (forget_exercises S c) = c_lesson c) by reflexivity.
  assert (E3 : ∀ S c, c_lesson (forget_lessons S c) = filter (λ p, p.1 ∉ S) (c_lesson c)) by reflexivity.
  rewrite E2, E1, E1, E3, E2.
  apply map_filter_lookup_Some_2; [done|]. cbn. by rewrite elem_of_singleton.
Qed.

Section scored.
  Context (powf : f32 → f32 → f32) (lib : library) (l c : uid) (Ha : alone lib l c) (Hl : l ≠ "") (Hc : c ≠ "").
  Local Notation s := (setting_of powf lib).

  Lemma no_rewards fuel ts : propagate_rewards (lib_graph lib) (λ _ l, l) (S fuel) "exercise" Five ts = Some ∅.
  Proof using Ha Hl Hc.
    destruct Ha as (_ & L & C & _ & E1 & E2).
    unfold propagate_rewards, resolve_roots. rewrite L, C. unfold propagate_helper.
    rewrite !bool_decide_eq_false_2 by done. cbn [orb].
    unfold first_stack, get_next_units. assert (P : fgt (initial_reward Five) fzero = true) by (vm_compute; reflexivity). rewrite P.
    rewrite E1, E2. done.
  Qed.

  Definition x_new : cached_score := Cached fzero f_1 None 0.
  Definition p_1 : practice := Practice trials_1 empty_table empty_reward_store ∅ no_caches.
  Lemma x_0 now : compute_exercise s now new_practice "exercise" = Val x_new.
  Proof using. apply (compute_short s now new_practice "exercise" [] [] (EScore fzero f_1 None)); try reflexivity; cbn; lia. Qed.
  Lemma call_1 now fuel : call_step s (S fuel) now new_practice (CScore no_faults "exercise" Five 0) = Some p_1.
  Proof using Ha Hl Hc.
    rewrite (one_call s now 0 "exercise" Five new_practice x_new fuel).
    - reflexivity.
    - apply Ha.
    - done.
    - apply x_0.
    - apply no_rewards.
    - apply delta_recorded.
    - reflexivity.
  Qed.
  Lemma x_1 now : ∃ x, compute_exercise s now p_1 "exercise" = Val x ∧ ca_trials x = 1.
  Proof using.
    destruct (score_exercise powf (exercise_type_of s "exercise") [a_trial] [] now) as [sc|] eqn:E.
    - eexists. split; [apply (compute_short s now p_1 "exercise" [a_trial] [] sc)|]; try reflexivity; try (cbn; lia). done.
    - exfalso. unfold score_exercise in E. cbn [out_of_order] in E. done.
  Qed.
  Definition p_2 (d : f32) : practice :=
    Practice trials_2 (fst (record_entries bind_f32 false empty_table [Entry "exercise" d 0%Z])) empty_reward_store ∅ no_caches.
  Lemma call_2 now fuel : ∃ d, call_step s (S fuel) now p_1 (CScore no_faults "exercise" Five 0) = Some (p_2 d).
  Proof using Ha Hl Hc.
    destruct (x_1 now) as (x & Hx & Hn). exists (fsub (float_score Five) (ca_score x)).
    rewrite (one_call s now 0 "exercise" Five p_1 x fuel).
    - unfold practice_after, deltas_after. by rewrite Hn.
    - apply Ha.
    - done.
    - done.
    - apply no_rewards.
    - apply delta_recorded.
    - reflexivity.
  Qed.
  Definition deltas_2 (d : f32) : table f32 := fst (record_entries bind_f32 false empty_table [Entry "exercise" d 0%Z]).
  Lemma x_2 now d sc p : p_trials p = trials_2 → p_deltas p = deltas_2 d → score_exercise powf Procedural two_trials [] now = Some sc →
    compute_exercise s now p "exercise" = Val (Cached (sc_value sc) (sc_urgency sc) (sc_velocity sc) 2).
  Proof using Ha.
    intros E1 E2 E. eapply (compute_short s now _ "exercise" two_trials); [by rewrite E1|by rewrite E2|cbn; lia|apply delta_read|].
    unfold exercise_type_of. destruct Ha as (_ & _ & _ & P & _). cbn [setting_of g_lib g_powf].
    destruct (exercise_map lib !! "exercise") as [m|]; [|done]. cbn in P. injection P as ->. done.
  Qed.
  Lemma x_other now d p : p_trials p = trials_2 → p_deltas p = deltas_2 d → compute_exercise s now p "other" = Val x_new.
  Proof using.
    intros E1 E2.
    eapply (compute_short s now _ "other" [] _ (EScore fzero f_1 None)); [by rewrite E1|by rewrite E2|cbn; lia| |reflexivity].
    unfold deltas_2. cbn [setting_of g_order g_num_trials].
    unfold record_entries. cbn [insert_entries]. unfold insert_entry. cbn [e_unit e_val e_ts]. generalize (bind_f32 d) as v. intros v. apply Nat.ltb_lt.
    destruct v; vm_compute; reflexivity.
  Qed.
  Lemma day_50_positive : power_ok powf → rounded_power powf →
    ∃ sc, score_exercise powf Procedural two_trials [] day_50 = Some sc ∧ fgt (sc_value sc) fzero = true.
  Proof using.
    intros Hp Hr. destruct (waiting_helps powf Hp Hr) as (sc & sc' & E & E' & Hlt). exists sc'. split; [done|].
    assert (V : ∀ now sc, score_exercise powf Procedural two_trials [] now = Some sc → btw 0 5 (sc_value sc)).
    { intros now y Ey. destruct (score_valid powf Hp Procedural two_trials [] now) as (z & Ez & B & _);
        [apply two_trials_order|unfold fits; cbn; lia|apply two_trials_graded|constructor|].
      rewrite Ey in Ez. injection Ez as <-. apply (between_f fzero _ f_5); [done|done|apply v_0|apply v_5|done]. }
    destruct (V day_49 sc E) as [F1 V1], (V day_50 sc' E') as [F2 V2]. apply flt_true in Hlt; [|done|done].
    change (flt fzero (sc_value sc') = true). apply flt_true; [done|done|]. rewrite v_0. lra.
  Qed.
End scored.

Section histories.
  Context (powf : f32 → f32 → f32) (lib : library) (Hlib : opened lib) (Hg : two_lessons_graph lib).
  Local Notation s := (setting_of powf lib).
  Lemma Ha : alone lib "lesson" "course".
  Proof using Hg. apply Hg. Qed.

  (** ** A history that fills the caches *)
  Lemma lesson_cached now : ∃ cs p s, Forall (λ x, x.1 = now ∧ keeps_caches x.2) cs ∧ calls (setting_of powf lib) 1 new_practice cs = Some p ∧
    length cs = 3 ∧ not_superseded (lib_graph lib) "better" ∧ c_lesson (p_caches p) !! "better" = Some (Some s).
  Proof using Hg.
    pose proof Hg as ((_ & _ & TB & _) & (_ & _ & SB) & (_ & _ & LB & NB) & _).
    destruct (call_2 powf lib _ _ Ha ltac:(done) ltac:(done) now 0) as [d Hd].
    eexists [(now, CScore no_faults "exercise" Five 0); (now, CScore no_faults "exercise" Five 0); (now, CAskScore "better")], _, _.
    split; [|split; [|split; [done|split]]].
    - repeat constructor.
    - cbn [calls]. rewrite (call_1 powf lib _ _ Ha) by done. rewrite Hd. cbn [call_step]. unfold run. change (p_caches (p_2 d)) with no_caches.
      rewrite (lesson_scored _ 0 "better" "other" x_new no_caches); [reflexivity|done|done|done|reflexivity|reflexivity|reflexivity|reflexivity|reflexivity|].
      apply (x_other powf lib now d (p_2 d) eq_refl eq_refl).
    - split; [done|]. intros ls H. by rewrite NB in H.
    - cbn [snd with_caches p_caches set_lesson c_lesson]. apply lookup_insert.
  Qed.

  (** ** Scores removed *)
  Lemma removed_stale : ∃ fuel cs p e, calls s fuel new_practice ((λ c, (0%Z, c)) <$> cs) = Some p ∧ get_unit_type (lib_graph lib) e = Some Exercise ∧
    fst (exercise_entry (world_of s 0 p) e (p_caches p)) ≠ fst (exercise_entry (world_of s 0 p) e no_caches).
  Proof using Hg.
    destruct (x_1 powf lib 0) as (x & Hx & Hn).
    eexists 1, [CScore no_faults "exercise" Five 0; CAskExercise "exercise"; CRemoveScores "exercise"], _, "exercise".
    split; [|split].
    - cbn [fmap list_fmap calls]. rewrite (call_1 powf lib _ _ Ha) by done. cbn [call_step]. unfold run. cbn [p_1 p_caches]. unfold exercise_entry at 1.
      cbn [no_caches c_exercise]. rewrite lookup_empty. cbn [world_of w_exercise]. rewrite Hx. cbn [snd]. reflexivity.
    - apply Hg.
    - unfold exercise_entry. cbn [remove_scores with_caches p_1 p_caches p_trials p_deltas p_rewards p_banned set_exercise no_caches c_exercise].
      rewrite lookup_insert, lookup_empty. cbn [fst world_of w_exercise].
      rewrite (compute_short s 0 _ "exercise" [] [] (EScore fzero f_1 None)); try reflexivity; [|cbn; lia..].
      cbn [fst]. intros [= ->]. done.
  Qed.

  (** ** A later day *)
  Lemma later_stale : power_ok powf → rounded_power powf → ∃ fuel cs p now e, calls s fuel new_practice cs = Some p ∧
    Forall (λ x, (x.1 <= now)%Z ∧ keeps_caches x.2) cs ∧ get_unit_type (lib_graph lib) e = Some Exercise ∧
    fst (exercise_entry (world_of s now p) e (p_caches p)) ≠ fst (exercise_entry (world_of s now p) e no_caches).
  Proof using Hg.
    intros Hp Hr. destruct (call_2 powf lib _ _ Ha ltac:(done) ltac:(done) 0 0) as [d Hd]. destruct (waiting_helps powf Hp Hr) as (sc & sc' & E & E' & Hlt).
    eexists 1, [(0%Z, CScore no_faults "exercise" Five 0); (0%Z, CScore no_faults "exercise" Five 0); (day_49, CAskExercise "exercise")], _, day_50, "exercise".
    split; [|split; [|split]].
    - cbn [calls]. rewrite (call_1 powf lib _ _ Ha) by done. rewrite Hd. cbn [call_step]. unfold run. cbn [p_2 p_caches]. unfold exercise_entry at 1.
      cbn [no_caches c_exercise]. rewrite lookup_empty. cbn [world_of w_exercise].
      change (compute_exercise _ day_49 _ "exercise") with (compute_exercise s day_49 (p_2 d) "exercise"). rewrite (x_2 powf lib _ _ Ha day_49 d sc (p_2 d) eq_refl eq_refl E). reflexivity.
    - repeat constructor; cbn; unfold day_50, day_49; lia.
    - apply Hg.
    - unfold exercise_entry. cbn [with_caches p_2 p_caches set_exercise no_caches c_exercise snd].
      rewrite lookup_insert, lookup_empty. cbn [fst world_of w_exercise].
      match goal with |- context [compute_exercise _ day_50 ?p "exercise"] => rewrite (x_2 powf lib _ _ Ha day_50 d sc' p eq_refl eq_refl E') end. cbn [fst].
      intros [= Hv _ _]. rewrite Hv, flt_irrefl in Hlt. done.
  Qed.

  (** ** A prefix of the blacklist *)
  Lemma invalidate_none g u : invalidate g u no_caches = no_caches.
  Proof using.
    unfold invalidate. 
    assert (E : ∀ S : gset uid, forget_courses S no_caches = no_caches ∧ forget_lessons S no_caches = no_caches ∧ forget_exercises S no_caches = no_caches).
    { intros S. unfold forget_courses, forget_lessons, forget_exercises, set_course_trials, set_course, set_lesson_trials, set_lesson, set_exercise, no_caches.
      cbn [c_exercise c_lesson c_course c_lesson_trials c_course_trials]. by rewrite !map_filter_empty. }
    assert (E1 : ∀ S, forget_courses S no_caches = no_caches) by apply E. assert (E2 : ∀ S, forget_lessons S no_caches = no_caches) by apply E.
    assert (E3 : ∀ S, forget_exercises S no_caches = no_caches) by apply E. rewrite E3, E2, E1. destruct (get_unit_type g u) as [[]|]; [| | |done].
    - destruct (get_exercise_lesson g u) as [l|]; [|done]. by rewrite E2, E1.
    - by rewrite E1, E3.
    - by rewrite E2, E3.
  Qed.

  Lemma unbanned_stale : ∃ fuel cs p u, calls s fuel new_practice ((λ c, (0%Z, c)) <$> cs) = Some p ∧ not_superseded (lib_graph lib) u ∧
    fst (unit_score (world_of s 0 p) fuel u (p_caches p)) ≠ fst (unit_score (world_of s 0 p) fuel u no_caches).
  Proof using Hg.
    pose proof Hg as ((_ & _ & TB & TE & TO) & (_ & _ & SB) & (_ & _ & LB & NB) & (_ & CB & _ & LO) & _).
    eexists 1, [CBan false "other"; CAskScore "better"; CUnbanPrefix "other"], _, "better". split; [|split].
    - cbn [fmap list_fmap calls call_step]. unfold ban. rewrite invalidate_none. unfold run. cbn [p_caches].
      rewrite (lesson_banned _ 0 "better" "other"); [reflexivity|done|done|done|reflexivity|reflexivity|reflexivity|reflexivity].
    - split; [done|]. intros ls H. rewrite NB in H. done.
    - cbn [unban_prefix p_caches with_caches p_trials p_deltas p_rewards p_banned].
      match goal with |- fst (unit_score ?w 1 "better" ?c) ≠ _ =>
        assert (E1 : fst (unit_score w 1 "better" c) = Val None);
        [|rewrite E1, (lesson_scored w 0 "better" "other" x_new no_caches); [done|done|done|done|reflexivity|reflexivity|reflexivity|reflexivity|reflexivity|]] end.
      + cbn [unit_score]. cbn [world_of w_graph setting_of g_lib]. rewrite TB. unfold lesson_score. reflexivity.
      + apply (compute_short s 0 _ "other" [] [] (EScore fzero f_1 None)); try reflexivity; cbn; lia.
  Qed.

  (** ** A lesson that supersedes another *)
  Lemma lesson_asked w fuel x r c : w_graph w = lib_graph lib → w_ord w = elements → w_bans w "lesson" = false → w_bans w "course" = false →
    w_bans w "exercise" = false → w_exercise w "exercise" = Val x → fgt (ca_score x) fzero = true →
    unit_score w (S fuel) "better" (set_exercise <["exercise" := x]> no_caches) = (Val r, c) → c_exercise c !! "exercise" = Some x →
    unit_score w (S (S fuel)) "lesson" no_caches =
      let s := if reaches w r then None else Some (average [ca_score x]) in (Val s, set_lesson <["lesson" := s]> c).
  Proof using Hg.
    intros Eg Eo Bl Bc Be Hx Hp Hb Hc. pose proof Hg as ((_ & TL & _) & (SL & _ & SB) & (_ & LE & _) & (CL & _) & _).
    assert (E1 : elements ({["better"]} : gset uid) = ["better"]) by apply elements_singleton.
    assert (E2 : elements ({["exercise"]} : gset uid) = ["exercise"]) by apply elements_singleton.
    assert (Er : ∀ h c, replace_superseding w h (S fuel) {["better"]} c = (Val {["better"]}, c)).
    { intros h c'. cbn [replace_superseding]. rewrite Eo, E1. cbn [each]. rewrite Eg, SB. unfold then_do, done_with. do 2 f_equal. cbn. apply (right_id_L ∅ (∪)). }
    remember (S fuel) as f eqn:Ef. cbn [unit_score]. rewrite Eg, TL. unfold lesson_score. cbn [no_caches c_lesson]. rewrite lookup_empty, Bl.
    unfold superseded. rewrite Eg, SL. unfold then_do at 1. unfold then_do at 1. rewrite Er.
    unfold is_superseded. rewrite bool_decide_eq_false_2 by (apply non_empty_singleton_L).
    assert (Ev : valid_in_unit w "lesson" = ["exercise"]).
    { unfold valid_in_unit. rewrite Eg, TL. unfold valid_in_lesson, w_exercises. rewrite Bl, Eg, CL, LE. cbn [default from_option Datatypes.id]. rewrite Bc, Eo, E2.
      cbn [List.filter]. by rewrite Be. }
    unfold all_have_scores. rewrite Ev. cbn [each]. rewrite Eo, E1. cbn [each].
    assert (En : exercise_score w "exercise" no_caches = (Val (ca_score x), set_exercise <["exercise" := x]> no_caches)).
    { unfold exercise_score, then_do, exercise_entry. cbn [no_caches c_exercise]. by rewrite lookup_empty, Hx. }
    assert (Ec : exercise_score w "exercise" c = (Val (ca_score x), c)).
    { unfold exercise_score, then_do, exercise_entry. by rewrite Hc. }
    change (Caches ∅ ∅ ∅ ∅ ∅) with no_caches.
    unfold then_do, or_default, done_with. rewrite En. cbn [forallb positive]. rewrite Hp. cbn [andb]. rewrite Hb. cbn [forallb].
    rewrite andb_true_r. destruct (reaches w r); [reflexivity|].
    rewrite LE, E2. cbn [List.filter]. rewrite Be. cbn [negb each]. unfold then_do, done_with. rewrite Ec. reflexivity.
  Qed.

  Lemma superseding_stale : power_ok powf → rounded_power powf → ∃ fuel now cs p u, calls s fuel new_practice ((λ c, (now, c)) <$> cs) = Some p ∧
    Forall keeps_caches cs ∧
    fst (unit_score (world_of s now p) fuel u (p_caches p)) ≠ fst (unit_score (world_of s now p) fuel u no_caches).
  Proof using Hg.
    intros Hp Hr. destruct (call_2 powf lib _ _ Ha ltac:(done) ltac:(done) day_50 1) as [d Hd]. destruct (day_50_positive powf Hp Hr) as (sc' & E' & Hpos).
    pose proof Hg as ((_ & TL & TB & _) & (_ & _ & SB) & (_ & LE & LB & _) & (CL & CB & _) & _).
    set (x := Cached (sc_value sc') (sc_urgency sc') (sc_velocity sc') 2).
    set (w1 := world_of s day_50 (p_2 d)).
    assert (Hx : w_exercise w1 "exercise" = Val x) by apply (x_2 powf lib _ _ Ha day_50 d sc' (p_2 d) eq_refl eq_refl E').
    assert (Ho : w_exercise w1 "other" = Val x_new) by apply (x_other powf lib day_50 d (p_2 d) eq_refl eq_refl).
    set (c1 := set_exercise <["exercise" := x]> no_caches).
    set (c2 := set_lesson <["better" := Some (average [ca_score x_new])]> (set_exercise <["other" := x_new]> c1)).
    assert (A1 : unit_score w1 1 "better" c1 = (Val (Some (average [ca_score x_new])), c2)).
    { apply (lesson_scored w1 0 "better" "other" x_new c1); try done; try reflexivity. }
    assert (A2 : unit_score w1 2 "lesson" no_caches = (Val (Some (average [ca_score x])), set_lesson <["lesson" := Some (average [ca_score x])]> c2)).
    { rewrite (lesson_asked w1 0 x (Some (average [ca_score x_new])) c2); try done; try reflexivity.
    }
    set (c3 := set_lesson <["lesson" := Some (average [ca_score x])]> c2) in *.
    set (p4 := ban s false "better" (with_caches (λ _, c3) (p_2 d))).
    exists 2, day_50, [CScore no_faults "exercise" Five 0; CScore no_faults "exercise" Five 0; CAskScore "lesson"; CBan false "better"], p4, "lesson".
    split; [|split].
    - cbn [fmap list_fmap calls]. rewrite (call_1 powf lib _ _ Ha) by done. rewrite Hd. cbn [call_step]. unfold run. change (p_caches (p_2 d)) with no_caches. fold w1. rewrite A2. reflexivity.
    - repeat constructor.
    - set (w2 := world_of s day_50 p4).
      assert (B1 : fst (unit_score w2 2 "lesson" (p_caches p4)) = Val (Some (average [ca_score x]))).
      { cbn [unit_score]. change (w_graph w2) with (lib_graph lib). rewrite TL. unfold lesson_score.
        assert (Hl : c_lesson (p_caches p4) !! "lesson" = Some (Some (average [ca_score x]))).
        { apply (invalidate_keeps (lib_graph lib) "better" c3 "lesson"); [done|done|]. unfold c3. cbn [set_lesson c_lesson]. apply lookup_insert. }
        rewrite Hl. reflexivity. }
      assert (B2 : fst (unit_score w2 2 "lesson" no_caches) = Val None).
      { assert (A3 : unit_score w2 1 "better" c1 = (Val None, set_lesson <["better" := None]> c1)).
        { apply lesson_out; [done|reflexivity|reflexivity]. }
        assert (Hx2 : w_exercise w2 "exercise" = Val x) by exact (x_2 powf lib _ _ Ha day_50 d sc' p4 eq_refl eq_refl E').
        rewrite (lesson_asked w2 0 x None (set_lesson <["better" := None]> c1) eq_refl eq_refl eq_refl eq_refl eq_refl Hx2 Hpos A3); [reflexivity|].
        apply lookup_insert. }
      rewrite B1, B2. done.
  Qed.
End histories.

(** ** The library in which a course supersedes its own lesson *)
Lemma own_lesson_endless powf lib : power_ok powf → rounded_power powf → own_lesson_graph (lib_graph lib) → alone lib "C::L" "C" →
  ∃ cs p, calls (setting_of powf lib) 1 new_practice ((λ c, (day_50, c)) <$> cs) = Some p ∧ Forall keeps_caches cs ∧
    ∀ fuel, fst (unit_score (world_of (setting_of powf lib) day_50 p) fuel "C::L" (p_caches p)) = NoFuel.
Proof.
  intros Hp Hr Hg Ha. destruct (call_2 powf lib _ _ Ha ltac:(done) ltac:(done) day_50 0) as [d Hd]. destruct (day_50_positive powf Hp Hr) as (sc & E & Hpos).
  exists [CScore no_faults "exercise" Five 0; CScore no_faults "exercise" Five 0], (p_2 d). split; [|split].
  - cbn [fmap list_fmap calls]. rewrite (call_1 powf lib _ _ Ha) by done. by rewrite Hd.
  - repeat constructor.
  - intros fuel. eapply lesson_endless; [done|exact Hg|done|apply (x_2 powf lib _ _ Ha day_50 d sc (p_2 d) eq_refl eq_refl E)|done|].
    split_and!; [reflexivity|reflexivity|]. intros y Hy. done.
Qed.
