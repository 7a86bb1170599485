(** Checks of the float literals and basic facts about float comparisons. *)
From Coq Require Import ZArith Bool List Lia Reals Lra.
From Coq.Floats Require Import SpecFloat.
From Flocq Require Import Core.Core IEEE754.BinarySingleNaN.
From Verif Require Import F32.

(** Every literal is the correctly rounded quotient of the decimal it stands for. *)
Definition quot (a b : Z) : f32 := fdiv (f_of_Z a) (f_of_Z b).
Example literals_ok :
  List.map B2SF (f_0_05 :: f_0_1 :: f_0_2 :: f_0_25 :: f_0_3 :: f_0_4 :: f_0_5 :: f_0_75 :: f_0_8 ::
    f_0_9 :: f_1 :: f_2 :: f_2_5 :: f_3 :: f_3_75 :: f_4 :: f_4_5 :: f_5 :: f_epsilon ::
    f_0_16 :: f_0_65 :: f_0_7 :: f_0_95 :: f_1_05 :: f_3_5 :: f_7 :: f_9 :: f_10 :: f_11 :: f_14 ::
    f_50 :: f_730 :: f_86400 :: nil) =
  List.map B2SF (quot 5 100 :: quot 1 10 :: quot 2 10 :: quot 1 4 :: quot 3 10 :: quot 4 10 ::
    quot 1 2 :: quot 3 4 :: quot 8 10 :: quot 9 10 :: quot 1 1 :: quot 2 1 :: quot 5 2 :: quot 3 1 ::
    quot 15 4 :: quot 4 1 :: quot 9 2 :: quot 5 1 :: quot 1 8388608 ::
    quot 16 100 :: quot 65 100 :: quot 7 10 :: quot 95 100 :: quot 105 100 :: quot 7 2 :: quot 7 1 ::
    quot 9 1 :: quot 10 1 :: quot 11 1 :: quot 14 1 :: quot 50 1 :: quot 730 1 :: quot 86400 1 :: nil).
Proof. vm_compute. reflexivity. Qed.
