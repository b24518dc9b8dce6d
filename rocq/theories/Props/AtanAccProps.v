(** The accuracy of atan *)
From Coq Require Import ZArith Reals Ratan List Bool Lia Lra.
From Verif.Spec Require Import Seq FloatSpec TransSpec AccuracySpec.
From Verif.Model Require Import Word Fp FpArith Transcend.
Import ListNotations.
Local Open Scope R_scope.
From Verif.Proof Require AtanAccMain.

(** atan of every finite float entry, in every build: the result is finite; its relative error is at most 2 ^ -21, apart from at
most 2 ^ -149, the smallest positive float. *)
Theorem C80_float_atan :
  forall c (x : word 4), is_Finite x = true ->
    accurate (Transcend.atan4 c x) (Ratan.atan (real x)) (/ 2 ^ 21 * Rabs (Ratan.atan (real x)) + / 2 ^ 149).
Proof. exact AtanAccMain.C80_float_atan_main. Qed.
Print Assumptions C80_float_atan.

Example C80_float_atan_ex :
  let x := of_int 4 (-2) in is_Finite x = true /\ forall c, accurate (Transcend.atan4 c x) (Ratan.atan (-2)) (/ 2 ^ 21 * Rabs (Ratan.atan (-2)) + / 2 ^ 149).
Proof.
  intros x. destruct AtanAccMain.example_real4 as (F & R). split; [exact F|]. intros c. pose proof (C80_float_atan c x F) as H. unfold x in H at 2 3. rewrite R in H. exact H.
Qed.

(** atan of every finite double entry: relative error at most 2 ^ -50, apart from at most 2 ^ -1074. *)
Theorem C80_double_atan :
  forall c (x : word 8), is_Finite x = true ->
    accurate (Transcend.atan8 c x) (Ratan.atan (real x)) (/ 2 ^ 50 * Rabs (Ratan.atan (real x)) + / 2 ^ 1074).
Proof. exact AtanAccMain.C80_double_atan_main. Qed.
Print Assumptions C80_double_atan.

Example C80_double_atan_ex :
  let x := of_int 8 3 in is_Finite x = true /\ forall c, accurate (Transcend.atan8 c x) (Ratan.atan 3) (/ 2 ^ 50 * Rabs (Ratan.atan 3) + / 2 ^ 1074).
Proof.
  intros x. destruct AtanAccMain.example_real8 as (F & R). split; [exact F|]. intros c. pose proof (C80_double_atan c x F) as H. unfold x in H at 2 3. rewrite R in H. exact H.
Qed.
