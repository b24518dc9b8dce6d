(** The accuracy of exp *)
From Coq Require Import ZArith Reals List Bool Lia Lra.
From Verif.Spec Require Import Seq FloatSpec TransSpec AccuracySpec.
From Verif.Model Require Import Word Fp FpArith Transcend.
Import ListNotations.
Local Open Scope R_scope.
From Verif.Proof Require ExpAccMain.

(** exp of a float entry between -87 and 88 (beyond the largest of these the result may exceed all floats, below the smallest it
may be subnormal): the result is finite and its relative error is at most 2 ^ -21, in every build. *)
Theorem C78_float_exp :
  forall sse41 c (x : word 4), is_Finite x = true -> - 87 <= real x <= 88 ->
    accurate (exp4 sse41 c x) (exp (real x)) (exp (real x) / 2 ^ 21).
Proof. exact ExpAccMain.C78_float_exp_main. Qed.
Print Assumptions C78_float_exp.

Example C78_float_exp_ex :
  let x := of_int 4 (-80) in is_Finite x = true /\ - 87 <= real x <= 88 /\
  forall sse41 c, accurate (exp4 sse41 c x) (exp (-80)) (exp (-80) / 2 ^ 21).
Proof.
  intros x. destruct ExpAccMain.example_real4 as (F & R). assert (B : - 87 <= real x <= 88) by (change x with (of_int 4 (-80)); rewrite R; lra). split; [exact F|]. split; [exact B|]. intros s c. rewrite <- R. exact (C78_float_exp s c x F B).
Qed.

(** exp of a double entry of at most 708 in absolute value: the result is finite and its relative error is at most 2 ^ -49. *)
Theorem C78_double_exp :
  forall sse41 c (x : word 8), is_Finite x = true -> Rabs (real x) <= 708 ->
    accurate (exp8 sse41 c x) (exp (real x)) (exp (real x) / 2 ^ 49).
Proof. exact ExpAccMain.C78_double_exp_main. Qed.
Print Assumptions C78_double_exp.

Example C78_double_exp_ex :
  let x := of_int 8 700 in is_Finite x = true /\ Rabs (real x) <= 708 /\
  forall sse41 c, accurate (exp8 sse41 c x) (exp 700) (exp 700 / 2 ^ 49).
Proof.
  intros x. destruct ExpAccMain.example_real8 as (F & R). assert (B : Rabs (real x) <= 708) by (change x with (of_int 8 700); rewrite R; apply Rabs_le; lra). split; [exact F|]. split; [exact B|]. intros s c. rewrite <- R. exact (C78_double_exp s c x F B).
Qed.
