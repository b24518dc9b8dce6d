(** The accuracy of exp (proofs). *)
From Coq Require Import ZArith Reals List Bool Lia Lra.
From Verif.Spec Require Import Seq FloatSpec TransSpec AccuracySpec.
From Verif.Model Require Import Word Fp FpArith Transcend.
Import ListNotations.
Local Open Scope R_scope.
From Verif.Proof Require Import FpIntP RealErrP SeriesP AccuracyP ExpAccP.

Lemma example_real4 : is_Finite (of_int 4 (-80)) = true /\ real (of_int 4 (-80)) = -80.
Proof. split; [reflexivity|]. rewrite (real_frac fp4 _ (-80) 1); try lra; reflexivity. Qed.
Lemma example_real8 : is_Finite (of_int 8 700) = true /\ real (of_int 8 700) = 700.
Proof. split; [reflexivity|]. rewrite (real_frac fp8 _ 700 1); try lra; reflexivity. Qed.

Lemma C78_float_exp_main :
  forall sse41 c (x : word 4), is_Finite x = true -> - 87 <= real x <= 88 ->
    accurate (exp4 sse41 c x) (exp (real x)) (exp (real x) / 2 ^ 21).
Proof.
  intros sse41 c x F B. destruct (exp_ok4 sse41 c x F B) as (G & E). split; [exact G|]. lra.
Qed.

Lemma C78_double_exp_main :
  forall sse41 c (x : word 8), is_Finite x = true -> Rabs (real x) <= 708 ->
    accurate (exp8 sse41 c x) (exp (real x)) (exp (real x) / 2 ^ 49).
Proof.
  intros sse41 c x F B. assert (B' : - 708 <= real x <= 708) by (apply ExpRealP.abs_le_inv in B; lra). destruct (exp_ok8 sse41 c x F B') as (G & E). split; [exact G|]. lra.
Qed.
