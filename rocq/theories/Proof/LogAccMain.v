(** The accuracy of log, log2 and log10 (proofs). *)
From Coq Require Import ZArith Reals List Bool Lia Lra.
From Verif.Spec Require Import Seq FloatSpec TransSpec AccuracySpec.
From Verif.Model Require Import Word Fp FpArith Transcend.
Import ListNotations.
Local Open Scope R_scope.
From Verif.Proof Require Import FpIntP RealErrP SeriesP LogAccP.

Lemma example_real4 : is_Finite (of_int 4 1000) = true /\ real (of_int 4 1000) = 1000.
Proof. split; [reflexivity|]. rewrite (real_frac fp4 _ 1000 1); try lra; reflexivity. Qed.
Lemma example_real8 : is_Finite (of_int 8 1000) = true /\ real (of_int 8 1000) = 1000.
Proof. split; [reflexivity|]. rewrite (real_frac fp8 _ 1000 1); try lra; reflexivity. Qed.

Lemma C79_float_log_main :
  forall x : word 4, is_Finite x = true -> 0 < real x ->
    accurate (log_calc 4 BaseE x) (ln (real x)) (/ 2 ^ 21 * Rabs (ln (real x))) /\
    accurate (log_calc 4 Base10 x) (ln (real x) / ln 10) (/ 2 ^ 21 * Rabs (ln (real x) / ln 10)) /\
    accurate (log_calc 4 Base2 x) (ln (real x) / ln 2) (/ 2 ^ 21 * Rabs (ln (real x) / ln 2)).
Proof.
  intros x F P. replace (2 ^ 21) with 2097152 by lra. exact (log_ok4 x F P).
Qed.

Lemma C79_double_log_main :
  forall x : word 8, is_Finite x = true -> 0 < real x ->
    accurate (log_calc 8 BaseE x) (ln (real x)) (/ 2 ^ 50 * Rabs (ln (real x))) /\
    accurate (log_calc 8 Base10 x) (ln (real x) / ln 10) (/ 2 ^ 50 * Rabs (ln (real x) / ln 10)) /\
    accurate (log_calc 8 Base2 x) (ln (real x) / ln 2) (/ 2 ^ 50 * Rabs (ln (real x) / ln 2)).
Proof.
  intros x F P. replace (2 ^ 50) with 1125899906842624 by lra. exact (log_ok8 x F P).
Qed.
