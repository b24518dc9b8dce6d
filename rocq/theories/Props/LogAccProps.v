(** The accuracy of log, log2 and log10 *)
From Coq Require Import ZArith Reals List Bool Lia Lra.
From Verif.Spec Require Import Seq FloatSpec TransSpec AccuracySpec.
From Verif.Model Require Import Word Fp FpArith Transcend.
Import ListNotations.
Local Open Scope R_scope.
From Verif.Proof Require LogAccMain.

(** log, log10 and log2 of every finite positive float entry, subnormal numbers included: the results are finite and their relative
errors are at most 2 ^ -21, also where the logarithm is near zero. *)
Theorem C79_float_log :
  forall x : word 4, is_Finite x = true -> 0 < real x ->
    accurate (log_calc 4 BaseE x) (ln (real x)) (/ 2 ^ 21 * Rabs (ln (real x))) /\
    accurate (log_calc 4 Base10 x) (ln (real x) / ln 10) (/ 2 ^ 21 * Rabs (ln (real x) / ln 10)) /\
    accurate (log_calc 4 Base2 x) (ln (real x) / ln 2) (/ 2 ^ 21 * Rabs (ln (real x) / ln 2)).
Proof. exact LogAccMain.C79_float_log_main. Qed.
Print Assumptions C79_float_log.

Example C79_float_log_ex :
  let x := of_int 4 1000 in is_Finite x = true /\ 0 < real x /\ accurate (log_calc 4 BaseE x) (ln 1000) (/ 2 ^ 21 * Rabs (ln 1000)).
Proof.
  intros x. destruct LogAccMain.example_real4 as (F & R). assert (B : 0 < real x) by (change x with (of_int 4 1000); rewrite R; lra). split; [exact F|]. split; [exact B|]. rewrite <- R. exact (proj1 (C79_float_log x F B)).
Qed.

(** log, log10 and log2 of every finite positive double entry: the relative errors are at most 2 ^ -50. *)
Theorem C79_double_log :
  forall x : word 8, is_Finite x = true -> 0 < real x ->
    accurate (log_calc 8 BaseE x) (ln (real x)) (/ 2 ^ 50 * Rabs (ln (real x))) /\
    accurate (log_calc 8 Base10 x) (ln (real x) / ln 10) (/ 2 ^ 50 * Rabs (ln (real x) / ln 10)) /\
    accurate (log_calc 8 Base2 x) (ln (real x) / ln 2) (/ 2 ^ 50 * Rabs (ln (real x) / ln 2)).
Proof. exact LogAccMain.C79_double_log_main. Qed.
Print Assumptions C79_double_log.

Example C79_double_log_ex :
  let x := of_int 8 1000 in is_Finite x = true /\ 0 < real x /\ accurate (log_calc 8 Base10 x) (ln 1000 / ln 10) (/ 2 ^ 50 * Rabs (ln 1000 / ln 10)).
Proof.
  intros x. destruct LogAccMain.example_real8 as (F & R). assert (B : 0 < real x) by (change x with (of_int 8 1000); rewrite R; lra). split; [exact F|]. split; [exact B|]. rewrite <- R. exact (proj1 (proj2 (C79_double_log x F B))).
Qed.
