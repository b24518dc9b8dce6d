(** The accuracy of asin (proofs). *)
From Coq Require Import ZArith Reals Ratan List Bool Lia Lra.
From Verif.Spec Require Import Seq FloatSpec TransSpec AccuracySpec.
From Verif.Model Require Import Word Fp FpArith Transcend.
Import ListNotations.
Local Open Scope R_scope.
From Verif.Proof Require Import FpIntP RealErrP SeriesP AsinAccP.

Lemma example_real4 : is_Finite (fdiv (of_int 4 (-3)) (of_int 4 4)) = true /\ real (fdiv (of_int 4 (-3)) (of_int 4 4)) = -3 / 4.
Proof. split; [vm_compute; reflexivity|]. rewrite (real_frac fp4 _ (-3) 4); try lra; vm_compute; reflexivity. Qed.
Lemma example_real8 : is_Finite (fdiv (of_int 8 5) (of_int 8 16)) = true /\ real (fdiv (of_int 8 5) (of_int 8 16)) = 5 / 16.
Proof. split; [vm_compute; reflexivity|]. rewrite (real_frac fp8 _ 5 16); try lra; vm_compute; reflexivity. Qed.

Lemma C82_float_asin_main :
  forall c (x : word 4), is_Finite x = true -> -1 <= real x <= 1 ->
    accurate (Transcend.asin4 c x) (Ratan.asin (real x)) (/ 2 ^ 20 * Rabs (Ratan.asin (real x))).
Proof.
  intros c x F X. destruct (asin_ok4 c x F) as (G & E); [apply Rabs_le; lra|]. split; [exact G|]. replace (2 ^ 20) with 1048576 by lra. exact E.
Qed.

Lemma C82_double_asin_main :
  forall c (x : word 8), is_Finite x = true -> -1 <= real x <= 1 ->
    accurate (Transcend.asin8 c x) (Ratan.asin (real x)) (/ 2 ^ 49 * Rabs (Ratan.asin (real x))).
Proof.
  intros c x F X. destruct (asin_ok8 c x F) as (G & E); [apply Rabs_le; lra|]. split; [exact G|]. replace (2 ^ 49) with 562949953421312 by lra. exact E.
Qed.
