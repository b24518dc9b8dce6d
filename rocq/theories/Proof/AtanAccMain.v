(** The accuracy of atan (proofs). *)
From Coq Require Import ZArith Reals Ratan List Bool Lia Lra.
From Verif.Spec Require Import Seq FloatSpec TransSpec AccuracySpec.
From Verif.Model Require Import Word Fp FpArith Transcend.
Import ListNotations.
Local Open Scope R_scope.
From Verif.Proof Require Import FpIntP RealErrP SeriesP AtanAccP.

Lemma example_real4 : is_Finite (of_int 4 (-2)) = true /\ real (of_int 4 (-2)) = -2.
Proof. split; [reflexivity|]. rewrite (real_frac fp4 _ (-2) 1); try lra; reflexivity. Qed.
Lemma example_real8 : is_Finite (of_int 8 3) = true /\ real (of_int 8 3) = 3.
Proof. split; [reflexivity|]. rewrite (real_frac fp8 _ 3 1); try lra; reflexivity. Qed.

Lemma C80_float_atan_main :
  forall c (x : word 4), is_Finite x = true ->
    accurate (Transcend.atan4 c x) (Ratan.atan (real x)) (/ 2 ^ 21 * Rabs (Ratan.atan (real x)) + / 2 ^ 149).
Proof.
  intros c x F. destruct (atan_ok4 c x F) as (G & E). split; [exact G|]. replace (2 ^ 21) with 2097152 by lra. eapply Rle_trans; [exact E|]. apply Rplus_le_compat_l. unfold eta. change (one_units 4) with (2 ^ 149)%Z. rewrite (pow_IZR 2 149). apply Req_le. change (2 ^ Z.of_nat 149)%Z with (2 ^ 149)%Z. assert (IZR (2 ^ 149) <> 0) by (apply not_0_IZR; discriminate). field. assumption.
Qed.

Lemma C80_double_atan_main :
  forall c (x : word 8), is_Finite x = true ->
    accurate (Transcend.atan8 c x) (Ratan.atan (real x)) (/ 2 ^ 50 * Rabs (Ratan.atan (real x)) + / 2 ^ 1074).
Proof.
  intros c x F. destruct (atan_ok8 c x F) as (G & E). split; [exact G|]. replace (2 ^ 50) with 1125899906842624 by lra. eapply Rle_trans; [exact E|]. apply Rplus_le_compat_l. unfold eta. change (one_units 8) with (2 ^ 1074)%Z. rewrite (pow_IZR 2 1074). apply Req_le. change (2 ^ Z.of_nat 1074)%Z with (2 ^ 1074)%Z. assert (IZR (2 ^ 1074) <> 0) by (apply not_0_IZR; discriminate). field. assumption.
Qed.
