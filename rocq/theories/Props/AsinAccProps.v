(** The accuracy of asin *)
From Coq Require Import ZArith Reals Ratan List Bool Lia Lra.
From Verif.Spec Require Import Seq FloatSpec TransSpec AccuracySpec.
From Verif.Model Require Import Word Fp FpArith Transcend.
Import ListNotations.
Local Open Scope R_scope.
From Verif.Proof Require AsinAccMain.

(** asin of every float entry between -1 and 1, in every build: the result is finite and its relative error is at most 2 ^ -20. *)
Theorem C82_float_asin :
  forall c (x : word 4), is_Finite x = true -> -1 <= real x <= 1 ->
    accurate (Transcend.asin4 c x) (Ratan.asin (real x)) (/ 2 ^ 20 * Rabs (Ratan.asin (real x))).
Proof. exact AsinAccMain.C82_float_asin_main. Qed.
Print Assumptions C82_float_asin.

Example C82_float_asin_ex :
  let x := fdiv (of_int 4 (-3)) (of_int 4 4) in is_Finite x = true /\ -1 <= real x <= 1 /\ forall c, accurate (Transcend.asin4 c x) (Ratan.asin (-3 / 4)) (/ 2 ^ 20 * Rabs (Ratan.asin (-3 / 4))).
Proof.
  intros x. destruct AsinAccMain.example_real4 as (F & R). split; [exact F|]. assert (X : -1 <= real x <= 1) by (unfold x; rewrite R; lra). split; [exact X|]. intros c. pose proof (C82_float_asin c x F X) as H. unfold x in H at 2 3. rewrite R in H. exact H.
Qed.

(** asin of every double entry between -1 and 1: relative error at most 2 ^ -49. *)
Theorem C82_double_asin :
  forall c (x : word 8), is_Finite x = true -> -1 <= real x <= 1 ->
    accurate (Transcend.asin8 c x) (Ratan.asin (real x)) (/ 2 ^ 49 * Rabs (Ratan.asin (real x))).
Proof. exact AsinAccMain.C82_double_asin_main. Qed.
Print Assumptions C82_double_asin.

Example C82_double_asin_ex :
  let x := fdiv (of_int 8 5) (of_int 8 16) in is_Finite x = true /\ -1 <= real x <= 1 /\ forall c, accurate (Transcend.asin8 c x) (Ratan.asin (5 / 16)) (/ 2 ^ 49 * Rabs (Ratan.asin (5 / 16))).
Proof.
  intros x. destruct AsinAccMain.example_real8 as (F & R). split; [exact F|]. assert (X : -1 <= real x <= 1) by (unfold x; rewrite R; lra). split; [exact X|]. intros c. pose proof (C82_double_asin c x F X) as H. unfold x in H at 2 3. rewrite R in H. exact H.
Qed.
