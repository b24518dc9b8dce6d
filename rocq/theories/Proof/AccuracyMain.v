(** The accuracy of sin, cos and sincos (proofs). *)
From Coq Require Import ZArith Reals List Bool Lia Lra.
From Verif.Spec Require Import Seq FloatSpec TransSpec AccuracySpec.
From Verif.Model Require Import Word Fp FpArith Transcend.
Import ListNotations.
Local Open Scope R_scope.
From Verif.Proof Require Import FpIntP RealErrP SeriesP AccuracyP.

Lemma example_within : Forall (within (2 ^ 30)) [of_int 4 3; of_int 4 100; of_int 4 600000; of_int 4 (-7)].
Proof. repeat constructor; vm_compute; congruence. Qed.
Lemma example_within8 : Forall (within (2 ^ 30)) [of_int 8 100000; of_int 8 (-22)].
Proof. repeat constructor; vm_compute; congruence. Qed.
Lemma example_real4 : real (of_int 4 (-7)) = -7 /\ real (of_int 4 600000) = 600000.
Proof. split; [rewrite (real_frac fp4 _ (-7) 1)|rewrite (real_frac fp4 _ 600000 1)]; try lra; reflexivity. Qed.
Lemma example_real8 : real (of_int 8 (-22)) = -22 /\ real (of_int 8 100000) = 100000.
Proof. split; [rewrite (real_frac fp8 _ (-22) 1)|rewrite (real_frac fp8 _ 100000 1)]; try lra; reflexivity. Qed.

Lemma C77_float_sin_cos_main :
  forall c xs, Forall (within (2 ^ 30)) xs -> forall i, an_entry xs i ->
    accurate (entry (sin4 c xs) i) (sin (real (entry xs i))) (/ 2 ^ 22) /\
    accurate (entry (cos4 c xs) i) (cos (real (entry xs i))) (/ 2 ^ 22).
Proof.
  intros c xs H i Hi. now apply sin4_vec.
Qed.

Lemma C77_float_sincos_main :
  forall c xs, Forall (within (2 ^ 30)) xs -> forall i, an_entry xs i ->
    accurate (entry (fst (sincos4 c xs)) i) (sin (real (entry xs i))) (/ 2 ^ 22) /\
    accurate (entry (snd (sincos4 c xs)) i) (cos (real (entry xs i))) (/ 2 ^ 22).
Proof.
  intros c xs H i Hi. now apply sincos4_vec.
Qed.

Lemma C77_double_sin_cos_main :
  forall xs, Forall (within (2 ^ 30)) xs -> forall i, an_entry xs i ->
    accurate (entry (sin8 xs) i) (sin (real (entry xs i))) (/ 2 ^ 51) /\
    accurate (entry (cos8 xs) i) (cos (real (entry xs i))) (/ 2 ^ 51).
Proof.
  intros xs H i Hi. now apply sin8_vec.
Qed.
