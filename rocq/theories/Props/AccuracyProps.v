(** The accuracy of sin, cos and sincos *)
From Coq Require Import ZArith Reals List Bool Lia Lra.
From Verif.Spec Require Import Seq FloatSpec TransSpec AccuracySpec.
From Verif.Model Require Import Word Fp FpArith Transcend.
Import ListNotations.
Local Open Scope R_scope.
From Verif.Proof Require AccuracyMain.

(** sin and cos of float vectors of any number of entries, all of them at most 2 ^ 30 in absolute value: every result is a finite
number and differs from the sine or cosine of the entry by at most 2 ^ -22, whatever the other entries are (they decide which
of the four ways of reducing the argument is taken) and in every build. *)
Theorem C77_float_sin_cos :
  forall c xs, Forall (within (2 ^ 30)) xs -> forall i, an_entry xs i ->
    accurate (entry (sin4 c xs) i) (sin (real (entry xs i))) (/ 2 ^ 22) /\
    accurate (entry (cos4 c xs) i) (cos (real (entry xs i))) (/ 2 ^ 22).
Proof. exact AccuracyMain.C77_float_sin_cos_main. Qed.
Print Assumptions C77_float_sin_cos.

Example C77_float_sin_cos_ex :
  let xs := [of_int 4 3; of_int 4 100; of_int 4 600000; of_int 4 (-7)] in
  Forall (within (2 ^ 30)) xs /\ real (entry xs 3) = -7 /\ real (entry xs 2) = 600000 /\
  forall c, accurate (entry (sin4 c xs) 3) (sin (-7)) (/ 2 ^ 22).
Proof.
  intros xs. destruct AccuracyMain.example_real4 as (R & R'). split; [exact AccuracyMain.example_within|]. split; [exact R|]. split; [exact R'|]. intros c.
  rewrite <- R. apply (C77_float_sin_cos c xs AccuracyMain.example_within 3). split; [discriminate|reflexivity].
Qed.

(** the same of the two results of sincos for float vectors. *)
Theorem C77_float_sincos :
  forall c xs, Forall (within (2 ^ 30)) xs -> forall i, an_entry xs i ->
    accurate (entry (fst (sincos4 c xs)) i) (sin (real (entry xs i))) (/ 2 ^ 22) /\
    accurate (entry (snd (sincos4 c xs)) i) (cos (real (entry xs i))) (/ 2 ^ 22).
Proof. exact AccuracyMain.C77_float_sincos_main. Qed.
Print Assumptions C77_float_sincos.

Example C77_float_sincos_ex :
  let xs := [of_int 4 3; of_int 4 100; of_int 4 600000; of_int 4 (-7)] in
  forall c, accurate (entry (snd (sincos4 c xs)) 2) (cos 600000) (/ 2 ^ 22).
Proof.
  intros xs c. destruct AccuracyMain.example_real4 as (_ & R). rewrite <- R. apply (C77_float_sincos c xs AccuracyMain.example_within 2). split; [discriminate|reflexivity].
Qed.

(** sin and cos (and sincos, which is the same by C54) of double vectors with entries of at most 2 ^ 30 in absolute value: the
error is at most 2 ^ -51. *)
Theorem C77_double_sin_cos :
  forall xs, Forall (within (2 ^ 30)) xs -> forall i, an_entry xs i ->
    accurate (entry (sin8 xs) i) (sin (real (entry xs i))) (/ 2 ^ 51) /\
    accurate (entry (cos8 xs) i) (cos (real (entry xs i))) (/ 2 ^ 51).
Proof. exact AccuracyMain.C77_double_sin_cos_main. Qed.
Print Assumptions C77_double_sin_cos.

Example C77_double_sin_cos_ex :
  let xs := [of_int 8 100000; of_int 8 (-22)] in
  Forall (within (2 ^ 30)) xs /\ accurate (entry (sin8 xs) 1) (sin (-22)) (/ 2 ^ 51) /\ accurate (entry (cos8 xs) 0) (cos 100000) (/ 2 ^ 51).
Proof.
  intros xs. destruct AccuracyMain.example_real8 as (R & R'). split; [exact AccuracyMain.example_within8|]. rewrite <- R, <- R'. split.
  - apply (C77_double_sin_cos xs AccuracyMain.example_within8 1). split; [discriminate|reflexivity].
  - apply (C77_double_sin_cos xs AccuracyMain.example_within8 0). split; [discriminate|reflexivity].
Qed.
