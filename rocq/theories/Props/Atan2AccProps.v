(** The accuracy of atan2 *)
From Coq Require Import ZArith Reals List Bool Lia Lra.
From Verif.Spec Require Import Seq FloatSpec TransSpec AccuracySpec AngleSpec.
From Verif.Model Require Import Word Fp FpArith Transcend.
Import ListNotations.
Local Open Scope R_scope.
From Verif.Proof Require Atan2AccMain.

(** atan2 of every two finite float entries that are not both zero, in every build: the result is finite; it differs from the angle
of the point (x, y) by at most 2 ^ -20 of the angle plus 2 ^ -148.  The angle is not positive if the sign of y is set, also for
y = -0, and not negative otherwise. *)
Theorem C81_float_atan2 :
  forall c (y x : word 4), is_Finite y = true -> is_Finite x = true -> real y <> 0 \/ real x <> 0 ->
    exists t, is_angle (real y) (real x) t /\ (if sign_bit y then t <= 0 else 0 <= t) /\
      accurate (Transcend.atan2 c y x) t (/ 2 ^ 20 * Rabs t + / 2 ^ 148).
Proof. exact Atan2AccMain.C81_float_atan2_main. Qed.
Print Assumptions C81_float_atan2.

Example C81_float_atan2_ex :
  let y := of_int 4 1 in let x := of_int 4 (-2) in is_Finite y = true /\ is_Finite x = true /\ (real y <> 0 \/ real x <> 0) /\
    forall c, exists t, is_angle 1 (-2) t /\ 0 <= t /\ accurate (Transcend.atan2 c y x) t (/ 2 ^ 20 * Rabs t + / 2 ^ 148).
Proof.
  intros y x. destruct Atan2AccMain.example_real4 as (F1 & F2 & R1 & R2). split; [exact F1|]. split; [exact F2|]. assert (N : real y <> 0 \/ real x <> 0) by (unfold y; rewrite R1; left; lra). split; [exact N|]. intros c. destruct (C81_float_atan2 c y x F1 F2 N) as (t & A & S & E). exists t. unfold y, x in A. rewrite R1, R2 in A. split; [exact A|]. split; [exact S|exact E].
Qed.

(** atan2 of every two finite double entries that are not both zero: error at most 2 ^ -49 of the angle plus 2 ^ -1073. *)
Theorem C81_double_atan2 :
  forall c (y x : word 8), is_Finite y = true -> is_Finite x = true -> real y <> 0 \/ real x <> 0 ->
    exists t, is_angle (real y) (real x) t /\ (if sign_bit y then t <= 0 else 0 <= t) /\
      accurate (Transcend.atan2 c y x) t (/ 2 ^ 49 * Rabs t + / 2 ^ 1073).
Proof. exact Atan2AccMain.C81_double_atan2_main. Qed.
Print Assumptions C81_double_atan2.

Example C81_double_atan2_ex :
  let y := of_int 8 (-5) in let x := of_int 8 0 in is_Finite y = true /\ is_Finite x = true /\ (real y <> 0 \/ real x <> 0) /\
    forall c, exists t, is_angle (-5) 0 t /\ t <= 0 /\ accurate (Transcend.atan2 c y x) t (/ 2 ^ 49 * Rabs t + / 2 ^ 1073).
Proof.
  intros y x. destruct Atan2AccMain.example_real8 as (F1 & F2 & R1 & R2). split; [exact F1|]. split; [exact F2|]. assert (N : real y <> 0 \/ real x <> 0) by (unfold y; rewrite R1; left; lra). split; [exact N|]. intros c. destruct (C81_double_atan2 c y x F1 F2 N) as (t & A & S & E). exists t. unfold y, x in A. rewrite R1, R2 in A. split; [exact A|]. split; [exact S|exact E].
Qed.
