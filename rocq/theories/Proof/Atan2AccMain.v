(** The accuracy of atan2 (proofs). *)
From Coq Require Import ZArith Reals List Bool Lia Lra.
From Verif.Spec Require Import Seq FloatSpec TransSpec AccuracySpec AngleSpec.
From Verif.Model Require Import Word Fp FpArith Transcend.
Import ListNotations.
Local Open Scope R_scope.
From Verif.Proof Require Import FpP FpIntP RealErrP SeriesP Atan2AccP.

Lemma example_real4 : is_Finite (of_int 4 1) = true /\ is_Finite (of_int 4 (-2)) = true /\ real (of_int 4 1) = 1 /\ real (of_int 4 (-2)) = -2.
Proof. split; [reflexivity|]. split; [reflexivity|]. split; [rewrite (real_frac fp4 _ 1 1)|rewrite (real_frac fp4 _ (-2) 1)]; try lra; reflexivity. Qed.
Lemma example_real8 : is_Finite (of_int 8 (-5)) = true /\ is_Finite (of_int 8 0) = true /\ real (of_int 8 (-5)) = -5 /\ real (of_int 8 0) = 0.
Proof. split; [reflexivity|]. split; [reflexivity|]. split; [rewrite (real_frac fp8 _ (-5) 1)|rewrite (real_frac fp8 _ 0 1)]; try lra; reflexivity. Qed.

Lemma C81_float_atan2_main :
  forall c (y x : word 4), is_Finite y = true -> is_Finite x = true -> real y <> 0 \/ real x <> 0 ->
    exists t, is_angle (real y) (real x) t /\ (if sign_bit y then t <= 0 else 0 <= t) /\
      accurate (Transcend.atan2 c y x) t (/ 2 ^ 20 * Rabs t + / 2 ^ 148).
Proof.
  intros c y x Fy Fx N. destruct (atan2_ok fp4 c y x Fy Fx N) as (t & A & S & F & E). exists t. split; [exact A|]. rewrite (sign_bit_neg fp4). split; [exact S|]. split; [exact F|]. eapply Rle_trans; [exact E|]. apply Rplus_le_compat; [apply Req_le; f_equal; rewrite u4; lra|].
  unfold eta. change (one_units 4) with (2 ^ 149)%Z. rewrite (pow_IZR 2 148). change (2 ^ Z.of_nat 148)%Z with (2 ^ 148)%Z. replace (2 ^ 149)%Z with (2 * 2 ^ 148)%Z by reflexivity. rewrite mult_IZR. assert (IZR (2 ^ 148) <> 0) by (apply not_0_IZR; discriminate). apply Req_le. field. assumption.
Qed.

Lemma C81_double_atan2_main :
  forall c (y x : word 8), is_Finite y = true -> is_Finite x = true -> real y <> 0 \/ real x <> 0 ->
    exists t, is_angle (real y) (real x) t /\ (if sign_bit y then t <= 0 else 0 <= t) /\
      accurate (Transcend.atan2 c y x) t (/ 2 ^ 49 * Rabs t + / 2 ^ 1073).
Proof.
  intros c y x Fy Fx N. destruct (atan2_ok fp8 c y x Fy Fx N) as (t & A & S & F & E). exists t. split; [exact A|]. rewrite (sign_bit_neg fp8). split; [exact S|]. split; [exact F|]. eapply Rle_trans; [exact E|]. apply Rplus_le_compat; [apply Req_le; f_equal; rewrite u8; lra|].
  unfold eta. change (one_units 8) with (2 ^ 1074)%Z. rewrite (pow_IZR 2 1073). change (2 ^ Z.of_nat 1073)%Z with (2 ^ 1073)%Z. replace (2 ^ 1074)%Z with (2 * 2 ^ 1073)%Z by reflexivity. rewrite mult_IZR. assert (IZR (2 ^ 1073) <> 0) by (apply not_0_IZR; discriminate). apply Req_le. field. assumption.
Qed.
