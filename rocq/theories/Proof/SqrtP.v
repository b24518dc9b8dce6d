(** The square root of a float against the real square root. *)
From Coq Require Import ZArith Reals List Bool Lia Lra Psatz.
From Verif.Spec Require Import FloatSpec RoundSpec AccuracySpec.
From Verif.Model Require Import Word Fp FpArith Transcend.
From Verif.Proof Require Import WordP FpP FpArithP FpIntP RealErrP SeriesP ExpRealP RealOpsP.
Local Open Scope R_scope.

Lemma units_big {w} (Hw : fp_width w) : (2 ^ 148 <= one_units w)%Z.
Proof. destruct Hw as [->| ->]; vm_compute; discriminate. Qed.
(** the root of n, cut off after one binary digit with a mark for the rest *)
Lemma sqrt_sticky n : (0 <= n)%Z -> let s := Z.sqrt n in Rabs (IZR (2 * s + (if (s * s =? n)%Z then 0 else 1)) / 2 - sqrt (IZR n)) <= 1 / 2.
Proof.
  intros N s. pose proof (Z.sqrt_spec n N) as (S1 & S2). fold s in S1, S2. assert (S0 : (0 <= s)%Z) by (apply Z.sqrt_nonneg). apply IZR_le in S0.
  destruct (Z.eqb_spec (s * s) n) as [E|E].
  - rewrite <- E, mult_IZR, sqrt_square by exact S0. rewrite Z.add_0_r, mult_IZR. replace (2 * IZR s / 2 - IZR s) with 0 by field. rewrite Rabs_R0. lra.
  - assert (L1 : IZR s <= sqrt (IZR n)). { apply IZR_le in S1. rewrite mult_IZR in S1. rewrite <- (sqrt_square (IZR s)) by exact S0. now apply sqrt_le_1_alt. }
    assert (L2 : sqrt (IZR n) <= IZR s + 1). { apply IZR_lt in S2. rewrite mult_IZR, succ_IZR in S2. rewrite <- (sqrt_square (IZR s + 1)) by lra. apply sqrt_le_1_alt. lra. }
    rewrite plus_IZR, mult_IZR. apply Rabs_le. lra.
Qed.
Section S.
  Context {w : nat} (Hw : fp_width w).
  Lemma fsqrt_real (x : word w) : is_Finite x = true -> 0 <= real x <= B70 ->
    is_Finite (fsqrt x) = true /\ Rabs (real (fsqrt x) - sqrt (real x)) <= (uu (w := w) + / IZR (2 ^ 73)) * sqrt (real x).
  Proof using Hw.
    intros F (X0 & X1). pose proof (IUpos Hw) as IU. unfold fsqrt. rewrite (finite_not_nan Hw x F).
    destruct (is_zero x) eqn:Z; rewrite (is_zero_value Hw) in Z; [apply Z.eqb_eq in Z|apply Z.eqb_neq in Z].
    { split; [exact F|]. assert (real x = 0) as ->. { rewrite (real_eq Hw), (fvalue_abs Hw), Z, Z.mul_0_r. unfold Rdiv. apply Rmult_0_l. }
      rewrite sqrt_0, Rminus_0_r, Rabs_R0, Rmult_0_r. lra. }
    assert (Vp : (0 < fabs_value x)%Z) by (pose proof (fabs_nonneg Hw x); lia).
    assert (NG : negative x = false). { destruct (negative x) eqn:NG; [|reflexivity]. exfalso. rewrite (real_sign Hw), NG, (real_abs Hw) in X0. apply IZR_lt in Vp. assert (0 < IZR (fabs_value x) / IZR (one_units w)) by (apply Rdiv_lt_0_compat; lra). lra. }
    rewrite NG. rewrite (finite_not_inf Hw x F). set (n := (fabs_value x * one_units w)%Z). pose proof (units_big Hw) as UB. assert (Up : (0 < one_units w)%Z) by lia.
    assert (N0 : (0 <= n)%Z) by (unfold n; nia). pose proof (sqrt_sticky n N0) as ST. cbv zeta in ST. cbv zeta. set (s := Z.sqrt n) in *. set (m := (2 * s + (if (s * s =? n)%Z then 0 else 1))%Z) in *.
    assert (RX : real x = IZR (fabs_value x) / IZR (one_units w)) by (rewrite <- (real_abs Hw); symmetry; now apply Rabs_pos_eq).
    assert (VU : (fabs_value x <= 2 ^ 70 * one_units w)%Z). { apply le_IZR. rewrite mult_IZR. unfold B70 in X1. rewrite RX in X1. apply (Rmult_le_compat_r (IZR (one_units w))) in X1; [|lra]. unfold Rdiv in X1. rewrite Rmult_assoc, Rinv_l, Rmult_1_r in X1 by lra. exact X1. }
    assert (S0 : (0 <= s)%Z) by (apply Z.sqrt_nonneg). assert (SU : (s <= 2 ^ 35 * one_units w)%Z).
    { unfold s. rewrite <- (Z.sqrt_square (2 ^ 35 * one_units w)) by lia. apply Z.sqrt_le_mono. unfold n. change (2 ^ 70)%Z with (2 ^ 35 * 2 ^ 35)%Z in VU. nia. }
    assert (M0 : (0 <= m)%Z) by (unfold m; destruct (s * s =? n)%Z; lia). assert (MU : (m <= 2 ^ 70 * one_units w * 2)%Z) by (unfold m; destruct (s * s =? n)%Z; lia).
    destruct (fround_real Hw false m 2 M0 eq_refl MU) as (FF & FE & _). split; [exact FF|]. cbv zeta in FE. cbv iota in FE. rewrite Rmult_1_l in FE.
    assert (SQ : sqrt (real x) = sqrt (IZR n) / IZR (one_units w)).
    { rewrite RX. unfold n. rewrite mult_IZR. replace (IZR (fabs_value x) / IZR (one_units w)) with (IZR (fabs_value x) * IZR (one_units w) / (IZR (one_units w))²) by (unfold Rsqr; field; lra).
      rewrite sqrt_div_alt by (apply Rlt_0_sqr; lra). now rewrite sqrt_Rsqr by lra. }
    assert (BN : IZR (2 ^ 74) <= sqrt (IZR n)). { rewrite <- (sqrt_square (IZR (2 ^ 74))) by (apply IZR_le; discriminate). apply sqrt_le_1_alt. rewrite <- mult_IZR. apply IZR_le. unfold n. change (2 ^ 74 * 2 ^ 74)%Z with (2 ^ 148)%Z. nia. }
    rewrite SQ. unfold eta in FE. pose proof (uu_pos Hw) as UP. assert (UL : uu (w := w) <= 1) by (destruct Hw as [->| ->]; [rewrite u4|rewrite u8]; lra).
    set (y := real (fround w false m 2)) in *. set (r := sqrt (IZR n)) in *. set (q := IZR m / IZR 2) in *. change (IZR m / 2) with q in ST. set (U := IZR (one_units w)) in *. set (u := uu (w := w)) in *. clearbody y r q U u. clear - FE ST BN IU UP UL.
    change (IZR (2 ^ 74)) with (IZR 18889465931478580854784) in BN. change (IZR (2 ^ 73)) with (IZR 9444732965739290427392).
    assert (I : 0 < / U) by (now apply Rinv_0_lt_compat). replace (/ (2 * U)) with (/ 2 * / U) in FE by (field; lra). unfold Rdiv in *.
    assert (Q0 : 0 <= q) by (apply abs_le_inv in ST; lra). rewrite (Rabs_pos_eq (q * / U)) in FE by (apply Rmult_le_pos; lra).
    replace (y - r * / U) with ((y - q * / U) + (q - r) * / U) by ring. eapply Rle_trans; [apply Rabs_triang|]. rewrite (Rabs_mult (q - r)), (Rabs_pos_eq (/ U)) by lra.
    assert (T1 : Rabs (q - r) * / U <= 1 * / 2 * / U) by (apply Rmult_le_compat_r; lra).
    assert (T2 : u * (q * / U) <= u * ((r + 1 / 2) * / U)) by (apply Rmult_le_compat_l; [lra|]; apply Rmult_le_compat_r; [lra|]; apply abs_le_inv in ST; lra).
    assert (T3 : u * ((r + 1 / 2) * / U) <= u * (r * / U) + 1 / 2 * / U) by nra.
    assert (T4 : 3 / 2 * / U <= / 9444732965739290427392 * r * / U) by (apply Rmult_le_compat_r; lra). lra.
  Qed.
End S.
