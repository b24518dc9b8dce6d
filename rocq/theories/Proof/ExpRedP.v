(** The reduction of the argument of exp and the scaling of the result. *)
From Coq Require Import ZArith Reals List Bool Lia Lra Psatz.
From Verif.Spec Require Import FloatSpec RoundSpec MathSpec AccuracySpec.
From Verif.Model Require Import Word Fp FpArith Transcend.
From Verif.Proof Require Import WordP FpP FpArithP FpIntP ConvertP MathP RealErrP SeriesP FoldP AccuracyP PolyP ExpRealP RealOpsP.
Import ListNotations.
Local Open Scope R_scope.

Section W.
  Context {w : nat} (Hw : fp_width w).
  Notation U := (one_units w).
  Lemma real_abs_le (y : word w) k : Rabs (real y) <= IZR k -> (Z.abs (fvalue y) <= k * U)%Z.
  Proof using Hw. intros H. rewrite (real_abs Hw) in H. pose proof (IUpos Hw). apply le_IZR. rewrite mult_IZR, <- (fabs_abs Hw). apply (Rmult_le_compat_r (IZR U)) in H; [|lra]. unfold Rdiv in H. rewrite Rmult_assoc, Rinv_l, Rmult_1_r in H by lra. exact H. Qed.
  Lemma floor_real (y : word w) k : is_floor (fvalue y) U k -> IZR k <= real y < IZR k + 1.
  Proof using Hw.
    intros (A & B). pose proof (IUpos Hw) as IU. apply IZR_le in A. apply IZR_lt in B. rewrite mult_IZR in *. rewrite plus_IZR in B. rewrite (real_eq Hw). split; [apply (Rmult_le_reg_r (IZR U))|apply (Rmult_lt_reg_r (IZR U))]; try lra; unfold Rdiv; rewrite Rmult_assoc, Rinv_l, Rmult_1_r by lra; lra.
  Qed.
  Lemma floor_ok sse41 (y : word w) : is_Finite y = true -> Rabs (real y) <= 2000 ->
    exists k, is_Finite (l_floor sse41 y) = true /\ fvalue (l_floor sse41 y) = (k * U)%Z /\ IZR k <= real y < IZR k + 1.
  Proof using Hw.
    intros F H. pose proof (real_abs_le y 2000 H) as HB. assert (G : exists z, is_floor (fvalue y) U z /\ is_Finite (l_floor sse41 y) = true /\ fvalue (l_floor sse41 y) = (z * U)%Z).
    { destruct sse41; unfold l_floor.
      - destruct (round_to_value Hw Down y F) as (F' & V & _). exists (round_int Down y). split; [|auto]. rewrite round_int_eq. pose proof (one_units_pos Hw) as P. unfold is_floor. pose proof (Z.div_mod (fvalue y) U ltac:(lia)). pose proof (Z.mod_pos_bound (fvalue y) U P). nia.
      - assert (T : trunc_ok y (l_trunc_sse2 w y)).
        { clear H. destruct Hw as [->| ->]; [apply trunc4_ok|]. change (l_trunc_sse2 8 y) with (l_trunc8 y). replace (l_trunc8 y) with (trunc8_lane y); [apply trunc8_ok; intros _; eapply Z.le_trans; [exact HB|]; apply Z.mul_le_mono_nonneg_r; [pose proof (one_units_pos fp8); lia|lia]|].
          unfold l_trunc8, trunc8_lane. cbv zeta. rewrite (or_sign_gen fp8). reflexivity. }
        destruct (floor_lane_ok Hw _ _ T) as (Q & _). destruct (Q F) as (z & Z1 & Z2 & Z3). rewrite (fone_units Hw) in Z1, Z3. exists z. unfold floor_lane in *. auto. }
    destruct G as (k & A & B & C). exists k. split; [exact B|]. split; [exact C|]. now apply floor_real.
  Qed.
  Lemma cvt_ok (z : word w) k : is_Finite z = true -> fvalue z = (k * U)%Z -> (- 2000 <= k <= 2000)%Z -> sval (cvt_int32 ToZero z) = k.
  Proof using Hw. intros F V B. rewrite (cvt_int32_ok Hw) by (auto; rewrite (round_int_exact Hw ToZero _ k V); lia). rewrite (round_int_exact Hw ToZero _ k V), mkw4_sval by lia. reflexivity. Qed.

  (** the exponent field of numbers in [1/2, 2) *)
  Definition bias : Z := 2 ^ (exp_bits w - 1) - 1.
  Lemma expo_near (v : word w) : is_Finite v = true -> 1 / 2 <= real v -> real v < 2 -> is_Normal v = true /\ (bias - 1 <= exponent_field v <= bias)%Z /\ (1 <= real v -> exponent_field v = bias).
  Proof using Hw.
    intros F L H. pose proof (IUpos Hw) as IU. rewrite (real_eq Hw) in *.
    assert (V1 : (U <= 2 * fvalue v)%Z) by (apply le_IZR; rewrite mult_IZR; apply (Rmult_le_compat_r (IZR U)) in L; [|lra]; unfold Rdiv in L; rewrite !Rmult_assoc, Rinv_l in L by lra; lra).
    assert (V2 : (fvalue v < 2 * U)%Z) by (apply lt_IZR; rewrite mult_IZR; apply (Rmult_lt_compat_r (IZR U)) in H; [|lra]; unfold Rdiv in H; rewrite !Rmult_assoc, Rinv_l in H by lra; lra).
    assert (V3 : 1 <= IZR (fvalue v) / IZR U -> (U <= fvalue v)%Z) by (intros G; apply le_IZR; apply (Rmult_le_compat_r (IZR U)) in G; [|lra]; unfold Rdiv in G; rewrite !Rmult_assoc, Rinv_l in G by lra; lra).
    clear L H. destruct (fields_range Hw v) as (RE & RF). pose proof (one_units_pos Hw) as UP. unfold is_Normal. rewrite F. cbn [andb].
    assert (UE : U = (2 ^ mant_bits w * 2 ^ (bias - 1))%Z) by (unfold bias; destruct Hw as [->| ->]; vm_compute; reflexivity).
    assert (BB : (1 <= bias - 1)%Z) by (unfold bias; destruct Hw as [->| ->]; vm_compute; discriminate). pose proof (pow_pos2 (mant_bits w) (mant_nonneg Hw)) as PP.
    assert (VF : exponent_field v <> 0%Z -> fvalue v = ((if negative v then -1 else 1) * ((2 ^ mant_bits w + fraction v) * 2 ^ (exponent_field v - 1)))%Z) by (intros E0; rewrite <- (fields_eta Hw v) at 1; apply (value_fields Hw); lia).
    destruct (Z.eq_dec (exponent_field v) 0) as [E0|E0].
    - exfalso. rewrite (fvalue_abs Hw) in V1. unfold fabs_value in V1. rewrite E0 in V1. cbn [Z.eqb] in V1.
      assert (1 < 2 ^ (bias - 1))%Z by (apply Z.pow_gt_1; lia). destruct (negative v); nia.
    - specialize (VF E0). destruct (negative v).
      { exfalso. pose proof (pow_pos2 (exponent_field v - 1) ltac:(lia)). nia. }
      rewrite Z.mul_1_l in *. rewrite (proj2 (Z.eqb_neq _ _) E0). split; [reflexivity|].
      assert (G : forall e, (0 < e)%Z -> (2 ^ mant_bits w * 2 ^ (e - 1) <= (2 ^ mant_bits w + fraction v) * 2 ^ (e - 1) < 2 ^ mant_bits w * 2 ^ e)%Z).
      { intros e He. replace (2 ^ e)%Z with (2 * 2 ^ (e - 1))%Z by (rewrite <- (Z.pow_succ_r 2 (e - 1)) by lia; f_equal; lia). pose proof (pow_pos2 (e - 1) ltac:(lia)). nia. }
      destruct (G (exponent_field v) ltac:(lia)) as (G1 & G2). rewrite <- VF in G1, G2. set (e := exponent_field v) in *. rewrite UE in *. clear G.
      assert (LE : (bias - 1 <= e)%Z).
      { destruct (Z_le_dec (bias - 1) e); [auto|exfalso]. assert (2 ^ e <= 2 ^ (bias - 2))%Z by (apply Z.pow_le_mono_r; lia). assert (2 ^ (bias - 1) = 2 * 2 ^ (bias - 2))%Z by (rewrite <- (Z.pow_succ_r 2 (bias - 2)) by lia; f_equal; lia). nia. }
      assert (UB : (e <= bias)%Z).
      { destruct (Z_le_dec e bias); [auto|exfalso]. assert (2 ^ bias <= 2 ^ (e - 1))%Z by (apply Z.pow_le_mono_r; lia). assert (2 ^ bias = 2 * 2 ^ (bias - 1))%Z by (rewrite <- (Z.pow_succ_r 2 (bias - 1)) by lia; f_equal; lia). nia. }
      split; [lia|]. intros R. specialize (V3 R). destruct (Z.eq_dec e (bias - 1)) as [E|]; [exfalso|lia]. rewrite E in G2. nia.
  Qed.
  Definition pow2 (k : Z) : R := exp (IZR k * ln 2).
  Lemma pow2_nat n : exp (INR n * ln 2) = IZR (2 ^ Z.of_nat n).
  Proof.
    induction n as [|n IH]; [cbn; rewrite Rmult_0_l; apply exp_0|]. rewrite S_INR, Rmult_plus_distr_r, Rmult_1_l, exp_plus, IH, exp_ln by lra. rewrite Nat2Z.inj_succ, Z.pow_succ_r, mult_IZR by lia. lra.
  Qed.
  Lemma pow2_max k : pow2 k * IZR (2 ^ Z.max 0 (- k)) = IZR (2 ^ Z.max 0 k).
  Proof.
    unfold pow2. destruct (Z_le_dec 0 k).
    - rewrite Z.max_l, Z.max_r by lia. rewrite Rmult_1_r. rewrite <- (Z2Nat.id k) by lia. rewrite <- INR_IZR_INZ. apply pow2_nat.
    - rewrite Z.max_r, Z.max_l by lia. rewrite <- (Z2Nat.id (- k)) by lia. rewrite <- pow2_nat, INR_IZR_INZ, Z2Nat.id by lia. rewrite <- exp_plus, opp_IZR. replace (IZR k * ln 2 + - IZR k * ln 2) with 0 by ring. apply exp_0.
  Qed.
  Lemma ldexp_real (v : word w) (n : word 4) k : is_Finite v = true -> 7 / 10 <= real v <= 142 / 100 -> sval n = k -> (- bias + 1 <= k <= bias)%Z -> ((k = - bias + 1)%Z -> 1 <= real v) ->
    is_Finite (l_ldexp v n) = true /\ real (l_ldexp v n) = real v * pow2 k.
  Proof using Hw.
    intros F (L & H) N (K1 & K2) K3. destruct (expo_near v F ltac:(lra) ltac:(lra)) as (NO & (E1 & E2) & E3).
    assert (BI : (2 ^ expo_bits w = 2 * bias + 2)%Z) by (unfold bias; destruct Hw as [->| ->]; vm_compute; reflexivity).
    assert (IR : ldexp_in_range v k) by (unfold ldexp_in_range; rewrite BI; destruct (Z.eq_dec k (- bias + 1)); [specialize (E3 (K3 e))|]; lia).
    destruct (ldexp_word_ok Hw v k NO IR) as (F' & S). assert (EQ : l_ldexp v n = ldexp_word v k).
    { unfold l_ldexp, ldexp_word. rewrite (zero_test Hw), F. destruct (normal_nonzero Hw v NO) as (_ & V & _). rewrite (proj2 (Z.eqb_neq _ _) V). cbn [andb].
      assert (M : exists j, uval n = (k + j * 2 ^ 32)%Z) by (rewrite <- N; unfold sval, to_signed; change (2 ^ 32)%Z with (modulus 4); match goal with |- context [if ?b then _ else _] => destruct b end; [exists 0%Z|exists 1%Z]; ring).
      destruct M as (j & ->). clear - Hw. destruct Hw as [->| ->]; apply word_ext; rewrite !uval_mkw.
      - change (mant_bits 4) with 23%Z. replace (uval v + (k + j * 2 ^ 32) * 2 ^ 23)%Z with (uval v + k * 2 ^ 23 + (j * 2 ^ 23) * modulus 4)%Z by (change (modulus 4) with (2 ^ 32)%Z; ring). apply Z_mod_plus_full.
      - change (mant_bits 8) with 52%Z. replace (uval v + (k + j * 2 ^ 32) * 2 ^ 52)%Z with (uval v + k * 2 ^ 52 + (j * 2 ^ 20) * modulus 8)%Z by (change (modulus 8) with (2 ^ 64)%Z; change (2 ^ 64)%Z with (2 ^ 32 * 2 ^ 32)%Z; change (2 ^ 52)%Z with (2 ^ 32 * 2 ^ 20)%Z; ring). apply Z_mod_plus_full. }
    rewrite EQ. split; [exact F'|]. unfold scaled_by in S. apply (f_equal IZR) in S. rewrite !mult_IZR in S. rewrite !(real_eq Hw). pose proof (IUpos Hw). rewrite <- (pow2_max k) in S.
    assert (P : 0 < IZR (2 ^ Z.max 0 (- k))) by (apply IZR_lt, Z.pow_pos_nonneg; lia). apply (Rmult_eq_reg_r (IZR (2 ^ Z.max 0 (- k)))); [|lra]. unfold Rdiv. replace (IZR (fvalue (ldexp_word v k)) * / IZR U * IZR (2 ^ Z.max 0 (- k))) with (IZR (fvalue (ldexp_word v k)) * IZR (2 ^ Z.max 0 (- k)) * / IZR U) by ring. rewrite S. ring.
  Qed.
End W.
Lemma exp_near a b B d : Rabs a <= B -> Rabs b <= B -> exp B <= d -> Rabs (exp a - exp b) <= d * Rabs (a - b).
Proof.
  intros HA HB D. apply (mvt_bound exp exp (- B) B d).
  - intros x _. apply derivable_pt_lim_exp.
  - intros x Hx. rewrite Rabs_pos_eq by (left; apply exp_pos). apply Rle_trans with (exp B); [|exact D]. destruct (Req_dec x B) as [->|]; [lra|]. left. apply exp_increasing. lra.
  - now apply abs_le_inv.
  - now apply abs_le_inv.
Qed.
