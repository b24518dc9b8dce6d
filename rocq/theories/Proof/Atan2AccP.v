(** The accuracy of atan2. *)
From Coq Require Import ZArith Reals List Bool Lia Lra Psatz.
From Verif.Spec Require Import FloatSpec RoundSpec AccuracySpec AngleSpec.
From Verif.Model Require Import Word Fp FpArith Transcend.
From Verif.Proof Require Import WordP FpP FpArithP FpIntP MathP TranscendP Transcend2P RealErrP SeriesP PolyP ExpRealP RealOpsP LogRealP LogOpsP FoldP AccuracyP AtanRealP AtanAccP.
From Coq Require Import Ratan.
Import ListNotations.
Local Open Scope R_scope.

(** angles *)
Lemma sqrt_ratio x y : 0 < x -> sqrt (x * x + y * y) = x * sqrt (1 + (y / x)²).
Proof.
  intros X. replace (x * x + y * y) with ((x * x) * (1 + (y / x)²)) by (unfold Rsqr; field; lra).
  rewrite sqrt_mult by (try (unfold Rsqr; nra); pose proof (Rle_0_sqr (y / x)); lra). now rewrite sqrt_square by lra.
Qed.
Lemma sqrt1_pos t : 0 < sqrt (1 + t²).
Proof. apply sqrt_lt_R0. pose proof (Rle_0_sqr t). lra. Qed.
Lemma angle_right y x : 0 < x -> is_angle y x (atan (y / x)).
Proof.
  intros X. pose proof PI_RGT_0. pose proof (atan_bound (y / x)). pose proof (sqrt1_pos (y / x)) as S. split; [lra|]. rewrite cos_atan, sin_atan, sqrt_ratio by exact X. split; field; lra.
Qed.
Lemma angle_left y x : x < 0 -> is_angle y x (if Rlt_dec y 0 then atan (y / x) - PI else atan (y / x) + PI).
Proof.
  intros X. pose proof PI_RGT_0. assert (E : sqrt (x * x + y * y) = - x * sqrt (1 + (y / x)²)).
  { replace (x * x + y * y) with ((- x) * (- x) + (- y) * (- y)) by ring. rewrite (sqrt_ratio (- x)) by lra. replace (- y / - x) with (y / x) by (field; lra). reflexivity. }
  pose proof (atan_bound (y / x)) as B. pose proof (sqrt1_pos (y / x)) as S. unfold is_angle. rewrite E.
  assert (SG : (y < 0 -> 0 < y / x) /\ (0 <= y -> y / x <= 0)).
  { assert (I : / x < 0) by (now apply Rinv_lt_0_compat). unfold Rdiv. split; intros; nra. }
  destruct SG as (S1 & S2). destruct (Rlt_dec y 0) as [Y|Y].
  - pose proof (atan_increasing 0 (y / x) (S1 Y)) as I. rewrite atan_0 in I. split; [lra|]. unfold Rminus. rewrite cos_plus, sin_plus, cos_neg, sin_neg, cos_PI, sin_PI, cos_atan, sin_atan. split; field; lra.
  - assert (I : atan (y / x) <= 0) by (destruct (S2 ltac:(lra)) as [L|L]; [pose proof (atan_increasing _ _ L) as J; rewrite atan_0 in J; lra|rewrite L, atan_0; lra]).
    split; [lra|]. rewrite neg_cos, neg_sin, cos_atan, sin_atan. split; field; lra.
Qed.
Lemma angle_axis y : 0 < y -> is_angle y 0 (PI / 2) /\ is_angle (- y) 0 (- (PI / 2)).
Proof.
  intros Y. pose proof PI_RGT_0. assert (E : sqrt (0 * 0 + y * y) = y) by (rewrite Rmult_0_l, Rplus_0_l; apply sqrt_square; lra).
  assert (E' : sqrt (0 * 0 + - y * - y) = y) by (replace (- y * - y) with (y * y) by ring; exact E).
  unfold is_angle. rewrite E, E', cos_neg, sin_neg, cos_PI2, sin_PI2. repeat split; lra.
Qed.

(** atan of a perturbed argument *)
Lemma atan_rel t d delta : 0 <= delta <= / 100 -> Rabs d <= delta * Rabs t -> Rabs (atan (t + d) - atan t) <= 17 / 16 * delta * Rabs (atan t).
Proof.
  intros D H. destruct (atan_low t (Rabs t) (Rle_refl _)) as (L & _). pose proof (Rabs_pos t) as P. set (m := Rabs t) in *. assert (TT : t * t = m * m) by (unfold m, Rabs; destruct (Rcase_abs t); ring).
  assert (Q : 0 < / (1 + m * m)) by (apply Rinv_0_lt_compat; nra).
  pose proof (mvt_bound atan (fun x => / (1 + x ^ 2)) (t - delta * m) (t + delta * m) (17 / 16 * / (1 + m * m)) (fun x _ => derivable_pt_lim_atan x)) as M.
  assert (B : forall x, t - delta * m <= x <= t + delta * m -> Rabs (/ (1 + x ^ 2)) <= 17 / 16 * / (1 + m * m)).
  { intros x X. assert (XX : (99 / 100 * m) * (99 / 100 * m) <= x * x).
    { assert (delta * m <= / 100 * m) by (apply Rmult_le_compat_r; lra). unfold m, Rabs in *. destruct (Rcase_abs t); nra. }
    assert (1 + x ^ 2 > 0) by (simpl; nra). rewrite Rabs_pos_eq by (left; apply Rinv_0_lt_compat; lra). apply (Rmult_le_reg_r ((1 + x ^ 2) * (1 + m * m))); [nra|].
    replace (/ (1 + x ^ 2) * ((1 + x ^ 2) * (1 + m * m))) with (1 + m * m) by (field; lra). replace (17 / 16 * / (1 + m * m) * ((1 + x ^ 2) * (1 + m * m))) with (17 / 16 * (1 + x ^ 2)) by (field; nra). simpl. nra. }
  assert (0 <= delta * m) by nra. specialize (M B t (t + d) ltac:(lra) ltac:(apply abs_le_inv in H; lra)). replace (t + d - t) with d in M by ring. eapply Rle_trans; [exact M|].
  unfold Rdiv in L. assert (17 / 16 * / (1 + m * m) * Rabs d <= 17 / 16 * / (1 + m * m) * (delta * m)) by (apply Rmult_le_compat_l; lra). nra.
Qed.
Lemma atan_pert q t delta e : 0 <= delta <= / 100 -> 0 <= e -> Rabs (q - t) <= delta * Rabs t + e -> Rabs (atan q - atan t) <= 17 / 16 * delta * Rabs (atan t) + e.
Proof.
  intros D E H. assert (K : exists d, Rabs d <= delta * Rabs t /\ Rabs (q - (t + d)) <= e).
  { pose proof (Rabs_pos t). assert (0 <= delta * Rabs t) by nra. apply abs_le_inv in H. destruct (Rle_lt_dec (q - t) (delta * Rabs t)) as [A|A]; [destruct (Rle_lt_dec (- (delta * Rabs t)) (q - t)) as [B|B]|].
    - exists (q - t). split; [apply Rabs_le; lra|]. replace (q - (t + (q - t))) with 0 by ring. rewrite Rabs_R0. lra.
    - exists (- (delta * Rabs t)). split; apply Rabs_le; lra.
    - exists (delta * Rabs t). split; apply Rabs_le; lra. }
  destruct K as (d & K1 & K2). pose proof (atan_rel t d delta D K1) as R. pose proof (atan_lip q (t + d)) as L. replace (atan q - atan t) with ((atan q - atan (t + d)) + (atan (t + d) - atan t)) by ring. eapply Rle_trans; [apply Rabs_triang|]. lra.
Qed.
(** large arguments *)
Lemma atan_top t : 1 <= Rabs t -> Rabs (atan t - (if Rlt_dec t 0 then - (PI / 2) else PI / 2)) <= / Rabs t.
Proof.
  assert (K : forall z, 1 <= z -> Rabs (atan z - PI / 2) <= / z).
  { intros z Z. rewrite (atan_large z) by lra. replace (PI / 2 + atan (-1 / z) - PI / 2) with (atan (-1 / z)) by ring. eapply Rle_trans; [apply atan_abs_le|]. unfold Rdiv. rewrite Rabs_mult, (Rabs_left (-1)), Rabs_inv, (Rabs_pos_eq z) by lra. lra. }
  intros T. destruct (Rlt_dec t 0) as [N|N].
  - rewrite (Rabs_left t) in * by lra. specialize (K (- t) T). rewrite atan_opp in K. replace (atan t - - (PI / 2)) with (- (- atan t - PI / 2)) by ring. now rewrite Rabs_Ropp.
  - rewrite (Rabs_pos_eq t) in * by lra. now apply K.
Qed.

Section Q.
  Context {w : nat} (Hw : fp_width w).
  Notation u := (uu (w := w)).
  Notation eta := (eta (w := w)).
  Lemma u_small : 0 < u <= / 16777216.
  Proof using Hw. split; [apply (uu_pos Hw)|]. destruct Hw as [->| ->]; [rewrite u4|rewrite u8]; lra. Qed.
  Lemma atan_ok c (x : word w) : is_Finite x = true -> is_Finite (Transcend.atan w c x) = true /\ Rabs (real (Transcend.atan w c x) - atan (real x)) <= 8 * u * Rabs (atan (real x)) + 2 * eta.
  Proof using Hw.
    intros F. destruct Hw as [->| ->]; cbn [Transcend.atan]; [destruct (atan_ok4 c x F) as (G & E); replace (8 * uu (w := 4)) with (/ 2097152) by (rewrite u4; lra)|destruct (atan_ok8 c x F) as (G & E); replace (8 * uu (w := 8)) with (/ 1125899906842624) by (rewrite u8; lra)]; auto.
  Qed.
  Lemma big_word : exists m, (0 <= m < inf_magnitude w)%Z /\ mval (mant_bits w) m = (2 ^ 70 * one_units w)%Z.
  Proof using Hw. exists (magnitude (of_int w (2 ^ 70))). destruct Hw as [->| ->]; vm_compute; repeat split; congruence. Qed.
  (** a quotient above 2 ^ 70 *)
  Lemma fdiv_big (a b : word w) : is_Finite a = true -> is_Finite b = true -> fvalue b <> 0%Z -> B70 < Rabs (real a / real b) ->
    negative (fdiv a b) = xorb (negative a) (negative b) /\ (is_inf (fdiv a b) = true \/ is_Finite (fdiv a b) = true /\ B70 <= Rabs (real (fdiv a b))).
  Proof using Hw.
    intros Fa Fb NZ H. pose proof (IUpos Hw) as IU. assert (BZ : fabs_value b <> 0%Z) by (rewrite (fvalue_abs Hw) in NZ; destruct (negative b); lia). pose proof (fabs_nonneg Hw a) as A0. pose proof (fabs_nonneg Hw b).
    assert (IB : 0 < IZR (fabs_value b)) by (apply IZR_lt; lia).
    assert (NB : real b <> 0) by (intros E; assert (X : Rabs (real b) = 0) by (rewrite E; apply Rabs_R0); rewrite (real_abs Hw) in X; unfold Rdiv in X; assert (0 < IZR (fabs_value b) * / IZR (one_units w)) by (apply Rmult_lt_0_compat; [exact IB|now apply Rinv_0_lt_compat]); lra).
    assert (AB : Rabs (real a / real b) = IZR (fabs_value a) / IZR (fabs_value b)).
    { unfold Rdiv. rewrite Rabs_mult, Rabs_inv, !(real_abs Hw). field. split; lra. }
    assert (HB : (2 ^ 70 * one_units w * fabs_value b <= fabs_value a * one_units w)%Z).
    { apply le_IZR. rewrite !mult_IZR. rewrite AB in H. fold B70. apply Rlt_le in H. apply (Rmult_le_compat_r (IZR (one_units w) * IZR (fabs_value b))) in H; [|nra].
      replace (IZR (fabs_value a) / IZR (fabs_value b) * (IZR (one_units w) * IZR (fabs_value b))) with (IZR (fabs_value a) * IZR (one_units w)) in H by (field; lra). lra. }
    unfold fdiv, nan2. rewrite !(finite_not_nan Hw), !(finite_not_inf Hw), (is_zero_value Hw) by auto. destruct (Z.eqb_spec (fabs_value b) 0) as [|BZ']; [contradiction|].
    destruct big_word as (m & M & MV). pose proof (one_units_pos Hw) as UP. set (n := (fabs_value a * one_units w)%Z) in *. set (d := fabs_value b) in *. assert (N0 : (0 <= n)%Z) by (unfold n; nia). assert (D0 : (0 < d)%Z) by lia.
    pose proof (rnd_ge (mant_bits w) (mant_pos Hw) n d m N0 D0 ltac:(lia) ltac:(rewrite MV; exact HB)) as G. pose proof (round_magnitude_bound Hw n d N0 D0) as RB. pose proof (inf_bound Hw) as IF.
    unfold fround. rewrite (negative_with_sign Hw) by lia. split; [reflexivity|]. rewrite round_magnitude_rnd in *. destruct (Z.le_gt_cases (inf_magnitude w) (rnd (mant_bits w) n d)) as [C|C].
    - left. rewrite Z.min_l by exact C. apply (inf_with_sign Hw).
    - right. rewrite Z.min_r by lia. split; [apply (finite_with_sign Hw); lia|]. rewrite (real_abs Hw), (fabs_mval Hw), (magnitude_with_sign Hw) by lia.
      assert (L : (2 ^ 70 * one_units w <= mval (mant_bits w) (rnd (mant_bits w) n d))%Z).
      { rewrite <- MV. apply Z.nlt_ge. intros X. apply Z.ltb_lt in X. rewrite (mval_mono Hw) in X by lia. apply Z.ltb_lt in X. lia. }
      apply IZR_le in L. rewrite mult_IZR in L. fold B70 in L. apply (Rmult_le_reg_r (IZR (one_units w))); [exact IU|]. unfold Rdiv. rewrite Rmult_assoc, Rinv_l by lra. lra.
  Qed.
  Lemma sign_real (x : word w) : real x <> 0 -> negative x = if Rlt_dec (real x) 0 then true else false.
  Proof using Hw.
    intros N. pose proof (real_sign Hw x) as S. pose proof (Rabs_pos (real x)) as P. assert (Rabs (real x) <> 0) by (now apply Rabs_no_R0). destruct (negative x), (Rlt_dec (real x) 0); auto; lra.
  Qed.
  Lemma const_pi2 s : is_Finite (with_sign w s (magnitude (pi_2 w))) = true /\ Rabs (real (with_sign w s (magnitude (pi_2 w))) - (if s then - (PI / 2) else PI / 2)) <= u.
  Proof using Hw.
    pose proof pi_num as P. destruct Hw as [->| ->]; [rewrite u4|rewrite u8].
    - split; [destruct s; reflexivity|]. destruct s.
      + rewrite (const_real fp4 (with_sign 4 true (magnitude (pi_2 4))) (-13176795) 8388608 eq_refl eq_refl eq_refl). apply Rabs_le. lra.
      + rewrite (const_real fp4 (with_sign 4 false (magnitude (pi_2 4))) 13176795 8388608 eq_refl eq_refl eq_refl). apply Rabs_le. lra.
    - split; [destruct s; reflexivity|]. destruct s.
      + rewrite (const_real fp8 (with_sign 8 true (magnitude (pi_2 8))) (-884279719003555) 562949953421312 eq_refl eq_refl eq_refl). apply Rabs_le. lra.
      + rewrite (const_real fp8 (with_sign 8 false (magnitude (pi_2 8))) 884279719003555 562949953421312 eq_refl eq_refl eq_refl). apply Rabs_le. lra.
  Qed.
  Lemma const_pi s : is_Finite (with_sign w s (magnitude (pi w))) = true /\ Rabs (real (with_sign w s (magnitude (pi w))) - (if s then - PI else PI)) <= 2 * u.
  Proof using Hw.
    pose proof pi_num as P. destruct Hw as [->| ->]; [rewrite u4|rewrite u8].
    - split; [destruct s; reflexivity|]. destruct s.
      + rewrite (const_real fp4 (with_sign 4 true (magnitude (pi 4))) (-13176795) 4194304 eq_refl eq_refl eq_refl). apply Rabs_le. lra.
      + rewrite (const_real fp4 (with_sign 4 false (magnitude (pi 4))) 13176795 4194304 eq_refl eq_refl eq_refl). apply Rabs_le. lra.
    - split; [destruct s; reflexivity|]. destruct s.
      + rewrite (const_real fp8 (with_sign 8 true (magnitude (pi 8))) (-884279719003555) 281474976710656 eq_refl eq_refl eq_refl). apply Rabs_le. lra.
      + rewrite (const_real fp8 (with_sign 8 false (magnitude (pi 8))) 884279719003555 281474976710656 eq_refl eq_refl eq_refl). apply Rabs_le. lra.
  Qed.
  Lemma B70_inv : / B70 <= u / 100000.
  Proof using Hw.
    unfold B70. change (IZR (2 ^ 70)) with 1180591620717411303424. destruct Hw as [->| ->]; [rewrite u4|rewrite u8]; lra.
  Qed.
  (** atan of the rounded quotient *)
  Lemma atan_quot c (y x : word w) : is_Finite y = true -> is_Finite x = true -> fvalue x <> 0%Z -> real y <> 0 -> real x <> 0 ->
    is_Finite (Transcend.atan w c (fdiv y x)) = true /\ Rabs (real (Transcend.atan w c (fdiv y x)) - atan (real y / real x)) <= 37 / 4 * u * Rabs (atan (real y / real x)) + 4 * eta.
  Proof using Hw.
    intros Fy Fx NZ NY NX. set (t := real y / real x). pose proof u_small as U. pose proof (eta_pos Hw) as ET. pose proof (eta_le Hw) as EL. pose proof (Rabs_pos (atan t)) as AP. pose proof pi_num as PN.
    destruct (Rle_lt_dec (Rabs t) B70) as [S|B].
    - destruct (fdiv_real Hw y x Fy Fx NZ S) as (FQ & EQ). fold t in EQ. destruct (atan_ok c _ FQ) as (FT & E). split; [exact FT|].
      pose proof (atan_pert (real (fdiv y x)) t u eta ltac:(lra) ltac:(lra) EQ) as P. set (q := real (fdiv y x)) in *. set (T := real (Transcend.atan w c (fdiv y x))) in *.
      assert (AQ : Rabs (atan q) <= Rabs (atan t) + (17 / 16 * u * Rabs (atan t) + eta)) by (replace (atan q) with (atan t + (atan q - atan t)) by ring; eapply Rle_trans; [apply Rabs_triang|lra]).
      replace (T - atan t) with ((T - atan q) + (atan q - atan t)) by ring. eapply Rle_trans; [apply Rabs_triang|].
      assert (8 * u * Rabs (atan q) <= 8 * u * (Rabs (atan t) + (17 / 16 * u * Rabs (atan t) + eta))) by (apply Rmult_le_compat_l; lra). assert (0 <= u * Rabs (atan t)) by nra. assert (u * (u * Rabs (atan t)) <= / 16777216 * (u * Rabs (atan t))) by (apply Rmult_le_compat_r; lra). assert (u * eta <= / 16777216 * eta) by (apply Rmult_le_compat_r; lra). lra.
    - destruct (fdiv_big y x Fy Fx NZ B) as (SG & C). pose proof B70_inv as BI. pose proof B70_big as BB. assert (TN : t <> 0) by (intros E; rewrite E, Rabs_R0 in B; lra).
      assert (IT : / Rabs t <= / B70) by (apply Rinv_le_contravar; lra). pose proof (atan_top t ltac:(lra)) as AT.
      assert (SQ : negative (fdiv y x) = if Rlt_dec t 0 then true else false).
      { rewrite SG, (sign_real y NY), (sign_real x NX). unfold t. destruct (Rlt_dec (real y) 0) as [Y|Y], (Rlt_dec (real x) 0) as [X|X]; cbn [xorb]; destruct (Rlt_dec (real y / real x) 0) as [Z|Z]; auto; exfalso.
        - assert (/ real x < 0) by (now apply Rinv_lt_0_compat). unfold Rdiv in Z. nra.
        - assert (0 < / real x) by (apply Rinv_0_lt_compat; lra). apply Z. unfold Rdiv. nra.
        - assert (/ real x < 0) by (now apply Rinv_lt_0_compat). apply Z. unfold Rdiv. nra.
        - assert (0 < / real x) by (apply Rinv_0_lt_compat; lra). unfold Rdiv in Z. nra. }
      assert (AL : 1 <= Rabs (atan t)) by (pose proof (Rabs_triang_inv (if Rlt_dec t 0 then - (PI / 2) else PI / 2) (atan t)) as X; rewrite Rabs_minus_sym in X; destruct (Rlt_dec t 0); [rewrite Rabs_Ropp in X|]; rewrite (Rabs_pos_eq (PI / 2)) in X by lra; lra).
      destruct C as [I|(FQ & LQ)].
      + rewrite (Transcend2P.atan_inf Hw c _ I). destruct (const_pi2 (negative (fdiv y x))) as (F & E). split; [exact F|]. rewrite SQ in *. set (T := real (with_sign w _ _)) in *. clearbody T.
        assert (T2 : Rabs (T - atan t) <= u + / Rabs t).
        { destruct (Rlt_dec t 0); cbv iota in E; [replace (T - atan t) with ((T - - (PI / 2)) + - (atan t - - (PI / 2))) by ring|replace (T - atan t) with ((T - PI / 2) + - (atan t - PI / 2)) by ring]; (eapply Rle_trans; [apply Rabs_triang|]); rewrite Rabs_Ropp; lra. }
        assert (u * 1 <= u * Rabs (atan t)) by (apply Rmult_le_compat_l; lra). lra.
      + destruct (atan_ok c _ FQ) as (FT & E). split; [exact FT|]. assert (IQ : / Rabs (real (fdiv y x)) <= / B70) by (apply Rinv_le_contravar; lra). pose proof (atan_top (real (fdiv y x)) ltac:(lra)) as AQ.
        assert (QN : real (fdiv y x) <> 0) by (intros Z; rewrite Z, Rabs_R0 in LQ; lra). rewrite (sign_real _ QN) in SQ. set (q := real (fdiv y x)) in *. set (T := real (Transcend.atan w c (fdiv y x))) in *.
        assert (D : Rabs (atan q - atan t) <= 2 * / B70).
        { destruct (Rlt_dec q 0), (Rlt_dec t 0); try discriminate SQ; [replace (atan q - atan t) with ((atan q - - (PI / 2)) + - (atan t - - (PI / 2))) by ring|replace (atan q - atan t) with ((atan q - PI / 2) + - (atan t - PI / 2)) by ring]; (eapply Rle_trans; [apply Rabs_triang|]); rewrite Rabs_Ropp; lra. }
        assert (AQ2 : Rabs (atan q) <= Rabs (atan t) + 2 * / B70) by (replace (atan q) with (atan t + (atan q - atan t)) by ring; eapply Rle_trans; [apply Rabs_triang|lra]).
        replace (T - atan t) with ((T - atan q) + (atan q - atan t)) by ring. eapply Rle_trans; [apply Rabs_triang|]. assert (8 * u * Rabs (atan q) <= 8 * u * (Rabs (atan t) + 2 * / B70)) by (apply Rmult_le_compat_l; lra).
        assert (u * 1 <= u * Rabs (atan t)) by (apply Rmult_le_compat_l; lra). assert (0 < / B70) by (apply Rinv_0_lt_compat; lra). assert (u * / B70 <= / 16777216 * / B70) by (apply Rmult_le_compat_r; lra). lra.
  Qed.
  Lemma real_zero (x : word w) : is_zero x = true -> real x = 0.
  Proof using Hw. intros Z. rewrite (is_zero_value Hw) in Z. apply Z.eqb_eq in Z. rewrite (real_eq Hw), (fvalue_abs Hw), Z, Z.mul_0_r. unfold Rdiv. apply Rmult_0_l. Qed.
  Lemma real_not_zero (x : word w) : is_zero x = false -> real x <> 0 /\ fvalue x <> 0%Z.
  Proof using Hw.
    intros Z. rewrite (is_zero_value Hw) in Z. apply Z.eqb_neq in Z. pose proof (IUpos Hw) as IU. assert (V : fvalue x <> 0%Z) by (rewrite (fvalue_abs Hw); destruct (negative x); lia). split; [|exact V].
    intros E. rewrite (real_eq Hw) in E. apply V, eq_IZR. apply (Rmult_eq_compat_r (IZR (one_units w))) in E. unfold Rdiv in E. rewrite Rmult_assoc, Rinv_l, Rmult_1_r, Rmult_0_l in E by lra. exact E.
  Qed.
  Lemma zero_sign_value s (a : word w) : is_Finite a = true -> is_Finite (l_set (is_zero a) a (with_sign w s (magnitude a))) = true /\ real (l_set (is_zero a) a (with_sign w s (magnitude a))) = real a.
  Proof using Hw.
    intros F. destruct (is_zero a) eqn:Z; cbn [l_set]; [|auto]. unfold is_zero in Z. pose proof Z as Z'. apply Z.eqb_eq in Z. rewrite Z. pose proof (inf_bound Hw). split; [apply (finite_with_sign Hw); lia|].
    rewrite (real_zero a Z'). apply real_zero. unfold is_zero. rewrite (magnitude_with_sign Hw) by lia. reflexivity.
  Qed.
  Definition side (s : bool) (t : R) : Prop := if s then t <= 0 else 0 <= t.
  Lemma atan2_ok c (y x : word w) : is_Finite y = true -> is_Finite x = true -> real y <> 0 \/ real x <> 0 ->
    exists t, is_angle (real y) (real x) t /\ side (negative y) t /\ is_Finite (atan2 c y x) = true /\ Rabs (real (atan2 c y x) - t) <= 16 * u * Rabs t + 4 * eta.
  Proof using Hw.
    intros Fy Fx NZ. pose proof u_small as U. pose proof (eta_pos Hw) as ET. pose proof (eta_le Hw) as EL. pose proof pi_num as PN.
    assert (Ny : is_nan y = false) by (now apply (finite_not_nan Hw)). assert (Nx : is_nan x = false) by (now apply (finite_not_nan Hw)).
    destruct (is_zero y) eqn:Zy.
    - rewrite (atan2_y_zero Hw) by auto. assert (Ry : real y = 0) by (now apply real_zero). rewrite Ry in *. assert (NX : real x <> 0) by (destruct NZ; lra). rewrite (sign_real x NX). destruct (Rlt_dec (real x) 0) as [X|X].
      + exists (if negative y then - PI else PI). pose proof (angle_left 0 (real x) X) as A. destruct (Rlt_dec 0 0) as [L|_]; [lra|]. unfold Rdiv in A. rewrite Rmult_0_l, atan_0, Rplus_0_l in A.
        destruct (const_pi (negative y)) as (F & E). split; [|split; [|split; [exact F|]]].
        * destruct (negative y); [|exact A]. unfold is_angle in *. rewrite cos_neg, sin_neg. rewrite sin_PI in *. destruct A as (A1 & A2 & A3). repeat split; try lra.
        * unfold side. destruct (negative y); lra.
        * eapply Rle_trans; [exact E|]. destruct (negative y); [rewrite Rabs_Ropp|]; rewrite Rabs_pos_eq by lra; nra.
      + exists 0. pose proof (angle_right 0 (real x) ltac:(lra)) as A. unfold Rdiv in A. rewrite Rmult_0_l, atan_0 in A. split; [exact A|]. split; [unfold side; destruct (negative y); lra|]. pose proof (inf_bound Hw). split; [apply (finite_with_sign Hw); lia|].
        rewrite real_zero by (unfold is_zero; rewrite (magnitude_with_sign Hw) by lia; reflexivity). rewrite Rminus_0_r, Rabs_R0. lra.
    - destruct (real_not_zero y Zy) as (NY & _). destruct (is_zero x) eqn:Zx.
      + rewrite (atan2_x_zero Hw) by auto. rewrite (real_zero x Zx). unfold half_signed. destruct (const_pi2 (negative y)) as (F & E). exists (if negative y then - (PI / 2) else PI / 2). split; [|split; [|split; [exact F|]]].
        * rewrite (sign_real y NY). destruct (Rlt_dec (real y) 0) as [Y|Y]; [destruct (angle_axis (- real y) ltac:(lra)) as (_ & A); now rewrite Ropp_involutive in A|apply (angle_axis (real y)); lra].
        * unfold side. destruct (negative y); lra.
        * eapply Rle_trans; [exact E|]. destruct (negative y); [rewrite Rabs_Ropp|]; rewrite Rabs_pos_eq by lra; nra.
      + destruct (real_not_zero x Zx) as (NX & VX). rewrite (atan2_eq Hw c y x Ny Nx). unfold atan2_x. rewrite (finite_not_inf Hw y Fy), (finite_not_inf Hw x Fx), Zx, Zy, orb_false_r.
        destruct (atan_quot c y x Fy Fx VX NY NX) as (FT & E). unfold atan2_core. cbv zeta. cbn [andb l_zero l_set]. set (T := Transcend.atan w c (fdiv y x)) in *. set (t := real y / real x) in *. pose proof (Rabs_pos (atan t)) as AP. pose proof (atan_bound t) as AB.
        assert (UA : 0 <= u * Rabs (atan t)) by nra. rewrite (sign_real x NX), (sign_real y NY). destruct (Rlt_dec (real x) 0) as [X|X]; cbn [negb l_zero].
        * set (sy := if Rlt_dec (real y) 0 then true else false). destruct (const_pi sy) as (FP & EP). set (P := with_sign w sy (magnitude (pi w))) in *. pose proof (angle_left (real y) (real x) X) as A. fold t in A.
          set (th := if Rlt_dec (real y) 0 then atan t - PI else atan t + PI) in *. assert (I : / real x < 0) by (now apply Rinv_lt_0_compat).
          assert (K : side sy th /\ th = atan t + (if sy then - PI else PI) /\ PI / 2 <= Rabs th <= 4 /\ Rabs (atan t) <= Rabs th).
          { unfold sy, th, side. destruct (Rlt_dec (real y) 0) as [Y|Y].
            - assert (T0 : 0 < t) by (unfold t, Rdiv; nra). pose proof (atan_increasing 0 t T0) as IA. rewrite atan_0 in IA. rewrite (Rabs_pos_eq (atan t)), Rabs_left by lra. repeat split; lra.
            - assert (T0 : t < 0) by (unfold t, Rdiv; nra). pose proof (atan_increasing t 0 T0) as IA. rewrite atan_0 in IA. rewrite (Rabs_left (atan t)), Rabs_pos_eq by lra. repeat split; lra. }
          destruct K as (K1 & K2 & K3 & K4).
          assert (D : Rabs (real P + real T - th) <= 2 * u + (37 / 4 * u * Rabs (atan t) + 4 * eta)).
          { rewrite K2. replace (real P + real T - (atan t + (if sy then - PI else PI))) with ((real P - (if sy then - PI else PI)) + (real T - atan t)) by ring. eapply Rle_trans; [apply Rabs_triang|]. lra. }
          assert (K5 : u * Rabs (atan t) <= u * Rabs th) by (apply Rmult_le_compat_l; lra). assert (K6 : u * (PI / 2) <= u * Rabs th) by (apply Rmult_le_compat_l; lra). assert (K7 : u * Rabs th <= / 16777216 * 4) by (apply Rmult_le_compat; lra).
          assert (K8 : u * (3 / 2) <= u * (PI / 2)) by (apply Rmult_le_compat_l; lra).
          destruct (final_add Hw P T th _ FP FT D) as (F & R); [lra|lra|]. exists th. split; [exact A|]. split; [exact K1|]. destruct (zero_sign_value sy (fadd P T) F) as (F2 & R2). rewrite F2, R2. split; [reflexivity|]. eapply Rle_trans; [exact R|].
          set (dd := 2 * u + (37 / 4 * u * Rabs (atan t) + 4 * eta)) in *. assert (DD : dd <= 12 * (u * Rabs th) + 4 * eta) by (unfold dd; lra).
          assert (DU : u * dd <= / 16777216 * dd) by (apply Rmult_le_compat_r; [unfold dd; lra|lra]). assert (DE : dd <= 65 / 6 * (u * Rabs th) + 4 * eta) by (unfold dd; lra).
          assert (EU : eta <= u * Rabs th) by (assert (/ 1267650600228229401496703205376 <= u) by (destruct Hw as [->| ->]; [rewrite u4|rewrite u8]; lra); nra). lra.
        * assert (FW : is_Finite (w0 w) = true /\ fvalue (w0 w) = 0%Z) by (destruct Hw as [->| ->]; split; reflexivity). destruct FW as (FW & VW). destruct (zero_add Hw T (w0 w) FT FW VW) as (FA & RA).
          destruct (zero_sign_value (if Rlt_dec (real y) 0 then true else false) (fadd (w0 w) T) FA) as (F2 & R2). exists (atan t). split; [apply angle_right; lra|]. split; [|rewrite F2, R2, RA; split; [reflexivity|lra]].
          assert (I : 0 < / real x) by (apply Rinv_0_lt_compat; lra). unfold side. destruct (Rlt_dec (real y) 0) as [Y|Y].
          -- assert (T0 : t < 0) by (unfold t, Rdiv; nra). pose proof (atan_increasing t 0 T0) as IA. rewrite atan_0 in IA. lra.
          -- assert (T0 : 0 < t) by (unfold t, Rdiv; nra). pose proof (atan_increasing 0 t T0) as IA. rewrite atan_0 in IA. lra.
  Qed.
End Q.
