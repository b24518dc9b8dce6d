(** The reduction of the argument of log. *)
From Coq Require Import ZArith Reals List Bool Lia Lra Psatz.
From Verif.Spec Require Import FloatSpec RoundSpec MathSpec AccuracySpec.
From Verif.Model Require Import Word Fp FpArith Transcend.
From Verif.Proof Require Import WordP FpP FpArithP FpIntP ConvertP MathP Transcend2P Transcend3P RealErrP SeriesP FoldP AccuracyP RealOpsP ExpRedP.
Import ListNotations.
Local Open Scope R_scope.

Lemma pow2_add a b : pow2 (a + b) = pow2 a * pow2 b.
Proof. unfold pow2. rewrite plus_IZR, Rmult_plus_distr_r. apply exp_plus. Qed.
Lemma pow2_Z k : (0 <= k)%Z -> pow2 k = IZR (2 ^ k).
Proof. intros K. pose proof (pow2_max k) as M. rewrite Z.max_l, Z.max_r in M by lia. change (2 ^ 0)%Z with 1%Z in M. lra. Qed.
Lemma pow2_pos k : 0 < pow2 k. Proof. apply exp_pos. Qed.
Lemma pow2_opp k : pow2 (- k) * pow2 k = 1.
Proof. rewrite <- pow2_add. replace (- k + k)%Z with 0%Z by lia. unfold pow2. rewrite Rmult_0_l. apply exp_0. Qed.
Section W.
  Context {w : nat} (Hw : fp_width w).
  Notation p := (mant_bits w). Notation k := (exp_bits w). Notation U := (one_units w). Notation ue := (unit_exp w).
  Notation wf := (with_fields (w := w) false). Notation he := (half_expo (w := w)).
  Lemma U_pow2 : IZR U = pow2 ue.
  Proof using Hw. rewrite pow2_Z; [reflexivity|]. destruct (exps Hw). lia. Qed.
  Lemma real_pow (x : word w) v e : fvalue x = (v * 2 ^ e)%Z -> (0 <= e)%Z -> real x = IZR v * pow2 (e - ue).
  Proof using Hw.
    intros V E. rewrite (real_eq Hw), V, mult_IZR, U_pow2, <- (pow2_Z e E). unfold Z.sub. rewrite pow2_add. pose proof (pow2_opp ue) as O. pose proof (pow2_pos ue). unfold Rdiv.
    assert (/ pow2 ue = pow2 (- ue)) by (apply (Rmult_eq_reg_r (pow2 ue)); [rewrite Rinv_l; lra|lra]). rewrite H0. ring.
  Qed.
  Lemma half_word : uval (half w) = (he * 2 ^ p + 0)%Z.
  Proof using Hw. unfold half_expo. destruct Hw as [->| ->]; vm_compute; reflexivity. Qed.
  Lemma wf_finite e f : (0 <= e < 2 ^ k - 1)%Z -> (0 <= f < 2 ^ p)%Z -> is_Finite (wf e f) = true.
  Proof using Hw. intros E F. destruct (expo_with_fields Hw false e f ltac:(lia) F) as (A & _). unfold is_Finite, all_ones_exponent. rewrite A, (expo_exp Hw). apply negb_true_iff, Z.eqb_neq. lia. Qed.
  Lemma mantissa (x : word w) : negative x = false -> mkw w (Z.lor (uval (mkw w (uval x - exponent_field x * 2 ^ p))) (uval (half w))) = wf he (fraction x).
  Proof using Hw.
    intros N. destruct (fields_range Hw x) as (RE & RF). destruct (expo_small Hw) as (HE & _). pose proof (u_fields Hw x) as UX. rewrite N in UX.
    replace (uval x - exponent_field x * 2 ^ p)%Z with (0 * 2 ^ p + fraction x)%Z by lia. pose proof (fields_bound Hw 0 (fraction x) ltac:(lia) RF) as FB. pose proof (mod_sign Hw) as MS.
    rewrite uval_mkw, Z.mod_small by lia. rewrite half_word, lor_split, Z.lor_0_l, Z.lor_0_r by (apply (mant_nonneg Hw) || (pose proof (pow_pos2 p (mant_nonneg Hw)); lia)).
    unfold with_fields, with_sign. f_equal.
  Qed.
  Lemma half_units : (he - 1 = ue - p - 1)%Z /\ U = (2 ^ (p + 1) * 2 ^ (ue - p - 1))%Z.
  Proof using Hw. unfold half_expo. destruct Hw as [->| ->]; vm_compute; split; reflexivity. Qed.
  Lemma sqrt_const : is_nan (c_1_sqrt2 w) = false /\ 7071 / 10000 <= real (c_1_sqrt2 w) <= 70711 / 100000.
  Proof using Hw.
    destruct Hw as [->| ->]; (split; [reflexivity|]).
    - rewrite (real_frac fp4 _ 11863283 16777216) by (reflexivity || (vm_compute; reflexivity)). lra.
    - rewrite (real_frac fp8 _ 6369051672525773 9007199254740992) by (reflexivity || (vm_compute; reflexivity)). lra.
  Qed.
  Lemma one_fin : is_Finite (one w) = true /\ fvalue (one w) = U.
  Proof using Hw. destruct Hw as [->| ->]; vm_compute; split; reflexivity. Qed.
  Lemma flt_false (a b : word w) : is_Finite a = true -> is_nan b = false -> flt a b = false -> real b <= real a.
  Proof using Hw. intros A B. rewrite (lt_num Hw a b (finite_not_nan Hw a A) B). intros H. apply Z.ltb_ge in H. rewrite !(real_eq Hw). pose proof (IUpos Hw). apply Rmult_le_compat_r; [left; now apply Rinv_0_lt_compat|]. now apply IZR_le. Qed.

  (** the argument with the exponent E = e taken out of its bits *)
  Lemma reduce_core (x E : word w) e : negative x = false -> (0 < exponent_field x < 2 ^ k - 1)%Z -> is_Finite E = true -> fvalue E = (e * U)%Z -> (Z.abs e <= 2000)%Z ->
    let m := mkw w (Z.lor (uval (mkw w (uval x - exponent_field x * 2 ^ p))) (uval (half w))) in
    let s := flt m (c_1_sqrt2 w) in
    let X := fsub (l_set s m (fadd m m)) (one w) in
    let E' := l_set (negb s) E (fadd E (one w)) in
    exists a d, (0 <= d <= 1)%Z /\ is_Finite X = true /\ is_Finite E' = true /\ fvalue E' = ((e + d) * U)%Z /\ real X = IZR a * uu (w := w) /\ - (2929 / 10000) <= real X <= 41422 / 100000 /\
      real x = (1 + real X) * pow2 (exponent_field x - (he + 1) + d).
  Proof using Hw.
    intros N EF FE VE BE m s X E'. destruct (fields_range Hw x) as (RE & RF). destruct (expo_small Hw) as (HE & HE0). destruct (exps Hw) as (P & UE & T & T2 & _). destruct half_units as (HU & UU).
    pose proof (mantissa x N) as EM. fold m in EM. assert (H2 : (he < 2 ^ k - 1)%Z) by (unfold half_expo; clear - Hw; destruct Hw as [->| ->]; vm_compute; reflexivity).
    pose proof (wf_finite he (fraction x) ltac:(lia) RF) as FM. pose proof (value_fields Hw false he (fraction x) ltac:(lia) RF) as VM. rewrite <- EM in FM, VM. rewrite Z.mul_1_l, HU in VM. clearbody m. clear EM.
    set (f := fraction x) in *. pose proof (pow_pos2 (ue - p - 1) ltac:(lia)) as PG. assert (PP : (2 ^ (p + 1) = 2 * 2 ^ p)%Z) by (rewrite Z.pow_add_r by lia; change (2 ^ 1)%Z with 2%Z; lia).
    assert (RX : real x = IZR (2 ^ p + f) * pow2 (exponent_field x - 1 - ue)).
    { apply real_pow; [|lia]. rewrite <- (fields_eta Hw x) at 1. rewrite N, (value_fields Hw) by lia. unfold f. ring. }
    assert (UV : uu (w := w) = pow2 (- (p + 1))) by (unfold uu; rewrite <- pow2_Z by lia; pose proof (pow2_opp (p + 1)); pose proof (pow2_pos (p + 1)); apply (Rmult_eq_reg_r (pow2 (p + 1))); [rewrite Rinv_l; lra|lra]).
    assert (RM : real m = IZR (2 ^ p + f) * uu (w := w)) by (rewrite (real_pow m _ _ VM) by lia; rewrite UV; do 2 f_equal; lia).
    assert (OM : IZR (2 ^ (p + 1)) * uu (w := w) = 1) by (unfold uu; apply Rinv_r; assert (0 < 2 ^ (p + 1))%Z by lia; apply IZR_lt in H; lra).
    destruct one_fin as (F1 & V1). assert (R1 : real (one w) = 1) by (apply (real_int Hw _ 1); lia).
    destruct sqrt_const as (CN & CS). unfold X, E'. clear X E'. destruct s eqn:S; subst s; cbn [negb l_set].
    - pose proof (flt_real Hw _ _ S) as RS. exists (2 * f)%Z, 0%Z. split; [lia|].
      destruct (fadd_repr Hw m m FM FM) as (F2 & V2 & _).
      { replace (fvalue m + fvalue m)%Z with ((2 ^ p + f) * 2 ^ (ue - p))%Z by (rewrite VM; assert (2 ^ (ue - p) = 2 * 2 ^ (ue - p - 1))%Z as -> by (rewrite <- Z.pow_succ_r by lia; f_equal; lia); ring). rewrite Z.abs_eq by (pose proof (pow_pos2 (ue - p) ltac:(lia)); nia). apply (repr_pow Hw); lia. }
      destruct (sub_exact Hw (fadd m m) (one w) F2 F1) as (F3 & V3 & R3).
      { rewrite V2, V1, VM, UU, PP. apply (grid_repr Hw _ (2 * f)); [ring|]. rewrite UU, PP. replace ((2 ^ p + f) * 2 ^ (ue - p - 1) + (2 ^ p + f) * 2 ^ (ue - p - 1) - 2 * 2 ^ p * 2 ^ (ue - p - 1))%Z with (2 * f * 2 ^ (ue - p - 1))%Z by ring. rewrite Z.abs_eq by nia. nia. }
      assert (R2 : real (fadd m m) = 2 * real m) by (rewrite !(real_eq Hw), V2, plus_IZR; pose proof (IUpos Hw); field; lra).
      rewrite R2, R1 in R3. assert (RF3 : real (fsub (fadd m m) (one w)) = IZR (2 * f) * uu (w := w)) by (rewrite R3, RM, <- OM, PP, !mult_IZR, plus_IZR; ring).
      split; [exact F3|]. split; [exact FE|]. split; [rewrite VE; ring|]. split; [exact RF3|]. split.
      { split; [|rewrite R3; lra]. rewrite RF3. apply Rle_trans with 0; [lra|]. apply Rmult_le_pos; [apply IZR_le; lia|left; apply (uu_pos Hw)]. }
      rewrite R3, RX. replace (1 + (2 * real m - 1)) with (2 * real m) by ring. rewrite RM, UV. transitivity (IZR (2 ^ p + f) * (pow2 1 * pow2 (- (p + 1)) * pow2 (exponent_field x - (he + 1) + 0))); [|rewrite (pow2_Z 1) by lia; change (2 ^ 1)%Z with 2%Z; ring].
      rewrite <- !pow2_add. do 2 f_equal. lia.
    - pose proof (flt_false _ _ FM CN S) as RS. exists (f - 2 ^ p)%Z, 1%Z. split; [lia|].
      destruct (sub_exact Hw m (one w) FM F1) as (F3 & V3 & R3).
      { rewrite V1, VM, UU, PP. apply (grid_repr Hw _ (f - 2 ^ p)); [ring|]. rewrite UU, PP. replace ((2 ^ p + f) * 2 ^ (ue - p - 1) - 2 * 2 ^ p * 2 ^ (ue - p - 1))%Z with (- ((2 ^ p - f) * 2 ^ (ue - p - 1)))%Z by ring. rewrite Z.abs_opp, Z.abs_eq by (apply Z.mul_nonneg_nonneg; lia). apply Z.mul_lt_mono_pos_r; lia. }
      destruct (fadd_repr Hw E (one w) FE F1) as (F4 & V4 & _).
      { rewrite VE, V1. replace (e * U + U)%Z with ((e + 1) * 2 ^ ue)%Z by (unfold one_units; ring). rewrite Z.abs_mul, (Z.abs_eq (2 ^ ue)) by (apply Z.pow_nonneg; lia). apply (repr_pow Hw); [split; [lia|]|lia|lia]. apply Z.le_lt_trans with 2001%Z; [lia|]. clear - Hw. destruct Hw as [->| ->]; vm_compute; reflexivity. }
      rewrite R1 in R3. assert (RF3 : real (fsub m (one w)) = IZR (f - 2 ^ p) * uu (w := w)) by (rewrite R3, RM, <- OM, PP, mult_IZR, minus_IZR, plus_IZR; ring).
      split; [exact F3|]. split; [exact F4|]. split; [rewrite V4, VE, V1; ring|]. split; [exact RF3|]. split.
      { split; [rewrite R3; lra|]. rewrite RF3. apply Rle_trans with 0; [|lra]. rewrite <- (Rmult_0_l (uu (w := w))). apply Rmult_le_compat_r; [left; apply (uu_pos Hw)|]. apply IZR_le. lia. }
      rewrite R3, RX. replace (1 + (real m - 1)) with (real m) by ring. rewrite RM, UV, Rmult_assoc, <- !pow2_add. do 2 f_equal. lia.
  Qed.
  Lemma log_reduced (X : word w) : is_Finite X = true -> 0 < real X ->
    exists XX EE e a, log_reduce w X = (XX, EE) /\ is_Finite XX = true /\ is_Finite EE = true /\ fvalue EE = (e * U)%Z /\ (Z.abs e <= 1100)%Z /\ real XX = IZR a * uu (w := w) /\
      - (2929 / 10000) <= real XX <= 41422 / 100000 /\ real X = (1 + real XX) * pow2 e.
  Proof using Hw.
    intros F R. destruct (exps Hw) as (P & UE & T & T2 & _). destruct half_units as (HU & UU). destruct (expo_small Hw) as (HE & HE0).
    assert (VP : (0 < fvalue X)%Z). { rewrite (real_eq Hw) in R. pose proof (IUpos Hw) as IU. apply lt_IZR. apply (Rmult_lt_compat_r (IZR U)) in R; [|lra]. unfold Rdiv in R. rewrite Rmult_assoc, Rinv_l in R by lra. lra. }
    assert (N : negative X = false) by (pose proof (fvalue_abs Hw X) as V; pose proof (fabs_nonneg Hw X); destruct (negative X); [lia|reflexivity]).
    assert (EB : forall x : word w, is_Finite x = true -> (exponent_field x < 2 ^ k - 1)%Z). { intros x Fx. destruct (fields_range Hw x) as (RE & _). unfold is_Finite, all_ones_exponent in Fx. rewrite (expo_exp Hw) in Fx. apply negb_true_iff, Z.eqb_neq in Fx. lia. }
    assert (LX : forall x : word w, negative x = false -> is_Finite x = true -> is_Finite (l_exponent x) = true /\ fvalue (l_exponent x) = ((exponent_field x - (he + 1)) * U)%Z /\ (Z.abs (exponent_field x - (he + 1)) <= 1024)%Z).
    { intros x Nx Fx. destruct (fields_range Hw x) as (RE & RF). specialize (EB x Fx). pose proof (u_fields Hw x) as UX. rewrite Nx, Z.mul_0_l, Z.add_0_l in UX. unfold l_exponent. rewrite UX. pose proof (pow_pos2 p (mant_nonneg Hw)). rewrite Z.div_add_l, (Z.div_small (fraction x)), Z.add_0_r by lia.
      assert (HB : (2 ^ (k - 1) - 1 = he + 1)%Z) by (unfold half_expo; lia). rewrite HB. assert (KB : (2 ^ k - 1 - (he + 1) <= 1024)%Z /\ (he + 1 <= 1024)%Z /\ (2000 <= 2 ^ (p + 1))%Z) by (unfold half_expo; clear - Hw; destruct Hw as [->| ->]; vm_compute; repeat split; discriminate).
      destruct (of_int_exact Hw (exponent_field x - (he + 1)) ltac:(apply (exact_small Hw); lia)) as (A & B & _). repeat split; auto. lia. }
    unfold log_reduce. destruct (fle X (c_min w)) eqn:D; cbn [l_set].
    - assert (FC : is_Finite (of_int w (2 ^ 54)) = true /\ fvalue (of_int w (2 ^ 54)) = (2 ^ 54 * U)%Z) by (clear - Hw; destruct Hw as [->| ->]; vm_compute; split; reflexivity). destruct FC as (FC & VC).
      assert (XS : (fvalue X <= 2 ^ p)%Z). { rewrite (fle_ok Hw) in D. unfold float_le in D. apply andb_prop in D. destruct D as (_ & D). apply Z.leb_le in D. replace (fvalue (c_min w)) with (2 ^ p)%Z in D by (clear - Hw; destruct Hw as [->| ->]; vm_compute; reflexivity). exact D. }
      destruct (fmul_repr Hw X (of_int w (2 ^ 54)) (fvalue X * 2 ^ 54) F FC) as (F2 & V2 & N2).
      { apply (repr_pow Hw); [|lia|]; [split; [lia|]; rewrite Z.pow_add_r by lia; change (2 ^ 1)%Z with 2%Z; lia|clear - Hw; destruct Hw as [->| ->]; vm_compute; discriminate]. }
      { rewrite !(fabs_abs Hw), VC, (Z.abs_eq (fvalue X)), Z.abs_eq by (pose proof (one_units_pos Hw); lia). ring. }
      set (x := fmul X (of_int w (2 ^ 54))) in *. assert (Nx : negative x = false). { rewrite N2, N. clear - Hw. destruct Hw as [->| ->]; reflexivity. }
      assert (Vx : fvalue x = (fvalue X * 2 ^ 54)%Z) by (rewrite (fvalue_abs Hw), Nx, V2; lia).
      assert (E0 : (0 < exponent_field x)%Z).
      { destruct (fields_range Hw x) as (RE & RF). destruct (Z.eq_dec (exponent_field x) 0) as [E0|]; [exfalso|lia]. unfold fabs_value in V2. rewrite E0, (frac_mant Hw) in V2. cbn [Z.eqb] in V2. assert (2 ^ p <= 2 ^ 54)%Z by (apply Z.pow_le_mono_r; [lia|]; clear - Hw; destruct Hw as [->| ->]; vm_compute; discriminate). nia. }
      destruct (LX x Nx F2) as (FL & VL & BL). specialize (EB x F2).
      assert (F54 : is_Finite (of_int w 54) = true /\ fvalue (of_int w 54) = (54 * U)%Z) by (clear - Hw; destruct Hw as [->| ->]; vm_compute; split; reflexivity). destruct F54 as (F54 & V54).
      destruct (sub_exact Hw (l_exponent x) (of_int w 54) FL F54) as (FE & VE & _).
      { rewrite VL, V54. replace ((exponent_field x - (he + 1)) * U - 54 * U)%Z with ((exponent_field x - (he + 1) - 54) * 2 ^ ue)%Z by (unfold one_units; ring). rewrite Z.abs_mul, (Z.abs_eq (2 ^ ue)) by (apply Z.pow_nonneg; lia). apply (repr_pow Hw); [split; [lia|]|lia|lia]. apply Z.le_lt_trans with 2001%Z; [lia|]. clear - Hw. destruct Hw as [->| ->]; vm_compute; reflexivity. }
      rewrite VL, V54, <- Z.mul_sub_distr_r in VE.
      destruct (reduce_core x _ _ Nx ltac:(lia) FE VE ltac:(lia)) as (a & d & Hd & A1 & A2 & A3 & A4 & A5 & A6).
      eexists _, _, (exponent_field x - (he + 1) - 54 + d)%Z, a. split; [reflexivity|]. split; [exact A1|]. split; [exact A2|]. split; [exact A3|]. split; [lia|]. split; [exact A4|]. split; [exact A5|].
      assert (RX : real x = real X * pow2 54) by (rewrite !(real_eq Hw), Vx, mult_IZR, pow2_Z by lia; pose proof (IUpos Hw); field; lra).
      rewrite RX in A6. apply (Rmult_eq_reg_r (pow2 54)); [|pose proof (pow2_pos 54); lra]. rewrite A6, Rmult_assoc, <- pow2_add. do 2 f_equal. lia.
    - assert (E1 : (0 < exponent_field X)%Z).
      { destruct (fields_range Hw X) as (RE & RF). destruct (Z.eq_dec (exponent_field X) 0) as [E0|]; [exfalso|lia]. rewrite (fle_ok Hw) in D. unfold float_le in D. assert (O : ordered X (c_min w) = true) by (unfold ordered; rewrite !(nan_ok Hw), (finite_not_nan Hw X F); clear - Hw; destruct Hw as [->| ->]; vm_compute; reflexivity).
        rewrite O in D. cbn [andb] in D. apply Z.leb_gt in D. replace (fvalue (c_min w)) with (2 ^ p)%Z in D by (clear - Hw; destruct Hw as [->| ->]; vm_compute; reflexivity). rewrite (fvalue_abs Hw), N in D. unfold fabs_value in D. rewrite E0, (frac_mant Hw) in D. cbn [Z.eqb] in D. lia. }
      destruct (LX X N F) as (FL & VL & BL). specialize (EB X F).
      destruct (reduce_core X _ _ N ltac:(lia) FL VL ltac:(lia)) as (a & d & Hd & A1 & A2 & A3 & A4 & A5 & A6).
      eexists _, _, (exponent_field X - (he + 1) + d)%Z, a. split; [reflexivity|]. split; [exact A1|]. split; [exact A2|]. split; [exact A3|]. split; [lia|]. split; [exact A4|]. split; [exact A5|]. exact A6.
  Qed.
  Lemma log_calc_reduced b (X : word w) : is_Finite X = true -> 0 < real X -> log_calc w b X = log_series w b (fst (log_reduce w X)) (snd (log_reduce w X)).
  Proof using Hw.
    intros F R. assert (VP : (0 < fvalue X)%Z). { rewrite (real_eq Hw) in R. pose proof (IUpos Hw) as IU. apply lt_IZR. apply (Rmult_lt_compat_r (IZR U)) in R; [|lra]. unfold Rdiv in R. rewrite Rmult_assoc, Rinv_l in R by lra. lra. }
    rewrite log_calc_eq, (eq_zero Hw), (is_zero_value Hw), (fabs_abs Hw), (lt_num Hw X (w0 w) (finite_not_nan Hw X F) (nan_w0 Hw)), (zero_value Hw).
    replace (Z.abs (fvalue X) =? 0)%Z with false by (symmetry; apply Z.eqb_neq; lia). replace (fvalue X <? 0)%Z with false by (symmetry; apply Z.ltb_ge; lia). reflexivity.
  Qed.
End W.
