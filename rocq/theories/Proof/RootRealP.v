(** sqrt, reciprocal and rsqrt of one value against RootSpec. *)
From Coq Require Import ZArith Reals List Bool Lia Lra Psatz.
From Verif.Spec Require Import FloatSpec RoundSpec AccuracySpec RootSpec.
From Verif.Model Require Import Word Fp FpArith Transcend ScalarMath Roots.
From Verif.Proof Require Import WordP FpP FpArithP FpIntP ConvertP MathP RealErrP SqrtP RootP.
Local Open Scope Z_scope.

Section W.
  Context {w : nat} (Hw : fp_width w).
  Notation p := (mant_bits w).
  Notation U := (one_units w).

  Lemma indefinite_nan : is_NaN (indefinite w) = true.
  Proof using Hw. destruct Hw as [->| ->]; vm_compute; reflexivity. Qed.
  Lemma classes (x : word w) : is_NaN x = false -> is_inf x = false -> is_Finite x = true.
  Proof using Hw.
    rewrite (nan_ok Hw), (finite_mag Hw). unfold is_nan, is_inf. intros N I. apply Z.ltb_ge in N. apply Z.eqb_neq in I. apply Z.ltb_lt. lia.
  Qed.
  Lemma zero_facts (x : word w) : fvalue x = 0 -> is_zero x = true /\ is_nan x = false /\ is_inf x = false.
  Proof using Hw.
    intros V. assert (A : fabs_value x = 0) by (rewrite (fabs_abs Hw), V; reflexivity). assert (Z : is_zero x = true) by (rewrite (is_zero_value Hw), A; reflexivity). split; [exact Z|].
    unfold is_zero, is_nan, is_inf in *. apply Z.eqb_eq in Z. rewrite Z. pose proof (inf_bound Hw). split; [apply Z.ltb_ge; lia|apply Z.eqb_neq; lia].
  Qed.
  Lemma inf_not_nan (x : word w) : is_Inf x = true -> is_nan x = false /\ is_zero x = false /\ is_inf x = true /\ fabs_value x <> 0.
  Proof using Hw.
    intros I. rewrite (inf_ok Hw) in I. assert (Z : is_zero x = false). { unfold is_inf, is_zero in *. apply Z.eqb_eq in I. rewrite I. pose proof (inf_bound Hw). apply Z.eqb_neq; lia. }
    repeat split; auto. { unfold is_nan. unfold is_inf in I. apply Z.eqb_eq in I. rewrite I. apply Z.ltb_irrefl. } rewrite (is_zero_value Hw) in Z. now apply Z.eqb_neq.
  Qed.
  Lemma real_pos (x : word w) : negative x = false -> real x = (IZR (fabs_value x) / IZR U)%R.
  Proof using Hw. intros N. rewrite (real_eq Hw), (fvalue_abs Hw), N. now rewrite Z.mul_1_l. Qed.
  Lemma finite_top (x : word w) : is_Finite x = true -> fabs_value x < 2 ^ top_exp w.
  Proof using Hw. intros F. destruct (finite_repr Hw x F) as (k & e & _ & _ & _ & B). exact B. Qed.

  (** ** sqrt *)
  Lemma fsqrt_pos (x : word w) : is_Finite x = true -> 0 < fvalue x ->
    nearest_real (fsqrt x) (sqrt (real x)) /\ (Rabs (real (fsqrt x) - sqrt (real x)) <= 2 * uu (w := w) * sqrt (real x))%R /\
    0 < fvalue (fsqrt x) /\ 2 ^ p <= fabs_value (fsqrt x) <= 2 ^ (2 * unit_exp w - p).
  Proof using Hw.
    intros F V. assert (NG : negative x = false). { destruct (negative x) eqn:NG; [|reflexivity]. rewrite (fvalue_abs Hw), NG in V. pose proof (fabs_nonneg Hw x). lia. }
    assert (A : 0 < fabs_value x) by (rewrite (fvalue_abs Hw), NG in V; lia).
    unfold fsqrt. rewrite (finite_not_nan Hw x F), (is_zero_value Hw), NG, (finite_not_inf Hw x F). destruct (Z.eqb_spec (fabs_value x) 0) as [|_]; [lia|]. cbv zeta.
    rewrite (real_pos x NG). split; [exact (root_nearest Hw (fabs_value x) A (finite_top x F))|exact (root_rel Hw (fabs_value x) A (finite_top x F))].
  Qed.
  Lemma fsqrt_ok (x : word w) : sqrt_of x (fsqrt x).
  Proof using Hw.
    assert (Z0 : fvalue x = 0 -> fsqrt x = x). { intros V. destruct (zero_facts x V) as (Z & N & I). unfold fsqrt. now rewrite N, Z. }
    split; [|split; [|split; [|split]]].
    - intros N. unfold fsqrt. rewrite <- (nan_ok Hw), N. now apply (quiet_NaN Hw).
    - intros N V. unfold fsqrt. rewrite <- (nan_ok Hw), N. assert (NG : negative x = true). { destruct (negative x) eqn:NG; [reflexivity|]. rewrite (fvalue_abs Hw), NG in V. pose proof (fabs_nonneg Hw x). lia. }
      rewrite NG, (is_zero_value Hw). destruct (Z.eqb_spec (fabs_value x) 0) as [E|E]; [rewrite (fvalue_abs Hw), E in V; lia|]. apply indefinite_nan.
    - intros I S. destruct (inf_not_nan x I) as (N & Z & I' & _). unfold fsqrt. rewrite (sign_bit_neg Hw) in S. now rewrite N, Z, S, I'.
    - exact Z0.
    - intros F V. destruct (Z.eq_dec (fvalue x) 0) as [E|E].
      + rewrite (Z0 E). assert (R : real x = 0%R) by (rewrite (real_eq Hw), E; unfold Rdiv; apply Rmult_0_l). rewrite R, sqrt_0. split; [exact F|]. intros z _. rewrite R, Rminus_0_r, Rabs_R0. apply Rabs_pos.
      + apply fsqrt_pos; [exact F|lia].
  Qed.

  (** ** 1 / x *)
  Lemma one_facts : is_nan (of_int w 1) = false /\ is_inf (of_int w 1) = false /\ is_zero (of_int w 1) = false /\ negative (of_int w 1) = false /\ fabs_value (of_int w 1) = U.
  Proof using Hw. destruct Hw as [->| ->]; vm_compute; repeat split; reflexivity. Qed.
  Lemma smallest : fvalue (smallest_normal w) = 2 ^ p.
  Proof using Hw. destruct Hw as [->| ->]; vm_compute; reflexivity. Qed.
  Lemma fdiv_one (x : word w) : is_Finite x = true -> fabs_value x <> 0 -> fdiv (of_int w 1) x = fround w (negative x) (U * U) (fabs_value x).
  Proof using Hw.
    intros F V. destruct one_facts as (N1 & I1 & Z1 & G1 & A1). unfold fdiv, nan2. rewrite N1, I1, Z1, G1, A1, (finite_not_nan Hw x F), (finite_not_inf Hw x F), (is_zero_value Hw).
    destruct (Z.eqb_spec (fabs_value x) 0); [contradiction|]. now rewrite xorb_false_l.
  Qed.
  Lemma one_real (x : word w) : fabs_value x <> 0 -> (/ real x)%R = (IZR ((if negative x then -1 else 1) * (U * U)) / IZR (fabs_value x) / IZR U)%R /\ (real x <> 0)%R.
  Proof using Hw.
    intros V. pose proof (IUpos Hw) as IU. pose proof (fabs_nonneg Hw x) as A. assert (IV : (0 < IZR (fabs_value x))%R) by (apply IZR_lt; lia).
    rewrite (real_eq Hw), (fvalue_abs Hw). split; [destruct (negative x); rewrite !mult_IZR; field; lra|].
    assert (0 < IZR (fabs_value x) / IZR U)%R by (apply Rdiv_lt_0_compat; lra). destruct (negative x); rewrite mult_IZR; [replace (-1 * IZR (fabs_value x) / IZR U)%R with (- (IZR (fabs_value x) / IZR U))%R by (field; lra)|replace (1 * IZR (fabs_value x) / IZR U)%R with (IZR (fabs_value x) / IZR U)%R by (field; lra)]; lra.
  Qed.
  Lemma one_top (x : word w) : 2 ^ p <= fabs_value x -> 0 <= U * U /\ 0 < fabs_value x /\ U * U <= 2 ^ (top_exp w - 1) * fabs_value x.
  Proof using Hw.
    intros V. destruct (exps Hw) as (P & E & T & _). pose proof (pow_pos2 p ltac:(lia)). pose proof (Upos Hw). split; [nia|]. split; [lia|].
    apply Z.le_trans with (2 ^ (top_exp w - 1) * 2 ^ p); [|apply Z.mul_le_mono_nonneg_l; [apply Z.pow_nonneg; lia|exact V]].
    rewrite (units_pow (w := w)), <- !Z.pow_add_r by lia. apply Z.pow_le_mono_r; [lia|]. destruct Hw as [->| ->]; vm_compute; discriminate.
  Qed.
  Lemma recip_nearest (x : word w) : is_Finite x = true -> 2 ^ p <= fabs_value x -> nearest_real (fdiv (of_int w 1) x) (/ real x).
  Proof using Hw.
    intros F V. destruct (one_top x V) as (T1 & T2 & T3). rewrite (fdiv_one x F) by lia. destruct (one_real x) as (-> & _); [lia|].
    apply (nearest_R Hw); [exact T2|]. apply (fround_nearest Hw); [lia..|]. apply (below_inf Hw); lia.
  Qed.
  Lemma recip_rel (x : word w) : is_Finite x = true -> 2 ^ p <= fabs_value x <= 2 ^ (2 * unit_exp w - p) -> relative (fdiv (of_int w 1) x) (/ real x) (uu (w := w)).
  Proof using Hw.
    intros F (V & V2). destruct (one_top x V) as (T1 & T2 & T3). rewrite (fdiv_one x F) by lia. destruct (one_real x) as (-> & _); [lia|].
    assert (LB : 2 ^ p * fabs_value x <= U * U).
    { destruct (exps Hw) as (P & E & T & _). apply Z.le_trans with (2 ^ p * 2 ^ (2 * unit_exp w - p)); [apply Z.mul_le_mono_nonneg_l; [apply Z.pow_nonneg; lia|exact V2]|].
      rewrite (units_pow (w := w)), <- !Z.pow_add_r by lia. apply Z.pow_le_mono_r; lia. }
    destruct (fround_rel Hw (negative x) (U * U) (fabs_value x) T1 T2 T3 LB) as (G & NG & RE). split; [exact G|]. set (y := fround w (negative x) (U * U) (fabs_value x)) in *. set (d := fabs_value x) in *.
    pose proof (IUpos Hw) as IU. assert (ID : (0 < IZR d)%R) by (now apply IZR_lt). pose proof (mant_pos Hw) as Hp. assert (IP : (0 < IZR (2 ^ (p + 1)))%R) by (apply IZR_lt, pow_pos2; lia).
    apply IZR_le in RE. rewrite mult_IZR, abs_IZR, minus_IZR, !mult_IZR in RE. rewrite (real_eq Hw), (fvalue_abs Hw), NG. set (k := if negative x then -1 else 1).
    assert (K : Rabs (IZR k) = 1%R) by (unfold k; destruct (negative x); [rewrite Rabs_left|rewrite Rabs_pos_eq]; lra). rewrite !mult_IZR. unfold uu.
    replace (IZR k * IZR (fabs_value y) / IZR U - IZR k * (IZR U * IZR U) / IZR d / IZR U)%R with (IZR k * ((IZR (fabs_value y) * IZR d - IZR U * IZR U) * (/ IZR d * / IZR U)))%R by (field; lra).
    replace (IZR k * (IZR U * IZR U) / IZR d / IZR U)%R with (IZR k * (IZR U * IZR U * (/ IZR d * / IZR U)))%R by (field; lra).
    assert (C : (0 <= / IZR d * / IZR U)%R) by (apply Rmult_le_pos; left; now apply Rinv_0_lt_compat). rewrite !(Rabs_mult (IZR k)), K, !Rmult_1_l. rewrite (Rabs_pos_eq (IZR U * IZR U * _)) by (apply Rmult_le_pos; [nra|exact C]).
    rewrite Rabs_mult, (Rabs_pos_eq _ C), <- (Rmult_assoc (/ IZR (2 ^ (p + 1)))). apply Rmult_le_compat_r; [exact C|]. apply (Rmult_le_reg_l (IZR (2 ^ (p + 1)))); [exact IP|].
    replace (IZR (2 ^ (p + 1)) * (/ IZR (2 ^ (p + 1)) * (IZR U * IZR U)))%R with (IZR U * IZR U)%R by (field; lra). lra.
  Qed.
  Lemma recip_zero (x : word w) : fvalue x = 0 -> signed_inf x (fdiv (of_int w 1) x).
  Proof using Hw.
    intros V. destruct (zero_facts x V) as (Z & N & I). destruct one_facts as (N1 & I1 & Z1 & G1 & _). unfold signed_inf, fdiv, nan2. rewrite N, N1, I, I1, Z, Z1, G1, xorb_false_l, (sign_bit_neg Hw x). apply (inf_with_sign Hw).
  Qed.
  Lemma recip_inf (x : word w) : is_Inf x = true -> signed_zero x (fdiv (of_int w 1) x).
  Proof using Hw.
    intros V. destruct (inf_not_nan x V) as (N & Z & I & _). destruct one_facts as (N1 & I1 & Z1 & G1 & _). unfold signed_zero, fdiv, nan2. rewrite N, N1, I, I1, G1, xorb_false_l, !(sign_bit_neg Hw).
    pose proof (inf_bound Hw). rewrite (negative_with_sign Hw) by lia. split; [apply (finite_with_sign Hw); lia|]. split; [|reflexivity]. rewrite (fvalue_with_sign Hw) by lia. rewrite mval_0 by (pose proof (mant_pos Hw); lia). destruct (negative x); reflexivity.
  Qed.
  Lemma recip_nan (x : word w) : is_NaN x = true -> is_NaN (fdiv (of_int w 1) x) = true.
  Proof using Hw. intros V. destruct one_facts as (N1 & _). unfold fdiv, nan2. rewrite N1, <- (nan_ok Hw), V. now apply (quiet_NaN Hw). Qed.
  Lemma s_reciprocal_ok hi (x : word w) : reciprocal_of hi nearest_real x (s_reciprocal x).
  Proof using Hw.
    unfold s_reciprocal. split; [apply recip_nan|]. split; [apply recip_inf|]. split; [apply recip_zero|]. intros F T _. apply recip_nearest; [exact F|]. unfold not_tiny in T. rewrite smallest, <- (fabs_abs Hw) in T. exact T.
  Qed.
  (** ** 1 / sqrt x *)
  Lemma rsqrt_rel (x : word w) : is_Finite x = true -> 0 < fvalue x -> relative (s_rsqrt x) (/ sqrt (real x)) (4 * uu (w := w)).
  Proof using Hw.
    intros F V. destruct (fsqrt_pos x F V) as ((G & _) & R & P & B). unfold s_rsqrt, s_sqrt. destruct (recip_rel (fsqrt x) G B) as (H & E). split; [exact H|]. set (y := fdiv (of_int w 1) (fsqrt x)) in *. set (s := real (fsqrt x)) in *.
    assert (RP : (0 < real x)%R) by (rewrite (real_eq Hw); apply Rdiv_lt_0_compat; [now apply IZR_lt|apply (IUpos Hw)]). apply sqrt_lt_R0 in RP. set (r := sqrt (real x)) in *.
    assert (UU : (0 < uu (w := w) <= / 2 ^ 20)%R). { split; [apply (uu_pos Hw)|]. unfold uu. destruct Hw as [->| ->]; apply Rinv_le_contravar; try (apply pow_lt; lra); rewrite pow_IZR; apply IZR_le; vm_compute; discriminate. }
    set (u := uu (w := w)) in *. replace (/ 2 ^ 20)%R with (/ 1048576)%R in UU by lra.
    assert (SP : (r * (1 - 2 * u) <= s <= r * (1 + 2 * u))%R). { assert (A := Rabs_def2 (s - r) (2 * u * r + u * r) ltac:(nra)). split_Rabs; nra. }
    assert (S0 : (0 < s)%R) by nra. rewrite (Rabs_pos_eq (/ s)) in E by (left; now apply Rinv_0_lt_compat). rewrite (Rabs_pos_eq (/ r)) by (left; now apply Rinv_0_lt_compat).
    assert (IS : (Rabs (/ s - / r) <= 5 / 2 * u * / r)%R).
    { replace (/ s - / r)%R with ((r - s) * (/ s * / r))%R by (field; lra). assert (IR : (0 < / r)%R) by (now apply Rinv_0_lt_compat). assert (IS : (0 < / s)%R) by (now apply Rinv_0_lt_compat).
      rewrite Rabs_mult, (Rabs_pos_eq (/ s * / r)) by nra. assert (D : (Rabs (r - s) <= 5 / 2 * u * s)%R) by (apply Rabs_le; nra).
      apply Rle_trans with (5 / 2 * u * s * (/ s * / r))%R; [apply Rmult_le_compat_r; [nra|exact D]|]. right. field. lra. }
    assert (IB : (/ s <= 5 / 4 * / r)%R). { assert (A := Rle_abs (/ s - / r)). assert (IR : (0 < / r)%R) by (now apply Rinv_0_lt_compat). nra. }
    replace (real y - / r)%R with ((real y - / s) + (/ s - / r))%R by ring. eapply Rle_trans; [apply Rabs_triang|]. assert (u * / s <= u * (5 / 4 * / r))%R by (apply Rmult_le_compat_l; lra). assert (IR : (0 < / r)%R) by (now apply Rinv_0_lt_compat). nra.
  Qed.
  Lemma s_rsqrt_ok (x : word w) : rsqrt_of (fun y r => relative y r (4 * uu (w := w))) x (s_rsqrt x) /\ (is_NaN x = false -> fvalue x < 0 -> is_NaN (s_rsqrt x) = true).
  Proof using Hw.
    destruct (fsqrt_ok x) as (S1 & S2 & S3 & S4 & S5). assert (NV : is_NaN x = false -> fvalue x < 0 -> is_NaN (s_rsqrt x) = true) by (intros N V; unfold s_rsqrt, s_sqrt; apply recip_nan; auto). split; [|exact NV].
    split; [|split; [|split; [|split]]].
    - intros N. unfold s_rsqrt, s_sqrt. apply recip_nan. auto.
    - intros N T S. apply NV; [exact N|]. unfold not_tiny in T. rewrite smallest in T. rewrite (sign_bit_neg Hw) in S. rewrite (fvalue_abs Hw), S in T |- *. pose proof (fabs_nonneg Hw x). pose proof (pow_pos2 p ltac:(pose proof (mant_pos Hw); lia)). lia.
    - intros I S. unfold s_rsqrt, s_sqrt. rewrite (S3 I S). now apply recip_inf.
    - intros V. unfold s_rsqrt, s_sqrt. rewrite (S4 V). now apply recip_zero.
    - intros F T S. apply rsqrt_rel; [exact F|]. unfold not_tiny in T. rewrite smallest in T. rewrite (sign_bit_neg Hw) in S. rewrite (fvalue_abs Hw), S in T |- *. pose proof (fabs_nonneg Hw x). pose proof (pow_pos2 p ltac:(pose proof (mant_pos Hw); lia)). lia.
  Qed.
  Lemma relative_weaken (y : word w) r e e' : (e <= e')%R -> relative y r e -> relative y r e'.
  Proof using. intros H (F & E). split; [exact F|]. eapply Rle_trans; [exact E|]. apply Rmult_le_compat_r; [apply Rabs_pos|exact H]. Qed.
End W.
