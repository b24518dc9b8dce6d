(** mathematical functions of the Scalar vectors (proofs). *)
From Coq Require Import ZArith List Bool Lia.
From Verif.Spec Require Import Seq FloatSpec RoundSpec CastSpec MathSpec ScalarSpec.
From Verif.Model Require Import Word Fp FpArith ScalarMath.
Import ListNotations.
Local Open Scope Z_scope.
From Verif.Proof Require Import WordP FpP FpArithP FpIntP ConvertP MathP ScalarMathP.

Lemma value_inj {w} (Hw : fp_width w) (x y : word w) : fvalue x = fvalue y -> 0 < fvalue x -> x = y.
Proof.
  intros E P. pose proof P as P'. rewrite E in P'. rewrite (fvalue_mval Hw) in E, P. rewrite (fvalue_mval Hw y) in E, P'.
  destruct (fields Hw x) as (_ & _ & Rx). destruct (fields Hw y) as (_ & _ & Ry).
  pose proof (mval_nonneg Hw (magnitude x) ltac:(lia)). pose proof (mval_nonneg Hw (magnitude y) ltac:(lia)).
  rewrite <- (with_sign_eta Hw x), <- (with_sign_eta Hw y). destruct (negative x), (negative y); try lia. f_equal.
  pose proof (mval_mono Hw (magnitude x) (magnitude y) ltac:(lia) ltac:(lia)) as M1. pose proof (mval_mono Hw (magnitude y) (magnitude x) ltac:(lia) ltac:(lia)) as M2.
  rewrite (proj2 (Z.ltb_ge _ _)) in M1 by lia. rewrite (proj2 (Z.ltb_ge _ _)) in M2 by lia. symmetry in M1, M2. apply Z.ltb_ge in M1, M2. lia.
Qed.
Lemma just_below_value {w} (Hw : fp_width w) : fvalue (just_below_half w) = below_half (w := w) /\ 0 < fvalue (just_below_half w).
Proof. destruct Hw as [->| ->]; vm_compute; auto. Qed.
Lemma mant_frac {w} (Hw : fp_width w) : frac_bits w = mant_bits w.
Proof. destruct Hw as [->| ->]; reflexivity. Qed.
Lemma large_multiple {w} (Hw : fp_width w) (x : word w) : is_Finite x = true -> 2 ^ mant_bits w * one_units w <= Z.abs (fvalue x) -> fvalue x = fvalue x / one_units w * one_units w.
Proof.
  intros F B. destruct (add_half_large Hw x F B) as (_ & A). destruct (exps' Hw) as (P & Q & T & E & HP). destruct (odd_case _) eqn:O.
  - assert (V : fvalue x = (fvalue (fadd x (s_half w)) / one_units w - 1) * one_units w) by lia. rewrite V at 2. rewrite Z.div_mul by lia. exact V.
  - assert (V : fvalue x = (fvalue (fadd x (s_half w)) / one_units w) * one_units w) by lia. rewrite V at 2. rewrite Z.div_mul by lia. exact V.
Qed.
Lemma round_finite_ok {w} (Hw : fp_width w) (x : word w) : is_Finite x = true -> x <> just_below_half w -> (forall z, ~ large_odd x z) ->
  is_Finite (s_round x) = true /\ exists z, is_round (fvalue x) (one_units w) z /\ fvalue (s_round x) = z * one_units w.
Proof.
  intros F NB NO. destruct (exps' Hw) as (P & Q & T & E & HP). destruct (Z_lt_le_dec (Z.abs (fvalue x)) (2 ^ mant_bits w * one_units w)) as [S|L].
  - apply (round_small Hw); auto. intros V. apply NB. destruct (just_below_value Hw) as (J1 & J2). apply (value_inj Hw); [congruence|]. rewrite V, <- J1. exact J2.
  - destruct (round_large Hw x F L) as (A & B). split; [exact A|]. pose proof (large_multiple Hw x F L) as M. exists (fvalue x / one_units w).
    destruct (odd_case (fvalue x)) eqn:O.
    + exfalso. apply (NO (fvalue x / one_units w)). unfold odd_case in O. apply andb_prop in O. destruct O as (O & O3). apply andb_prop in O. destruct O as (O1 & O2).
      apply Z.leb_le in O1. apply Z.ltb_lt in O2. apply Z.odd_spec in O3. unfold large_odd, has_value. rewrite (fone_units Hw), (mant_frac Hw). repeat split; auto.
      * rewrite M, Z.abs_mul, (Z.abs_eq (one_units w)) in O1 by lia. apply (Z.mul_le_mono_pos_r _ _ (one_units w)); [lia|exact O1].
      * rewrite M, Z.abs_mul, (Z.abs_eq (one_units w)) in O2 by lia. apply (Z.mul_lt_mono_pos_r (one_units w)); [lia|exact O2].
    + split; [|rewrite B, Z.add_0_r; exact M]. left. rewrite <- M, Z.sub_diag. cbn. lia.
Qed.
Lemma fadd_nonneg {w} (Hw : fp_width w) (a b : word w) : is_Finite a = true -> is_Finite b = true -> negative b = false -> 0 <= fvalue a + fvalue b -> negative (fadd a b) = false.
Proof.
  intros Fa Fb Nb D. unfold fadd, nan2, fadd_num. rewrite !(finite_not_nan Hw), !(finite_not_inf Hw) by auto. rewrite Nb, andb_false_r. pose proof (inf_bound Hw).
  destruct (Z.eqb_spec (fvalue a + fvalue b) 0); [apply (negative_with_sign Hw); lia|]. unfold fround. rewrite (negative_with_sign Hw); [apply Z.ltb_ge; lia|].
  pose proof (round_magnitude_bound Hw (Z.abs (fvalue a + fvalue b)) 1 ltac:(lia) ltac:(lia)). lia.
Qed.
Lemma zero_words {w} (Hw : fp_width w) (x : word w) : fvalue x = 0 -> negative x = false -> x = w0 w.
Proof.
  intros V N. rewrite (fvalue_mval Hw), N in V. destruct (fields Hw x) as (_ & _ & R). pose proof (mval_lt (mant_bits w) 0 (magnitude x) (mant_nonneg Hw) ltac:(lia)) as L.
  rewrite mval_0 in L by apply (mant_nonneg Hw). rewrite <- (with_sign_eta Hw x), N. replace (magnitude x) with 0 by lia. destruct Hw as [->| ->]; apply word_ext; vm_compute; reflexivity.
Qed.
Lemma s_copysign_eq {w} (Hw : fp_width w) (m s : word w) : s_copysign w m s = with_sign w (negative s) (magnitude m).
Proof.
  rewrite <- (copysign_lane Hw). unfold s_copysign, wor, wand. rewrite bits_sign. pose proof (sign_pos Hw). pose proof (mod_sign Hw) as M. change (modulus w) with (2 ^ bits w) in M.
  assert (U : forall z, 0 <= z < 2 ^ bits w -> uval (mkw w z) = z) by (intros z Z0; rewrite uval_mkw; apply Z.mod_small; exact Z0).
  rewrite !(U (sign_weight w)), !(U (sign_weight w - 1)) by lia.
  assert (L : forall a b, 0 <= a -> 0 <= b < 2 ^ bits w -> 0 <= Z.land a b < 2 ^ bits w).
  { intros a b A B. split; [apply Z.land_nonneg; lia|]. destruct (Z.eq_dec (Z.land a b) 0) as [->|N]; [lia|]. assert (0 <= Z.land a b) by (apply Z.land_nonneg; lia). apply Z.log2_lt_pow2; [lia|]. pose proof (Z.log2_land a b ltac:(lia) ltac:(lia)) as G.
    destruct (Z.eq_dec b 0) as [->|NB]; [rewrite Z.land_0_r in N; lia|]. assert (Z.log2 b < bits w) by (apply Z.log2_lt_pow2; lia). lia. }
  pose proof (uval_range s). pose proof (uval_range m). change (modulus w) with (2 ^ bits w) in *. rewrite !U by (apply L; lia). reflexivity.
Qed.

Lemma sval_small w z : (0 < w)%nat -> - (modulus w / 2) <= z < modulus w / 2 -> sval (mkw w z) = z.
Proof.
  intros Hw H. pose proof (modulus_even w Hw). pose proof (modulus_pos w). unfold sval, to_signed. rewrite uval_mkw.
  destruct (Z_le_dec 0 z).
  - rewrite Z.mod_small by lia. destruct (Z.ltb_spec z (modulus w / 2)); lia.
  - replace (z mod modulus w) with (z + modulus w) by (rewrite <- (Z.mod_add z 1) by lia; rewrite Z.mod_small; lia). destruct (Z.ltb_spec (z + modulus w) (modulus w / 2)); lia.
Qed.

Lemma C36_scalar_main :
  forall w (x : word w), w = 4%nat \/ w = 8%nat ->
    let ok R y := rounded_value R x y /\ (is_Finite x = true -> sign_bit y = sign_bit x) in
    ok is_trunc (s_trunc x) /\ ok is_floor (s_floor x) /\ ok is_ceil (s_ceil x).
Proof.
  intros w x Hw ok. split; [|split]; [apply (round_to_ok Hw ToZero)|apply (round_to_ok Hw Down)|apply (round_to_ok Hw Up)].
Qed.

Lemma C36_scalar_round_partial_main :
  forall w (x : word w), w = 4%nat \/ w = 8%nat -> x <> just_below_half w -> (forall z, ~ large_odd x z) ->
    rounded_value is_round x (s_round x).
Proof.
  intros w x Hw NB NO. split; [|split].
  - intros F. destruct (round_finite_ok Hw x F NB NO) as (A & z & Z1 & Z2). exists z. unfold has_value. rewrite (fone_units Hw). auto.
  - apply (round_nan Hw).
  - apply (round_inf Hw).
Qed.

Lemma C36_scalar_round_refuted_main :
  forall w, w = 4%nat \/ w = 8%nat ->
    (2 * fvalue (just_below_half w) < fone w /\ has_value (s_round (just_below_half w)) 1) /\
    (forall (x : word w) z, large_odd x z -> has_value (s_round x) (z + 1)).
Proof.
  intros w Hw. split; [split; [|split]; destruct Hw as [->| ->]; vm_compute; reflexivity|].
  intros x z ((F & V) & O & B1 & B2). rewrite (fone_units Hw) in V. rewrite (mant_frac Hw) in B1, B2. destruct (exps' Hw) as (P & Q & T & E & HP).
  assert (L : 2 ^ mant_bits w * one_units w <= Z.abs (fvalue x)) by (rewrite V, Z.abs_mul, (Z.abs_eq (one_units w)) by lia; apply Z.mul_le_mono_nonneg_r; lia).
  destruct (round_large Hw x F L) as (A & B). unfold has_value. rewrite (fone_units Hw). split; [exact A|]. rewrite B.
  assert (OC : odd_case (w := w) (fvalue x) = true).
  { unfold odd_case. apply andb_true_intro. split; [apply andb_true_intro; split|].
    - apply Z.leb_le. exact L.
    - apply Z.ltb_lt. rewrite V, Z.abs_mul, (Z.abs_eq (one_units w)) by lia. apply Z.mul_lt_mono_pos_r; lia.
    - rewrite V, Z.div_mul by lia. now apply Z.odd_spec. }
  rewrite OC, V. ring.
Qed.

Lemma C36_scalar_round_zero_refuted_main :
  forall w (x : word w), w = 4%nat \/ w = 8%nat -> is_Finite x = true -> sign_bit x = true -> - fone w <= 2 * fvalue x ->
    fvalue (s_round x) = 0 /\ sign_bit (s_round x) = false.
Proof.
  intros w x Hw F S B. rewrite (sign_bit_neg Hw) in S. rewrite (fone_units Hw) in B. destruct (exps' Hw) as (P & Q & T & E & HP). destruct (half_ok Hw) as (Fh & Vh & Nh).
  assert (V : fvalue x <= 0) by (rewrite (fvalue_abs Hw), S; pose proof (fabs_nonneg Hw x); lia).
  assert (P2 : 2 <= 2 ^ mant_bits w) by (change 2 with (2 ^ 1) at 1; apply Z.pow_le_mono_r; lia).
  assert (SM : Z.abs (fvalue x) < 2 ^ mant_bits w * one_units w) by (apply Z.lt_le_trans with (2 * one_units w); [lia|apply Z.mul_le_mono_nonneg_r; lia]).
  set (H := 2 ^ (unit_exp w - 1)) in *. set (U := one_units w) in *.
  assert (EH : s_is_even_half x = false).
  { rewrite (even_half_small Hw x F SM). fold H U. destruct (Z.eq_dec (fvalue x) 0) as [->|NZ]; [rewrite Z.mod_0_l by lia; apply Z.eqb_neq; lia|].
    apply Z.eqb_neq. rewrite <- (Z.mod_unique_pos (fvalue x) (2 * U) (-1) (fvalue x + 2 * U)) by lia. lia. }
  assert (NB : fvalue x <> below_half (w := w)) by (destruct (just_below_value Hw) as (J1 & J2); lia).
  destruct (add_half Hw x F SM NB) as (A1 & A2). fold H U in A2. destruct (floor_ok Hw _ A1) as (B1 & B2 & B3). fold U in B2. rewrite A2, (Z.div_small (fvalue x + H) U), Z.mul_0_l in B2 by lia.
  rewrite (fadd_nonneg Hw) in B3 by (auto; rewrite Vh; fold H; lia). unfold s_round. rewrite EH, (zero_words Hw _ B2 B3). rewrite (sign_bit_neg Hw). destruct Hw as [->| ->]; vm_compute; auto.
Qed.

Lemma C38_scalar_main :
  forall w (x y : word w), w = 4%nat \/ w = 8%nat ->
    s_isnan x = is_NaN x /\ s_isinf x = is_Inf x /\ s_isfinite x = is_Finite x /\
    (same_magnitude x (s_fabs x) /\ sign_bit (s_fabs x) = false) /\
    (same_magnitude x (s_copysign w x y) /\ sign_bit (s_copysign w x y) = sign_bit y).
Proof.
  intros w x y Hw. split; [symmetry; apply (nan_ok Hw)|]. split; [symmetry; apply (inf_ok Hw)|]. split; [symmetry; apply (finite_mag Hw)|].
  split; [apply (with_sign_same Hw)|]. rewrite (s_copysign_eq Hw), (sign_bit_neg Hw y). apply (with_sign_same Hw).
Qed.

Lemma C38_scalar_minmax_main :
  forall w (x y : word w), w = 4%nat \/ w = 8%nat ->
    (is_NaN x = false -> is_NaN y = false -> is_min x y (s_min x y) /\ is_max x y (s_max x y)) /\
    (is_NaN x = true \/ is_NaN y = true \/ fvalue x = fvalue y -> s_min x y = x /\ s_max x y = x).
Proof.
  intros w x y Hw. unfold s_min, s_max, is_min, is_max. rewrite !(flt_ok Hw). unfold float_lt, ordered. split.
  - intros -> ->. cbn [negb andb]. destruct (Z.ltb_spec (fvalue y) (fvalue x)), (Z.ltb_spec (fvalue x) (fvalue y)); repeat split; auto; lia.
  - intros [-> | [-> | ->]]; cbn [negb andb]; rewrite ?andb_false_r; cbn [negb andb]; auto. rewrite Z.ltb_irrefl, !andb_false_r. auto.
Qed.

Lemma C38_scalar_abs_int_main :
  (forall x : word 4, sval x <> - 2 ^ 31 -> exists y, s_abs_int x = Some y /\ sval y = Z.abs (sval x)) /\
  (forall x : word 4, sval x = - 2 ^ 31 -> s_abs_int x = None) /\
  (forall x : word 2, sval (s_abs_short x) = if sval x =? - 2 ^ 15 then - 2 ^ 15 else Z.abs (sval x)).
Proof.
  assert (R4 : forall x : word 4, - 2 ^ 31 <= sval x < 2 ^ 31) by (intros x; apply (sval_range x); lia). assert (R2 : forall x : word 2, - 2 ^ 15 <= sval x < 2 ^ 15) by (intros x; apply (sval_range x); lia).
  split; [|split].
  - intros x N. unfold s_abs_int. rewrite (proj2 (Z.eqb_neq _ _)) by auto. eexists. split; [reflexivity|]. specialize (R4 x). apply sval_small; [lia|]. change (modulus 4 / 2) with (2 ^ 31). lia.
  - intros x E. unfold s_abs_int. rewrite E. reflexivity.
  - intros x. unfold s_abs_short. specialize (R2 x). destruct (Z.eqb_spec (sval x) (- 2 ^ 15)) as [-> |N]; [reflexivity|].
    apply sval_small; [lia|]. change (modulus 2 / 2) with (2 ^ 15). lia.
Qed.

Lemma C47_scalar_main :
  (forall w (a b c : word w), w = 4%nat \/ w = 8%nat -> is_Finite a = true -> is_Finite b = true -> is_Finite c = true ->
     exists neg, (fma_exact a b c <> 0 -> neg = (fma_exact a b c <? 0)) /\ rounded (s_fma a b c) neg (Z.abs (fma_exact a b c)) (fone w)) /\
  (forall w (a b c : word w), uval (s_fma_int a b c) = (uval a * uval b + uval c) mod 2 ^ (8 * Z.of_nat w)).
Proof.
  split.
  - intros w a b c Hw Fa Fb Fc. unfold s_fma, ffma, fma_exact. rewrite !(finite_not_nan Hw), !(finite_not_inf Hw) by auto. cbn [orb]. rewrite (fone_units Hw). destruct (exps' Hw) as (P & Q & T & E & HP).
    set (v := fvalue a * fvalue b + fvalue c * one_units w) in *. destruct (Z.eqb_spec v 0) as [Z0|NZ].
    + rewrite Z0. exists (xorb (negative a) (negative b) && negative c). split; [lia|].
      pose proof (fround_rounded Hw (xorb (negative a) (negative b) && negative c) 0 (one_units w) ltac:(lia) ltac:(lia)) as R.
      rewrite (fround_exact Hw _ 0 (one_units w) 0) in R; [exact R|lia|pose proof (inf_bound Hw); lia|rewrite mval_0 by apply (mant_nonneg Hw); lia].
    + exists (v <? 0). split; [auto|]. apply (fround_rounded Hw); lia.
  - intros w a b c. unfold s_fma_int, wadd, wmul. rewrite !uval_mkw. rewrite Z.add_mod_idemp_l by (pose proof (modulus_pos w); lia). reflexivity.
Qed.
