(** The conversions of Model/SseConvert lane by lane. *)
From Coq Require Import ZArith List Bool Lia.
From Verif.Spec Require Import Seq FloatSpec RoundSpec CastSpec.
From Verif.Model Require Import Word Fp FpArith SseReg SseMove SortNet SseInt SseBuild SseArith SseMask SseConvert.
From Verif.Proof Require Import SeqP WordP FpP FpArithP FpIntP SseIntP SseEmulP.
Import ListNotations.
Local Open Scope Z_scope.

(** ** one lane *)
Lemma nearest_exact {w} (Hw : fp_width w) (x : word w) n d : 0 < d -> is_Finite x = true -> fvalue x * d = n -> nearest x n d.
Proof. intros D F E. split; [exact F|]. intros y Fy. rewrite E. replace (n - n) with 0 by lia. cbn [Z.abs]. split; [lia|]. intros H NE. exfalso. apply NE. nia. Qed.
Lemma rounded_exact {w} (Hw : fp_width w) (x : word w) n d : 0 < d -> is_Finite x = true -> fabs_value x * d = n -> rounded x (sign_bit x) n d.
Proof.
  intros D F E. split; [reflexivity|]. split; intros B.
  - apply nearest_exact; auto. rewrite (fvalue_abs Hw), (sign_bit_neg Hw). destruct (negative x); lia.
  - exfalso. destruct (finite_repr Hw x F) as (k & e & K & Ee & V & T).
    assert (X : fabs_value x < overflow_at w); [|nia].
    rewrite (fabs_mval Hw). apply Z.le_lt_trans with (mval (mant_bits w) (inf_magnitude w - 1)).
    + apply (mval_le _ (mant_pos Hw)). destruct (fields Hw x) as (_ & _ & R). lia. rewrite (finite_mag Hw) in F. apply Z.ltb_lt in F. lia.
    + destruct Hw as [->| ->]; vm_compute; reflexivity.
Qed.

Lemma overflow_mid {w} (Hw : fp_width w) : 2 * overflow_at w = mval (mant_bits w) (inf_magnitude w - 1) + mval (mant_bits w) (inf_magnitude w).
Proof. destruct Hw as [->| ->]; vm_compute; reflexivity. Qed.
Lemma inf_odd {w} (Hw : fp_width w) : Z.even (inf_magnitude w - 1) = false.
Proof. destruct Hw as [->| ->]; reflexivity. Qed.
Lemma round_overflow {w} (Hw : fp_width w) n d : 0 <= n -> 0 < d ->
  (n < overflow_at w * d -> round_magnitude w n d < inf_magnitude w) /\ (overflow_at w * d <= n -> round_magnitude w n d = inf_magnitude w).
Proof.
  intros Hn Hd. pose proof (overflow_mid Hw) as OM. pose proof (inf_odd Hw) as IO. pose proof (mant_pos Hw) as MP. pose proof (inf_bound Hw) as IB.
  destruct (rnd_spec _ MP n d Hn Hd) as (m0 & M0 & B & C). rewrite (round_magnitude_rnd).
  set (I := inf_magnitude w) in *. set (q := mant_bits w) in *. set (r := rnd q n d) in *.
  pose proof (mval_lt q (I - 1) I ltac:(lia) ltac:(lia) ltac:(lia)) as MI.
  split; intros H.
  - assert (m0 <= I - 1). { assert (m0 < I); [|lia]. apply (mval_lt_inv q MP); try lia. nia. }
    destruct (Z.eq_dec m0 (I - 1)) as [->|]; [|destruct C as [(-> & _)|(-> & _)]; lia].
    replace (I - 1 + 1) with I in * by lia. destruct C as [(-> & _)|(_ & C & _)]; [lia|nia].
  - apply Z.min_l. destruct (Z_le_dec I m0); [destruct C as [(-> & _)|(-> & _)]; lia|].
    assert (I - 1 <= m0). { destruct (Z_lt_dec m0 (I - 1)); [|lia]. pose proof (mval_le q MP (m0 + 1) (I - 1) ltac:(lia) ltac:(lia)). nia. }
    assert (m0 = I - 1) by lia. subst m0. replace (I - 1 + 1) with I in * by lia.
    destruct C as [(R & C & T)|(-> & _)]; [|lia]. rewrite T in IO; [discriminate|nia].
Qed.
Lemma fround_rounded {w} (Hw : fp_width w) neg n d : 0 <= n -> 0 < d -> rounded (fround w neg n d) neg n d.
Proof.
  intros Hn Hd. destruct (round_overflow Hw n d Hn Hd) as (O1 & O2). pose proof (round_magnitude_bound Hw n d Hn Hd) as RB. pose proof (inf_bound Hw) as IB.
  split; [|split].
  - rewrite (sign_bit_neg Hw). apply (negative_with_sign Hw). lia.
  - intros H. replace (if neg then - n else n) with ((if neg then -1 else 1) * n) by (destruct neg; lia). apply (fround_nearest Hw); auto.
  - intros H. unfold fround. rewrite O2 by exact H. unfold is_Inf, all_ones_exponent. set (x := with_sign w neg (inf_magnitude w)).
    destruct (fields Hw x) as (-> & -> & _). unfold x. rewrite (magnitude_with_sign Hw) by lia. destruct Hw as [->| ->]; reflexivity.
Qed.

(** infinity and NaN *)
Lemma inf_ok {w} (Hw : fp_width w) (x : word w) : is_Inf x = is_inf x.
Proof.
  unfold is_Inf, all_ones_exponent, is_inf. destruct (fields Hw x) as (-> & -> & R). rewrite (expo_exp Hw). unfold inf_magnitude.
  pose proof (pow_pos2 _ (mant_nonneg Hw)) as P. pose proof (Z.div_mod (magnitude x) (2 ^ mant_bits w) ltac:(lia)) as D. pose proof (Z.mod_pos_bound (magnitude x) (2 ^ mant_bits w) P) as B.
  destruct (Z.eqb_spec (magnitude x / 2 ^ mant_bits w) (2 ^ exp_bits w - 1)), (Z.eqb_spec (magnitude x mod 2 ^ mant_bits w) 0),
    (Z.eqb_spec (magnitude x) ((2 ^ exp_bits w - 1) * 2 ^ mant_bits w)); auto; exfalso; try nia.
Qed.
Lemma quiet_nan {w} (Hw : fp_width w) neg f : 0 < f < 2 ^ mant_bits w -> is_NaN (quiet (with_sign w neg (inf_magnitude w + f))) = true.
Proof.
  intros F. rewrite (nan_ok Hw). unfold is_nan.
  assert (B : 0 <= inf_magnitude w + f < sign_weight w) by (assert (inf_magnitude w + 2 ^ mant_bits w = sign_weight w) by (destruct Hw as [->| ->]; reflexivity); pose proof (inf_bound Hw); lia).
  unfold quiet, magnitude. rewrite uval_mkw, (with_sign_uval Hw) by exact B.
  set (b := mant_bits w - 1). assert (Hb : 0 <= b) by (unfold b; pose proof (mant_pos Hw); lia).
  assert (M : modulus w = 2 ^ bits w) by reflexivity. assert (SW : sign_weight w = 2 ^ (bits w - 1)) by (destruct Hw as [->| ->]; reflexivity).
  assert (LE : inf_magnitude w + f <= Z.lor ((if neg then sign_weight w else 0) + (inf_magnitude w + f)) (2 ^ b) mod modulus w mod sign_weight w); [|destruct (Z.ltb_spec (inf_magnitude w) (Z.lor ((if neg then sign_weight w else 0) + (inf_magnitude w + f)) (2 ^ b) mod modulus w mod sign_weight w)); auto; lia].
  assert (E : Z.lor ((if neg then sign_weight w else 0) + (inf_magnitude w + f)) (2 ^ b) mod modulus w mod sign_weight w = Z.lor (inf_magnitude w + f) (2 ^ b)).
  { assert (SB : 0 <= b < bits w - 1) by (destruct Hw as [->| ->]; unfold b; vm_compute; split; congruence).
    rewrite M, SW. apply Z.bits_inj'. intros i Hi. rewrite <- !Z.land_ones by lia. rewrite !Z.land_spec, !Z.lor_spec.
    assert (A : 0 <= inf_magnitude w + f < 2 ^ (bits w - 1)) by (rewrite <- SW; exact B).
    destruct (Z_lt_dec i (bits w - 1)).
    - rewrite !Z.ones_spec_low, !andb_true_r by lia. f_equal. destruct neg; [|reflexivity]. rewrite Z.add_comm.
      rewrite <- (Z.mod_pow2_bits_low _ (bits w - 1) i) by lia. rewrite <- (Z.mod_pow2_bits_low (inf_magnitude w + f) (bits w - 1) i) by lia. f_equal.
      replace (inf_magnitude w + f + 2 ^ (bits w - 1)) with (inf_magnitude w + f + 1 * 2 ^ (bits w - 1)) by lia. rewrite Z.mod_add; lia.
    - rewrite (Z.ones_spec_high (bits w - 1)) by lia. rewrite andb_false_r. symmetry. apply orb_false_intro.
      + rewrite <- (Z.mod_small (inf_magnitude w + f) (2 ^ (bits w - 1))) by lia. apply Z.mod_pow2_bits_high. lia.
      + apply Z.pow2_bits_false. lia. }
  rewrite E. rewrite <- (Z.lor_0_r (inf_magnitude w + f)) at 1.
  assert (L : forall a c, 0 <= a -> 0 <= c -> Z.lor a 0 <= Z.lor a c).
  { intros a c Ha Hc. rewrite Z.lor_0_r. assert (S : Z.lor a c = a + Z.ldiff c a).
    { rewrite Z.add_nocarry_lxor; apply Z.bits_inj'; intros n Hn; rewrite ?Z.lor_spec, ?Z.lxor_spec, ?Z.land_spec, ?Z.ldiff_spec, ?Z.bits_0; now destruct (Z.testbit c n), (Z.testbit a n). }
    assert (N : 0 <= Z.ldiff c a) by (apply Z.ldiff_nonneg; lia). lia. }
  apply L; [lia|]. apply Z.pow_nonneg. lia.
Qed.

(** ** rounding to an integral value *)
Lemma round_int_exact {w} (Hw : fp_width w) r (x : word w) z : fvalue x = z * one_units w -> round_int r x = z.
Proof.
  intros E. pose proof (one_units_pos Hw) as UP. rewrite !round_int_eq. destruct r; rewrite E.
  - now apply rne_exact.
  - now apply Z.div_mul; lia.
  - rewrite <- Z.mul_opp_l, Z.div_mul by lia. lia.
  - apply Z.quot_mul. lia.
Qed.
Lemma round_int_bounds {w} (Hw : fp_width w) r (x : word w) :
  (round_int r x - 1) * one_units w < fvalue x < (round_int r x + 1) * one_units w.
Proof.
  pose proof (one_units_pos Hw) as UP. rewrite !round_int_eq. set (d := one_units w) in *. set (n := fvalue x). destruct r.
  - pose proof (rne_cases n d UP) as RC. cbv zeta in RC. nia.
  - pose proof (Z.div_mod n d ltac:(lia)). pose proof (Z.mod_pos_bound n d UP). nia.
  - pose proof (Z.div_mod (- n) d ltac:(lia)). pose proof (Z.mod_pos_bound (- n) d UP). nia.
  - pose proof (Z.quot_rem n d ltac:(lia)). pose proof (Z.rem_bound_abs n d ltac:(lia)). nia.
Qed.
Lemma round_int_sign {w} (Hw : fp_width w) r (x : word w) : (0 <= fvalue x -> 0 <= round_int r x) /\ (fvalue x <= 0 -> round_int r x <= 0).
Proof. pose proof (round_int_bounds Hw r x). pose proof (one_units_pos Hw). split; nia. Qed.
Lemma round_int_repr {w} (Hw : fp_width w) r (x : word w) : is_Finite x = true -> exact_int (w := w) (round_int r x).
Proof.
  intros F. destruct (exps Hw) as (P & U & T & T2 & T3). pose proof (round_int_bounds Hw r x) as RB. pose proof (one_units_pos Hw) as UP.
  destruct (Z_lt_dec (fabs_value x) (2 ^ mant_bits w * one_units w)) as [Q|Q].
  - apply (exact_small Hw). rewrite (fabs_abs Hw) in Q. rewrite Z.pow_add_r by lia. change (2 ^ 1) with 2. pose proof (pow_pos2 (mant_bits w) ltac:(lia)). nia.
  - destruct (finite_repr Hw x F) as (k & e & K & E & V & B). rewrite units_pow in *. set (uu := unit_exp w) in *.
    assert (E' : uu <= e).
    { destruct (Z_le_dec uu e); [auto|]. exfalso. assert (2 ^ (e + 1) <= 2 ^ uu) by (apply Z.pow_le_mono_r; lia). rewrite Z.pow_add_r in * by lia. change (2 ^ 1) with 2 in *.
      pose proof (pow_pos2 (mant_bits w) ltac:(lia)). pose proof (pow_pos2 e ltac:(lia)). nia. }
    set (z := k * 2 ^ (e - uu)). assert (Ez : fabs_value x = z * 2 ^ uu) by (unfold z; rewrite <- Z.mul_assoc, <- Z.pow_add_r by lia; rewrite V; do 2 f_equal; lia).
    rewrite (round_int_exact Hw r x ((if negative x then -1 else 1) * z)).
    + unfold exact_int. replace (Z.abs ((if negative x then -1 else 1) * z) * one_units w) with (fabs_value x); [now apply (finite_repr Hw)|].
      rewrite units_pow. fold uu. rewrite Ez. assert (0 <= z) by (unfold z; pose proof (pow_pos2 (e - uu) ltac:(lia)); nia). destruct (negative x); nia.
    + rewrite (fvalue_abs Hw), Ez, units_pow. fold uu. ring.
Qed.
Lemma round_to_value {w} (Hw : fp_width w) r (x : word w) : is_Finite x = true ->
  is_Finite (round_to r x) = true /\ fvalue (round_to r x) = round_int r x * one_units w /\ negative (round_to r x) = negative x.
Proof.
  intros F. pose proof (round_int_repr Hw r x F) as R. unfold round_to. rewrite (finite_not_nan Hw), (finite_not_inf Hw) by auto.
  destruct (fround_repr Hw (negative x) _ 1 _ ltac:(lia) R ltac:(rewrite Z.mul_1_r; reflexivity)) as (F' & V & N).
  split; [exact F'|]. split; [|exact N]. rewrite (fvalue_abs Hw), V, N. destruct (round_int_sign Hw r x) as (S1 & S2). pose proof (fvalue_abs Hw x) as FA. pose proof (fabs_nonneg Hw x).
  destruct (negative x); [rewrite Z.abs_neq by lia|rewrite Z.abs_eq by lia]; ring.
Qed.

(** ** lanes of the casts *)
Lemma bits_mod e : 2 ^ (8 * Z.of_nat (esize e)) = modulus (esize e).
Proof. reflexivity. Qed.
Lemma int_value_range e (x : elt e) : Z.abs (int_value e x) <= 2 ^ 70.
Proof.
  unfold int_value. assert (Z.abs (uval x) <= 2 ^ 70 /\ Z.abs (sval x) <= 2 ^ 70).
  { pose proof (uval_range x). assert (modulus (esize e) <= 2 ^ 64) by (destruct e; vm_compute; congruence).
    pose proof (sval_range x ltac:(destruct e; cbn; lia)). assert (modulus (esize e) / 2 <= 2 ^ 63) by (destruct e; vm_compute; congruence).
    assert (2 ^ 64 <= 2 ^ 70) by (vm_compute; congruence). assert (2 ^ 63 <= 2 ^ 70) by (vm_compute; congruence). lia. }
  destruct (is_signed e); tauto.
Qed.
Lemma cast_int_int from to (x : elt from) z : is_integer from = true -> is_integer to = true ->
  (z - int_value from x) mod modulus (esize to) = 0 -> cast_ok from to x (mkw (esize to) z).
Proof.
  intros I J H. unfold cast_ok. rewrite I, J, bits_mod. unfold int_value at 1. pose proof (modulus_pos (esize to)).
  assert (E : (if is_signed to then sval (mkw (esize to) z) else uval (mkw (esize to) z)) mod modulus (esize to) = z mod modulus (esize to)).
  { destruct (is_signed to); [rewrite sval_mod|]; rewrite uval_mkw; [reflexivity|]. apply Z.mod_mod. lia. }
  rewrite Zminus_mod, E, <- Zminus_mod. exact H.
Qed.
Lemma fpw to : is_integer to = false -> fp_width (esize to).
Proof. destruct to; intros H; try discriminate H; [left|right]; reflexivity. Qed.
Lemma cast_int_fp from to (x : elt from) : is_integer from = true -> is_integer to = false ->
  cast_ok from to x (of_int (esize to) (int_value from x)).
Proof. intros I J. unfold cast_ok. rewrite I, J. apply (of_int_nearest (fpw to J)). apply int_value_range. Qed.
Lemma trunc_units {w} (Hw : fp_width w) (x : word w) : Z.quot (fvalue x) (fone w) = round_int ToZero x.
Proof. now rewrite (fone_units Hw). Qed.
Lemma cast_fp_int from (x : elt from) : is_integer from = false -> cast_ok from Int x (cvt_int32 ToZero x).
Proof.
  intros I. unfold cast_ok. rewrite I. cbn [is_integer]. rewrite (trunc_units (fpw from I)). intros F R.
  unfold in_range, int_value in *. cbn [is_signed esize] in *. change (8 * Z.of_nat 4 - 1) with 31 in R. rewrite (cvt_int32_ok (fpw from I)) by (auto; lia). apply mkw4_sval. lia.
Qed.
Lemma cast_fp_short from (x : elt from) : is_integer from = false -> cast_ok from Short x (saturate_s 2 (sval (cvt_int32 ToZero x))).
Proof.
  intros I. unfold cast_ok. rewrite I. cbn [is_integer]. rewrite (trunc_units (fpw from I)). intros F R.
  unfold in_range, int_value in *. cbn [is_signed esize] in *. change (8 * Z.of_nat 2 - 1) with 15 in R. rewrite (cvt_int32_ok (fpw from I)) by (auto; lia). rewrite mkw4_sval by lia.
  unfold saturate_s. change (bits 2 - 1) with 15. rewrite sval_small; [lia|lia|]. change (modulus 2 / 2) with (2 ^ 15). lia.
Qed.
Lemma cast_fp_short' from (x : elt from) : is_integer from = false -> cast_ok from Short x (mkw 2 (uval (cvt_int32 ToZero x))).
Proof.
  intros I. unfold cast_ok. rewrite I. cbn [is_integer]. rewrite (trunc_units (fpw from I)). intros F R.
  unfold in_range, int_value in *. cbn [is_signed esize] in *. change (8 * Z.of_nat 2 - 1) with 15 in R. rewrite (cvt_int32_ok (fpw from I)) by (auto; lia).
  rewrite uval_mkw. rewrite (mkw_eq 2 (round_int ToZero x mod modulus 4) (round_int ToZero x)).
  - apply sval_small; [lia|]. change (modulus 2 / 2) with (2 ^ 15). lia.
  - change (modulus 4) with (modulus 2 * modulus 2). rewrite Z.rem_mul_r by (vm_compute; congruence).
    rewrite Z.mul_comm, Z.mod_add by (vm_compute; congruence). apply Z.mod_mod. vm_compute; congruence.
Qed.
Lemma cast_fp_ushort from (x : elt from) : is_integer from = false -> cast_ok from UShort x (mkw 2 (uval (cvt_int32 ToZero x))).
Proof.
  intros I. unfold cast_ok. rewrite I. cbn [is_integer]. rewrite (trunc_units (fpw from I)). intros F R.
  unfold in_range, int_value in *. cbn [is_signed esize] in *. change (8 * Z.of_nat 2) with 16 in R. rewrite (cvt_int32_ok (fpw from I)) by (auto; lia).
  rewrite !uval_mkw. change (modulus 4) with (2 ^ 32). change (modulus 2) with (2 ^ 16). rewrite (Z.mod_small _ (2 ^ 32)) by lia. apply Z.mod_small. lia.
Qed.
Lemma xor31 z : 0 <= z < 2 ^ 32 -> uval (wxor (mkw 4 (z - 2 ^ 31)) (mkw 4 (2 ^ 31))) = z.
Proof.
  intros H. set (r := wxor _ _). pose proof (flip_sign 4 (mkw 4 (z - 2 ^ 31)) ltac:(lia)) as FS. change (bits 4 - 1) with 31 in FS. fold r in FS.
  rewrite <- (sval_mod r), FS, uval_mkw. change (modulus 4) with (2 ^ 32). change (2 ^ 32 / 2) with (2 ^ 31). rewrite Zminus_mod_idemp_l.
  replace (z - 2 ^ 31 - 2 ^ 31) with (z + (-1) * 2 ^ 32) by lia. rewrite Z.mod_add by lia. apply Z.mod_small. lia.
Qed.
Definition f2u {w} (x : word w) : word 4 :=
  if fle (of_int w (2 ^ 31)) x then wxor (cvt_int32 ToZero (fsub x (of_int w (2 ^ 31)))) (mkw 4 (2 ^ 31)) else cvt_int32 ToZero x.
Lemma exact31 {w} (Hw : fp_width w) : exact_int (w := w) (2 ^ 31).
Proof. change (2 ^ 31) with (1 * 2 ^ 31). destruct (exps Hw) as (P & _). apply (exact_pow Hw); [apply Z.pow_gt_1; lia|lia]. Qed.
Lemma quot_bounds n d z : 0 < d -> 0 <= z -> Z.quot n d = z -> (z - 1) * d < n < (z + 1) * d /\ (0 < z -> z * d <= n).
Proof. intros D Hz E. pose proof (Z.quot_rem n d ltac:(lia)). pose proof (Z.rem_bound_abs n d ltac:(lia)). pose proof (Z.rem_sign_nz n d ltac:(lia)). split; [nia|]. intros. assert (0 <= Z.rem n d); [|nia]. apply Z.rem_nonneg; nia. Qed.
Lemma finite_not_NaN {w} (x : word w) : is_Finite x = true -> is_NaN x = false.
Proof. unfold is_Finite, is_NaN. now destruct (all_ones_exponent x). Qed.
Lemma f2u_value {w} (Hw : fp_width w) (x : word w) : is_Finite x = true -> 0 <= round_int ToZero x < 2 ^ 32 -> uval (f2u x) = round_int ToZero x.
Proof.
  intros F R. destruct (of_int_exact Hw _ (exact31 Hw)) as (F31 & V31 & _). pose proof (one_units_pos Hw) as UP. set (z := round_int ToZero x) in *.
  destruct (quot_bounds (fvalue x) (one_units w) z UP ltac:(lia) eq_refl) as (QB & QP).
  unfold f2u. rewrite (fle_ok Hw). unfold float_le, ordered. rewrite !finite_not_NaN by auto. cbn [negb andb]. rewrite V31.
  destruct (Z.leb_spec (2 ^ 31 * one_units w) (fvalue x)) as [L|L].
  - pose proof (sub31_repr Hw x F ltac:(nia)) as SR. destruct (fsub_repr Hw x _ F F31 SR) as (FS & VS). rewrite V31 in VS.
    assert (RI : round_int ToZero (fsub x (of_int w (2 ^ 31))) = z - 2 ^ 31).
    { rewrite !round_int_eq. rewrite VS. assert (2 ^ 31 <= z) by nia. specialize (QP ltac:(lia)). symmetry. apply Z.quot_unique with (r := fvalue x - z * one_units w); nia. }
    rewrite (cvt_int32_ok Hw) by (auto; rewrite RI; lia). rewrite RI. apply xor31. lia.
  - assert (z < 2 ^ 31). { destruct (Z_lt_dec z (2 ^ 31)); [auto|]. specialize (QP ltac:(lia)). nia. }
    rewrite (cvt_int32_ok Hw) by (auto; fold z; lia). fold z. apply mkw_small. change (modulus 4) with (2 ^ 32). lia.
Qed.
Lemma cast_fp_uint from (x : elt from) : is_integer from = false -> cast_ok from UInt x (f2u x).
Proof.
  intros I. unfold cast_ok. rewrite I. cbn [is_integer]. rewrite (trunc_units (fpw from I)). intros F R.
  unfold in_range, int_value in *. cbn [is_signed esize] in *. apply (f2u_value (fpw from I)); auto.
Qed.
Definition d2u (x : word 8) : word 4 := wxor (cvt_int32 ToZero (fsub (round_to Down x) (of_int 8 (2 ^ 31)))) (mkw 4 (2 ^ 31)).
Lemma d2u_value (x : word 8) : is_Finite x = true -> 0 <= round_int ToZero x < 2 ^ 32 -> uval (d2u x) = round_int ToZero x.
Proof.
  intros F R. pose proof (one_units_pos fp8) as UP. set (z := round_int ToZero x) in *.
  destruct (quot_bounds (fvalue x) (one_units 8) z UP ltac:(lia) eq_refl) as (QB & QP).
  destruct (round_to_value fp8 Down x F) as (F' & V' & _). set (f := round_int Down x) in *.
  assert (FB : f * one_units 8 <= fvalue x < (f + 1) * one_units 8).
  { unfold f. rewrite round_int_eq. pose proof (Z.div_mod (fvalue x) (one_units 8) ltac:(lia)). pose proof (Z.mod_pos_bound (fvalue x) (one_units 8) UP). nia. }
  assert (C : f = z \/ (z = 0 /\ f = -1)) by (destruct (Z.eq_dec z 0) as [->|]; [|specialize (QP ltac:(lia))]; nia).
  destruct (of_int_exact fp8 _ (exact31 fp8)) as (F31 & V31 & _).
  assert (EX : exact_int (w := 8) (f - 2 ^ 31)) by (apply (exact_small fp8); change (mant_bits 8 + 1) with 53; lia).
  assert (RS : repr (w := 8) (Z.abs (fvalue (round_to Down x) - fvalue (of_int 8 (2 ^ 31))))).
  { rewrite V', V31. replace (Z.abs (f * one_units 8 - 2 ^ 31 * one_units 8)) with (Z.abs (f - 2 ^ 31) * one_units 8) by nia. exact EX. }
  destruct (fsub_repr fp8 _ _ F' F31 RS) as (FS & VS). rewrite V', V31 in VS.
  assert (RI : round_int ToZero (fsub (round_to Down x) (of_int 8 (2 ^ 31))) = f - 2 ^ 31) by (apply (round_int_exact fp8); rewrite VS; ring).
  unfold d2u. destruct C as [C|(C & C')].
  - rewrite (cvt_int32_ok fp8) by (auto; rewrite RI; lia). rewrite RI, C. apply xor31. lia.
  - rewrite (cvt_int32_big fp8) by (auto; rewrite RI; lia). rewrite C. reflexivity.
Qed.
Lemma cast_double_uint (x : elt Double) : cast_ok Double UInt x (d2u x).
Proof.
  unfold cast_ok. cbn [is_integer]. rewrite (trunc_units (fpw Double eq_refl)). intros F R.
  unfold in_range, int_value in *. cbn [is_signed esize] in *. now apply d2u_value.
Qed.
Definition u2f (x : word 4) : word 4 :=
  if sval x <? 0 then fadd (of_int 4 (sval (wand x (mkw 4 0x7ffffe00)))) (fadd (of_int 4 (2 ^ 31)) (of_int 4 (sval (wand x (mkw 4 0x1ff))))) else of_int 4 (sval x).
Lemma sval_neg_u (x : word 4) : (sval x <? 0) = (2 ^ 31 <=? uval x) /\ sval x = if 2 ^ 31 <=? uval x then uval x - 2 ^ 32 else uval x.
Proof.
  unfold sval, to_signed. change (modulus 4 / 2) with (2 ^ 31). change (modulus 4) with (2 ^ 32). pose proof (uval_range x) as U. change (modulus 4) with (2 ^ 32) in U.
  destruct (Z.ltb_spec (uval x) (2 ^ 31)), (Z.leb_spec (2 ^ 31) (uval x)); lia.
Qed.
Lemma u2f_value (x : word 4) : u2f x = of_int 4 (uval x).
Proof.
  unfold u2f. destruct (sval_neg_u x) as (-> & SV). pose proof (uval_range x) as U. change (modulus 4) with (2 ^ 32) in U.
  destruct (Z.leb_spec (2 ^ 31) (uval x)) as [L|L]; [|now rewrite SV].
  assert (A1 : uval (wand x (mkw 4 0x1ff)) = uval x mod 512).
  { unfold wand. rewrite !uval_mkw. change (0x1ff mod modulus 4) with (Z.ones 9). rewrite Z.land_ones by lia. change (2 ^ 9) with 512. apply Z.mod_small.
    pose proof (Z.mod_pos_bound (uval x) 512 ltac:(lia)). change (modulus 4) with (2 ^ 32). lia. }
  assert (A2 : uval (wand x (mkw 4 0x7ffffe00)) = uval x - 2 ^ 31 - uval x mod 512).
  { unfold wand. rewrite !uval_mkw. change (0x7ffffe00 mod modulus 4) with (Z.shiftl (Z.ones 22) 9).
    assert (E : Z.land (uval x) (Z.shiftl (Z.ones 22) 9) = (uval x / 512) mod 2 ^ 22 * 512).
    { change 512 with (2 ^ 9). rewrite <- Z.shiftr_div_pow2, <- Z.land_ones, <- Z.shiftl_mul_pow2 by lia. apply Z.bits_inj'. intros i Hi.
      rewrite Z.land_spec. rewrite !Z.shiftl_spec, Z.land_spec by lia. destruct (Z_lt_dec i 9).
      - rewrite !Z.testbit_neg_r with (n := i - 9) by lia. now rewrite andb_false_r.
      - rewrite Z.shiftr_spec by lia. replace (i - 9 + 9) with i by lia. reflexivity. }
    rewrite E. pose proof (Z.div_mod (uval x) 512 ltac:(lia)). pose proof (Z.mod_pos_bound (uval x) 512 ltac:(lia)).
    replace ((uval x / 512) mod 2 ^ 22) with (uval x / 512 - 2 ^ 22) by (apply Z.mod_unique with (q := 1); lia). rewrite Z.mod_small; [lia|]. change (modulus 4) with (2 ^ 32). lia. }
  pose proof (Z.mod_pos_bound (uval x) 512 ltac:(lia)).
  destruct (sval_neg_u (wand x (mkw 4 0x1ff))) as (_ & ->). destruct (sval_neg_u (wand x (mkw 4 0x7ffffe00))) as (_ & ->). rewrite A1, A2.
  destruct (Z.leb_spec (2 ^ 31) (uval x - 2 ^ 31 - uval x mod 512)); [lia|]. destruct (Z.leb_spec (2 ^ 31) (uval x mod 512)); [lia|].
  apply uint_float_lane. lia.
Qed.
Definition u2d (x : word 4) : word 8 := fadd (of_int 8 (sval (wxor x (mkw 4 (2 ^ 31))))) (of_int 8 (2 ^ 31)).
Lemma u2d_value (x : word 4) : u2d x = of_int 8 (uval x).
Proof.
  unfold u2d. pose proof (flip_sign 4 x ltac:(lia)) as FS. change (bits 4 - 1) with 31 in FS. rewrite FS. change (modulus 4 / 2) with (2 ^ 31).
  pose proof (uval_range x) as U. change (modulus 4) with (2 ^ 32) in U.
  rewrite (fadd_of_int fp8); [f_equal; lia|apply (exact_small fp8); change (mant_bits 8 + 1) with 53; lia|apply (exact31 fp8)].
Qed.
Lemma inf_with_sign {w} (Hw : fp_width w) neg : is_Inf (with_sign w neg (inf_magnitude w)) = true /\ sign_bit (with_sign w neg (inf_magnitude w)) = neg.
Proof. pose proof (inf_bound Hw). rewrite (inf_ok Hw), (sign_bit_neg Hw). unfold is_inf. rewrite (magnitude_with_sign Hw), (negative_with_sign Hw), Z.eqb_refl by lia. auto. Qed.
Lemma nan_fraction {w} (Hw : fp_width w) (x : word w) : is_nan x = true -> 0 < fraction x < 2 ^ mant_bits w.
Proof.
  rewrite <- (nan_ok Hw). unfold is_NaN. intros H. apply andb_prop in H. destruct H as (_ & H). destruct (fields Hw x) as (E & _).
  pose proof (Z.mod_pos_bound (magnitude x) (2 ^ mant_bits w) (pow_pos2 _ (mant_nonneg Hw))) as B. rewrite <- E in B. destruct (Z.eqb_spec (fraction x) 0); [discriminate|]. lia.
Qed.
Lemma class_excl {w} (x : word w) : (is_Inf x = true -> is_NaN x = false) /\ (is_Finite x = true -> is_NaN x = false /\ is_Inf x = false).
Proof. unfold is_Inf, is_NaN, is_Finite. destruct (all_ones_exponent x), (fraction x =? 0); cbn; split; auto; discriminate. Qed.
Lemma cast_float_double (x : elt Float) : cast_ok Float Double x (to_double x).
Proof.
  unfold cast_ok. cbn [is_integer]. unfold elt in *. cbn [esize] in *. unfold to_double. rewrite <- (nan_ok fp4), <- (inf_ok fp4). destruct (class_excl x) as (C1 & C2). split; [|split].
  - intros N. rewrite N. apply (quiet_nan fp8). rewrite (nan_ok fp4) in N. pose proof (nan_fraction fp4 x N) as B. change (mant_bits 4) with 23 in B. change (mant_bits 8) with 52.
    change (2 ^ 52) with (2 ^ 23 * 2 ^ 29). lia.
  - intros I. rewrite (C1 I), I. rewrite (sign_bit_neg fp4). apply (inf_with_sign fp8).
  - intros F. destruct (C2 F) as (-> & ->). rewrite (sign_bit_neg fp4).
    assert (R8 : repr (w := 8) (fabs_value x * 2 ^ (1074 - 149))).
    { destruct (finite_repr fp4 x F) as (k & e & K & E & V & T). exists k, (e + (1074 - 149)). split; [|split; [lia|split]].
      - change (mant_bits 4 + 1) with 24 in K. change (mant_bits 8 + 1) with 53. assert (2 ^ 24 < 2 ^ 53) by reflexivity. lia.
      - rewrite V, Z.pow_add_r by lia. ring.
      - change (top_exp 4) with 277 in T. change (top_exp 8) with 2098. apply Z.lt_trans with (2 ^ 277 * 2 ^ (1074 - 149)); [|vm_compute; reflexivity].
        apply Z.mul_lt_mono_pos_r; [vm_compute; reflexivity|exact T]. }
    destruct (fround_repr fp8 (negative x) _ 1 _ ltac:(lia) R8 ltac:(rewrite Z.mul_1_r; reflexivity)) as (F' & V' & N').
    rewrite <- N' at 2. rewrite <- (sign_bit_neg fp8). apply (rounded_exact fp8); [apply pow_pos2; lia|exact F'|].
    rewrite V'. rewrite <- Z.mul_assoc. f_equal.
Qed.
Lemma quiet_nan' {w} (Hw : fp_width w) neg f : 0 <= f < 2 ^ mant_bits w -> is_NaN (quiet (with_sign w neg (inf_magnitude w + f))) = true.
Proof.
  intros F. destruct (Z.eq_dec f 0) as [->|]; [|apply (quiet_nan Hw); lia]. destruct Hw as [->| ->], neg; vm_compute; reflexivity.
Qed.
Lemma rounded_scale {w} (y : word w) neg n d c : 0 < c -> rounded y neg n d -> rounded y neg (n * c) (d * c).
Proof.
  intros C (S & N & I). split; [exact S|]. split.
  - intros H. destruct (N ltac:(nia)) as (F & X). split; [exact F|]. intros z Fz. destruct (X z Fz) as (X1 & X2).
    assert (E : forall v, Z.abs (v * (d * c) - (if neg then - (n * c) else n * c)) = c * Z.abs (v * d - (if neg then - n else n))) by (intros; destruct neg; nia).
    rewrite !E. split; [nia|]. intros Q. apply X2. nia.
  - intros H. apply I. nia.
Qed.
Lemma cast_double_float (x : elt Double) : cast_ok Double Float x (to_float x).
Proof.
  unfold cast_ok. cbn [is_integer]. unfold elt in *. cbn [esize] in *. unfold to_float. rewrite <- (nan_ok fp8), <- (inf_ok fp8). destruct (class_excl x) as (C1 & C2). split; [|split].
  - intros N. rewrite N. rewrite (nan_ok fp8) in N. pose proof (nan_fraction fp8 x N) as B. change (mant_bits 8) with 52 in B.
    assert (D : 0 <= fraction x / 2 ^ 29 < 2 ^ 23) by (split; [apply Z.div_pos; lia|apply Z.div_lt_upper_bound; [reflexivity|change (2 ^ 29 * 2 ^ 23) with (2 ^ 52); apply B]]).
    apply (quiet_nan' fp4). exact D.
  - intros I. rewrite (C1 I), I. rewrite (sign_bit_neg fp8). apply (inf_with_sign fp4).
  - intros F. destruct (C2 F) as (-> & ->). rewrite (sign_bit_neg fp8). pose proof (fabs_nonneg fp8 x) as NN.
    pose proof (fround_rounded fp4 (negative x) (fabs_value x) (2 ^ (1074 - 149)) NN (pow_pos2 (1074 - 149) ltac:(lia))) as R.
    apply (rounded_scale _ _ _ _ (fone 4)) in R; [|apply pow_pos2; lia]. change (fone 8) with (2 ^ 1074). change (fone 4) with (2 ^ 149) in *.
    rewrite <- Z.pow_add_r in R by lia. exact R.
Qed.
Lemma cast_fp_same e (x : elt e) : is_integer e = false -> cast_ok e e x x.
Proof.
  intros I. unfold cast_ok. rewrite I. split; [auto|]. split; [auto|]. intros F. apply (rounded_exact (fpw e I)); auto. rewrite (fone_units (fpw e I)). apply (one_units_pos (fpw e I)).
Qed.
