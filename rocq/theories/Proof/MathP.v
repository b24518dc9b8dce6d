(** Lemmas about the floating-point functions of Model/SseMath: bit fields, lanes. *)
From Coq Require Import ZArith List Bool Lia.
From Verif.Spec Require Import Seq FloatSpec RoundSpec CastSpec MathSpec.
From Verif.Model Require Import Word Fp FpArith SseReg SseMove SortNet SseInt SseBuild SseArith SseMask SimdArray Mem SseConvert SseMath.
From Verif.Proof Require Import WordP SseMoveP SseIntP SseEmulP SseArithP SseMaskP FpP FpArithP FpIntP ConvertP ConvertRegP SimdArrayOpsP.
Import ListNotations.
Local Open Scope Z_scope.

(** * bit fields *)
Lemma testbit_split n h l i : 0 <= n -> 0 <= l < 2 ^ n -> 0 <= i -> Z.testbit (h * 2 ^ n + l) i = if i <? n then Z.testbit l i else Z.testbit h (i - n).
Proof.
  intros Hn Hl Hi.
  assert (E : h * 2 ^ n + l = Z.lor l (Z.shiftl h n)) by (rewrite lor_disjoint_add by lia; lia).
  rewrite E, Z.lor_spec, Z.shiftl_spec by lia. destruct (Z.ltb_spec i n).
  - rewrite (Z.testbit_neg_r h) by lia. apply orb_false_r.
  - assert (Z.testbit l i = false) as ->; [|reflexivity].
    destruct (Z.eq_dec l 0) as [->|N]; [apply Z.bits_0|]. apply Z.bits_above_log2; [lia|].
    apply Z.lt_le_trans with n; [|lia]. apply Z.log2_lt_pow2; lia.
Qed.
Lemma small_op (f : bool -> bool -> bool) (op : Z -> Z -> Z) n l l' : (forall a b i, Z.testbit (op a b) i = f (Z.testbit a i) (Z.testbit b i)) -> f false false = false ->
  (forall a b, 0 <= a -> 0 <= b -> 0 <= op a b) -> 0 <= n -> 0 <= l < 2 ^ n -> 0 <= l' < 2 ^ n -> 0 <= op l l' < 2 ^ n.
Proof.
  intros Hf H0 Hp Hn Hl Hl'. split; [apply Hp; lia|].
  assert (E : Z.shiftr (op l l') n = 0).
  { apply Z.bits_inj'. intros i Hi. rewrite Z.shiftr_spec, Hf, Z.bits_0 by lia.
    rewrite <- (Z.shiftr_spec l), <- (Z.shiftr_spec l') by lia. rewrite !Z.shiftr_div_pow2, !Z.div_small, Z.bits_0 by lia. exact H0. }
  rewrite Z.shiftr_div_pow2 in E by lia. pose proof (Hp l l' ltac:(lia) ltac:(lia)). pose proof (pow_pos2 n Hn).
  pose proof (Z.mod_pos_bound (op l l') (2 ^ n) ltac:(lia)). pose proof (Z.div_mod (op l l') (2 ^ n) ltac:(lia)). nia.
Qed.
Lemma land_split n a b l l' : 0 <= n -> 0 <= l < 2 ^ n -> 0 <= l' < 2 ^ n -> Z.land (a * 2 ^ n + l) (b * 2 ^ n + l') = Z.land a b * 2 ^ n + Z.land l l'.
Proof.
  intros Hn Hl Hl'. apply Z.bits_inj'. intros i Hi. rewrite Z.land_spec.
  assert (B : 0 <= Z.land l l' < 2 ^ n).
  { apply (small_op andb); auto using Z.land_spec. intros. apply Z.land_nonneg. now left. }
  rewrite !testbit_split by lia. destruct (i <? n); now rewrite Z.land_spec.
Qed.
Lemma lor_split n a b l l' : 0 <= n -> 0 <= l < 2 ^ n -> 0 <= l' < 2 ^ n -> Z.lor (a * 2 ^ n + l) (b * 2 ^ n + l') = Z.lor a b * 2 ^ n + Z.lor l l'.
Proof.
  intros Hn Hl Hl'. apply Z.bits_inj'. intros i Hi. rewrite Z.lor_spec.
  assert (B : 0 <= Z.lor l l' < 2 ^ n).
  { apply (small_op orb); auto using Z.lor_spec. intros. apply Z.lor_nonneg. auto. }
  rewrite !testbit_split by lia. destruct (i <? n); now rewrite Z.lor_spec.
Qed.
Lemma land_low n u : 0 <= n -> Z.land u (2 ^ n - 1) = u mod 2 ^ n.
Proof. intros. rewrite <- Z.land_ones by lia. f_equal. rewrite Z.ones_equiv. lia. Qed.

Section W.
  Context {w : nat} (Hw : fp_width w).
  Local Notation S := (sign_weight w).
  Local Notation p := (mant_bits w).

  Lemma bits_sign : 2 ^ (bits w - 1) = S.
  Proof. reflexivity. Qed.
  Lemma bit_nonneg : 0 <= bits w - 1.
  Proof. destruct Hw as [->| ->]; vm_compute; discriminate. Qed.
  Lemma u_sign (x : word w) : uval x = (if negative x then S else 0) + magnitude x.
  Proof.
    pose proof (uval_range x). rewrite (mod_sign Hw) in *. pose proof (sign_pos Hw).
    unfold negative, magnitude. destruct (Z.leb_spec S (uval x)).
    - rewrite <- (Z.mod_unique (uval x) S 1 (uval x - S)); lia.
    - rewrite Z.mod_small; lia.
  Qed.
  Lemma abs_lane (x : word w) : wand x (mkw w (S - 1)) = with_sign w false (magnitude x).
  Proof.
    apply word_ext. unfold wand, with_sign. rewrite !uval_mkw. pose proof (sign_pos Hw). pose proof (mod_sign Hw).
    rewrite (Z.mod_small (S - 1)) by lia. rewrite <- bits_sign at 1. rewrite land_low by apply bit_nonneg.
    rewrite bits_sign. fold (magnitude x). reflexivity.
  Qed.
  Lemma sign_lane (x : word w) : wand x (mkw w S) = with_sign w (negative x) 0.
  Proof.
    apply word_ext. unfold wand, with_sign. rewrite !uval_mkw. pose proof (sign_pos Hw). pose proof (mod_sign Hw).
    rewrite (Z.mod_small S) by lia. f_equal. rewrite u_sign. destruct (fields Hw x) as (_ & _ & R).
    pose proof (land_split (bits w - 1) (if negative x then 1 else 0) 1 (magnitude x) 0 bit_nonneg) as L.
    rewrite bits_sign in L. specialize (L ltac:(lia) ltac:(lia)). rewrite Z.land_0_r, !Z.add_0_r in L.
    replace (1 * S) with S in L by lia.
    destruct (negative x); rewrite ?Z.add_0_r.
    - replace (1 * S) with S in L by lia. rewrite L. replace (Z.land 1 1) with 1 by reflexivity. lia.
    - rewrite Z.mul_0_l in L. rewrite L. reflexivity.
  Qed.
  Lemma or_sign (b : bool) m : 0 <= m < S -> wor (with_sign w b 0) (with_sign w false m) = with_sign w b m.
  Proof.
    intros M. apply word_ext. unfold wor. pose proof (sign_pos Hw). pose proof (mod_sign Hw).
    rewrite uval_mkw, !(with_sign_uval Hw) by lia. rewrite Z.add_0_r, Z.add_0_l.
    pose proof (lor_split (bits w - 1) (if b then 1 else 0) 0 0 m bit_nonneg) as L.
    rewrite bits_sign in L. specialize (L ltac:(lia) ltac:(lia)). rewrite Z.lor_0_r, Z.lor_0_l, Z.mul_0_l, Z.add_0_l in L.
    replace (if b then S else 0) with ((if b then 1 else 0) * S + 0) by (destruct b; lia). rewrite L.
    rewrite Z.mod_small; destruct b; lia.
  Qed.
  Lemma copysign_lane (m s : word w) : wor (wand s (mkw w S)) (wand m (mkw w (S - 1))) = with_sign w (negative s) (magnitude m).
  Proof. rewrite sign_lane, abs_lane. apply or_sign. apply (fields Hw m). Qed.
  Lemma with_sign_same neg (x : word w) : same_magnitude x (with_sign w neg (magnitude x)) /\ sign_bit (with_sign w neg (magnitude x)) = neg.
  Proof.
    destruct (fields Hw x) as (F & E & R). destruct (fields Hw (with_sign w neg (magnitude x))) as (F' & E' & R').
    rewrite (magnitude_with_sign Hw) in F', E' by auto. split; [split; congruence|].
    rewrite (sign_bit_neg Hw). now apply negative_with_sign.
  Qed.
  Lemma mag_range (x : word w) : 0 <= magnitude x < S.
  Proof. apply (fields Hw x). Qed.

  (** isfinite: 0 * x *)
  Lemma w0_zero : magnitude (w0 w) = 0 /\ negative (w0 w) = false /\ fabs_value (w0 w) = 0 /\ is_nan (w0 w) = false /\ is_inf (w0 w) = false.
  Proof. destruct Hw as [->| ->]; repeat split; vm_compute; reflexivity. Qed.
  Lemma zero_mul (x : word w) : is_nan x = false -> is_nan (fmul (w0 w) x) = is_inf x.
  Proof.
    intros N. destruct w0_zero as (M0 & N0 & F0 & Q0 & I0). unfold fmul, nan2. rewrite Q0, N, I0. cbn [orb].
    destruct (is_inf x) eqn:I.
    - unfold FpArith.is_zero. rewrite M0. cbn. destruct Hw as [->| ->]; vm_compute; reflexivity.
    - rewrite F0, Z.mul_0_l. pose proof (one_units_pos Hw).
      assert (R0 : FpIntP.repr (w := w) 0).
      { apply (repr_small Hw). pose proof (pow_pos2 (p + 1) ltac:(pose proof (mant_pos Hw); lia)). lia. }
      destruct (fround_repr Hw (xorb (negative (w0 w)) (negative x)) 0 (one_units w) 0 H R0 eq_refl) as (F & _ & _).
      now apply finite_not_nan.
  Qed.
  Lemma isfinite_lane (x : word w) : negb (is_nan x || is_nan (fmul (w0 w) x)) = is_Finite x.
  Proof.
    destruct (is_nan x) eqn:N; cbn [orb negb].
    - rewrite <- (nan_ok Hw) in N. unfold is_NaN in N. unfold is_Finite. destruct (all_ones_exponent x); [reflexivity|discriminate].
    - rewrite zero_mul by auto. rewrite <- (inf_ok Hw). rewrite <- (nan_ok Hw) in N. unfold is_NaN, is_Inf, is_Finite in *.
      destruct (all_ones_exponent x); [|reflexivity]. destruct (fraction x =? 0); [reflexivity|discriminate].
  Qed.
  Lemma isnan_lane (x : word w) : is_nan x || is_nan x = is_NaN x.
  Proof. rewrite orb_diag. symmetry. apply (nan_ok Hw). Qed.
  Lemma isinf_lane (x : word w) : (uval (wand x (mkw w (S - 1))) =? inf_magnitude w) = is_Inf x.
  Proof.
    rewrite abs_lane, (with_sign_uval Hw) by apply mag_range. rewrite Z.add_0_l. symmetry. apply (inf_ok Hw).
  Qed.
End W.

(** * registers *)
Lemma fp_lane w : fp_width w -> lane_ok w.
Proof. intros [->| ->]; [apply lk4|apply lk8]. Qed.
Lemma rep_len {A} (x : A) n : length (repeat x n) = n.
Proof. apply repeat_length. Qed.
Lemma and_set1 w z (xs : list (word w)) : length xs = (16 / w)%nat -> mm_and (pack xs) (set1 w z) = pack (map (fun x => wand x (mkw w z)) xs).
Proof. intros L. rewrite SseArithP.set1_pack, and_pack by (now rewrite rep_len). now rewrite map2_repeat_r. Qed.
Lemma wand_comm w (a b : word w) : wand a b = wand b a.
Proof. unfold wand. now rewrite Z.land_comm. Qed.
Lemma wor_comm w (a b : word w) : wor a b = wor b a.
Proof. unfold wor. now rewrite Z.lor_comm. Qed.
Lemma mm_and_comm a b : mm_and a b = mm_and b a.
Proof. unfold mm_and. revert b. induction a as [|x a IH]; intros [|y b]; cbn; auto. f_equal; auto using Z.land_comm. Qed.
Lemma lanes_fin {w} (xs : list (word w)) f : length xs = (16 / w)%nat -> lanes w (pack (map f xs)) = map f xs.
Proof. intros L. apply lanes_pack. now rewrite map_length. Qed.

Lemma fabs_pack w (xs : list (word w)) : fp_width w -> length xs = (16 / w)%nat ->
  v_fabs w (pack xs) = pack (map (fun x => with_sign w false (magnitude x)) xs).
Proof. intros Hw L. unfold v_fabs, abs_mask. rewrite and_set1 by auto. f_equal. apply map_ext. intros. now apply abs_lane. Qed.
Lemma copysign_pack w (ms ss : list (word w)) : fp_width w -> length ms = (16 / w)%nat -> length ss = (16 / w)%nat ->
  v_copysign w (pack ms) (pack ss) = pack (map2 (fun m s => with_sign w (negative s) (magnitude m)) ms ss).
Proof.
  intros Hw Lm Ls. unfold v_copysign, sign_mask, abs_mask. rewrite !and_set1, or_pack by (rewrite ?map_length; congruence).
  f_equal. rewrite map2_map. clear Lm Ls. revert ss. induction ms as [|m ms IH]; intros [|s ss]; cbn; auto. f_equal; auto. now apply copysign_lane.
Qed.
Lemma isnan_pack w (xs : list (word w)) : fp_width w -> length xs = (16 / w)%nat -> v_isnan w (pack xs) = mask_reg w (map is_NaN xs).
Proof.
  intros Hw L. unfold v_isnan, cmpunord. rewrite fcmp_pack by auto. f_equal. rewrite map2_diag. apply map_ext. intros. now apply isnan_lane.
Qed.
Lemma isfinite_pack w (xs : list (word w)) : fp_width w -> length xs = (16 / w)%nat -> v_isfinite w (pack xs) = mask_reg w (map is_Finite xs).
Proof.
  intros Hw L. unfold v_isfinite, cmpord, v_fmul. rewrite (setzero_pack w) by now apply fp_lane.
  rewrite lift2_pack by (rewrite ?rep_len; auto). rewrite map2_repeat_l by auto.
  rewrite fcmp_pack by (rewrite ?map_length; auto). f_equal.
  transitivity (map (fun x => negb (is_nan x || is_nan (fmul (w0 w) x))) xs).
  - clear L. induction xs; cbn; auto. now f_equal.
  - apply map_ext. intros. now apply isfinite_lane.
Qed.
Lemma isinf_pack sse41 w (xs : list (word w)) : fp_width w -> length xs = (16 / w)%nat -> v_isinf sse41 w (pack xs) = mask_reg w (map is_Inf xs).
Proof.
  intros Hw L. destruct Hw as [->| ->]; unfold v_isinf, v_fabs, abs_mask, exponent_mask; rewrite and_set1 by auto; rewrite SseArithP.set1_pack.
  - unfold cmpeq_epi. rewrite lift2_pack by (rewrite ?map_length, ?rep_len; auto). rewrite map2_repeat_r by (now rewrite map_length).
    unfold mask_reg. f_equal. rewrite !map_map. apply map_ext. intros x. f_equal. apply (isinf_lane (w := 4) fp4 x).
  - rewrite cmpeq_epi64_pack by (rewrite ?map_length; auto). rewrite map2_repeat_r by (now rewrite map_length).
    unfold mask_reg. f_equal. rewrite !map_map. apply map_ext. intros x. f_equal. apply (isinf_lane (w := 8) fp8 x).
Qed.

Lemma permute_ps_epi32 d0 d1 d2 d3 (r : reg) : mem_permute_ps 8 d0 d1 d2 d3 r = shuffle_epi32 8 r (d0 + d1 * 4 + d2 * 16 + d3 * 64).
Proof. unfold mem_permute_ps, shuffle_ps, shuffle_epi32. cbn [flat_map]. now rewrite app_nil_r. Qed.
Lemma isnegative_pack w (xs : list (word w)) : fp_width w -> length xs = (16 / w)%nat -> v_isnegative w (pack xs) = mask_reg w (map sign_bit xs).
Proof.
  intros Hw L. destruct Hw as [->| ->]; unfold v_isnegative, sign_mask; rewrite mm_and_comm, and_set1 by auto.
  - unfold srai_epi. rewrite lift1_pack by (now rewrite map_length). rewrite map_map. unfold mask_reg. f_equal. rewrite map_map. apply map_ext. intros x.
    change (2 ^ (bits 4 - 1)) with (sign_weight 4). rewrite (sign_lane fp4), (sign_bit_neg fp4).
    destruct (negative x); apply word_ext; vm_compute; reflexivity.
  - two xs. cbn [map]. change (2 ^ (bits 8 - 1)) with (sign_weight 8). rewrite !(sign_lane fp8). rewrite (pack_halves2 _ _).
    unfold srai_epi. rewrite lift1_pack by reflexivity. cbn [map]. rewrite permute_ps_epi32, shuffle_epi32_pack by reflexivity.
    unfold imm2. cbn [Nat.mul Nat.add Nat.div Nat.modulo Nat.pow Nat.divmod fst snd Nat.sub map nth].
    unfold mask_reg. cbn [map]. rewrite pack_wmask2, !(sign_bit_neg fp8).
    assert (H : forall b, mkw 4 (sval (@hi_half 4 (with_sign 8 b 0)) / 2 ^ 31) = wmask 4 b) by (intros [|]; apply word_ext; vm_compute; reflexivity).
    now rewrite !H.
Qed.

(** * rounding *)
Section R.
  Context {w : nat} (Hw : fp_width w).
  Local Notation U := (one_units w).
  Lemma quiet_NaN (x : word w) : is_NaN x = true -> is_NaN (quiet x) = true.
  Proof.
    intros N. rewrite <- (with_sign_eta Hw x).
    assert (M : inf_magnitude w < magnitude x) by (rewrite (nan_ok Hw) in N; now apply Z.ltb_lt).
    replace (magnitude x) with (inf_magnitude w + (magnitude x - inf_magnitude w)) by lia. apply (quiet_nan' Hw).
    pose proof (mag_range Hw x) as R. assert (sign_weight w = inf_magnitude w + 2 ^ mant_bits w) by (destruct Hw as [->| ->]; vm_compute; reflexivity). lia.
  Qed.
  Lemma exact_trunc z : is_trunc (z * U) U z.
  Proof. pose proof (one_units_pos Hw). unfold is_trunc. nia. Qed.
  Lemma exact_floor z : is_floor (z * U) U z.
  Proof. pose proof (one_units_pos Hw). unfold is_floor. nia. Qed.
  Lemma exact_ceil z : is_ceil (z * U) U z.
  Proof. pose proof (one_units_pos Hw). unfold is_ceil. nia. Qed.
  Lemma exact_round z : is_round (z * U) U z.
  Proof. pose proof (one_units_pos Hw). unfold is_round. replace (z * U - z * U) with 0 by lia. cbn. lia. Qed.
  Lemma round_mode r (x : word w) :
    match r with ToZero => is_trunc | Down => is_floor | Up => is_ceil | ToNearest => is_round end (fvalue x) U (round_int r x).
  Proof.
    pose proof (one_units_pos Hw) as P. rewrite round_int_eq. destruct r.
    - destruct (rne_cases (fvalue x) U P) as (B & [(-> & C1 & C2)|(-> & C1 & C2)]); cbv zeta in *; set (q := fvalue x / U) in *; unfold is_round.
      + destruct (Z.eq_dec (2 * (fvalue x - q * U)) U) as [E|N].
        * right. split; [lia|]. apply Z.even_spec. auto.
        * left. lia.
      + destruct (Z.eq_dec (2 * (fvalue x - q * U)) U) as [E|N].
        * right. split; [nia|]. apply Z.even_spec. auto.
        * left. nia.
    - unfold is_floor. pose proof (Z.div_mod (fvalue x) U ltac:(lia)). pose proof (Z.mod_pos_bound (fvalue x) U P). nia.
    - unfold is_ceil. pose proof (Z.div_mod (- fvalue x) U ltac:(lia)). pose proof (Z.mod_pos_bound (- fvalue x) U P). nia.
    - unfold is_trunc. pose proof (Z.quot_rem' (fvalue x) U). pose proof (Z.rem_bound_abs (fvalue x) U ltac:(lia)).
      pose proof (Z.rem_sign_nz (fvalue x) U ltac:(lia)). set (q := Z.quot (fvalue x) U) in *. set (r := Z.rem (fvalue x) U) in *.
      destruct (Z.eq_dec r 0) as [E|N].
      + rewrite E, Z.add_0_r in H. rewrite H. nia.
      + specialize (H1 N). destruct (Z.lt_trichotomy (fvalue x) 0) as [L|[L|L]].
        * assert (r < 0) by lia. assert (q <= 0) by nia. nia.
        * rewrite L in *. cbn in H1. lia.
        * assert (0 < r) by lia. assert (0 <= q) by nia. nia.
  Qed.
  Lemma round_to_ok r (x : word w) :
    rounded_value (match r with ToZero => is_trunc | Down => is_floor | Up => is_ceil | ToNearest => is_round end) x (round_to r x) /\
    (is_Finite x = true -> sign_bit (round_to r x) = sign_bit x).
  Proof.
    unfold rounded_value, has_value. rewrite (fone_units Hw). repeat split.
    - intros F. exists (round_int r x). destruct (round_to_value Hw r x F) as (F' & V & _). split; [apply round_mode|auto].
    - intros N. unfold round_to. rewrite <- (nan_ok Hw), N. now apply quiet_NaN.
    - intros I. unfold round_to. destruct (class_excl x) as (C & _). rewrite <- (nan_ok Hw), (C I), <- (inf_ok Hw), I. reflexivity.
    - intros F. destruct (round_to_value Hw r x F) as (_ & _ & S). now rewrite !(sign_bit_neg Hw).
  Qed.

  (** the SSE2 floor and ceil, given a correct trunc whose argument is small unless it is an integer *)
  Definition trunc_ok (x y : word w) : Prop :=
    (is_Finite x = true -> exists z, is_trunc (fvalue x) U z /\ is_Finite y = true /\ fvalue y = z * U /\ (fvalue x = z * U \/ Z.abs z < 2 ^ mant_bits w)) /\
    (is_NaN x = true -> is_NaN y = true) /\ (is_Inf x = true -> y = x).
  Lemma trunc_rounded (x y : word w) : trunc_ok x y -> rounded_value is_trunc x y.
  Proof.
    intros (F & N & I). unfold rounded_value, has_value. rewrite (fone_units Hw). repeat split; auto.
    intros H. destruct (F H) as (z & T & A & B & _). eauto.
  Qed.
  Lemma one_ok : is_Finite (of_int w 1) = true /\ fvalue (of_int w 1) = U.
  Proof.
    assert (E : FpIntP.exact_int (w := w) 1) by (apply (exact_small Hw); pose proof (pow_pos2 (mant_bits w + 1) ltac:(pose proof (mant_pos Hw); lia)); lia).
    destruct (of_int_exact Hw 1 E) as (A & B & _). split; [auto|lia].
  Qed.
  Lemma zero_value : fvalue (w0 w) = 0.
  Proof. destruct Hw as [->| ->]; vm_compute; reflexivity. Qed.
  Lemma zero_NaN : is_NaN (w0 w) = false.
  Proof. destruct Hw as [->| ->]; vm_compute; reflexivity. Qed.
  Lemma small_step z : Z.abs z < 2 ^ mant_bits w -> FpIntP.exact_int (w := w) (z - 1) /\ FpIntP.exact_int (w := w) (z + 1).
  Proof. intros H. pose proof (Z.pow_succ_r 2 (mant_bits w) ltac:(pose proof (mant_pos Hw); lia)). unfold Z.succ in *. split; apply (exact_small Hw); lia. Qed.
  Definition floor_lane (x y : word w) : word w := if negb (feq y x) && flt x (w0 w) then fsub y (of_int w 1) else y.
  Definition ceil_lane (x y : word w) : word w := if negb (feq y x || flt x (w0 w)) then fadd y (of_int w 1) else y.
  Lemma feq_refl_inf (x : word w) : is_Inf x = true -> feq x x = true.
  Proof.
    intros I. rewrite (feq_ok Hw). unfold float_eq, ordered. destruct (class_excl x) as (C & _). rewrite (C I), Z.eqb_refl. reflexivity.
  Qed.
  Lemma floor_lane_ok (x y : word w) : trunc_ok x y -> rounded_value is_floor x (floor_lane x y).
  Proof.
    intros (F & N & I). destruct one_ok as (F1 & V1). pose proof (one_units_pos Hw) as P.
    unfold rounded_value, has_value. rewrite (fone_units Hw). unfold floor_lane. repeat split.
    - intros H. destruct (F H) as (z & T & A & B & C). rewrite (feq_ok Hw), (flt_ok Hw). unfold float_eq, float_lt, ordered.
      rewrite (finite_not_NaN x H), (finite_not_NaN y A), zero_NaN. rewrite zero_value, B. cbn [negb andb].
      destruct (Z.eqb_spec (z * U) (fvalue x)) as [E|E]; cbn [negb andb].
      + exists z. rewrite <- E. auto using exact_floor.
      + destruct C as [C|C]; [congruence|]. destruct (Z.ltb_spec (fvalue x) 0).
        * exists (z - 1). assert (D : fvalue y - fvalue (of_int w 1) = (z - 1) * U) by (rewrite B, V1; lia).
          assert (RR : FpIntP.repr (w := w) (Z.abs (fvalue y - fvalue (of_int w 1)))).
          { rewrite D, Z.abs_mul, (Z.abs_eq U) by lia. exact (proj1 (small_step z C)). }
          destruct (fsub_repr Hw y (of_int w 1) A F1 RR) as (X & Y). split; [|split; [auto|lia]].
          unfold is_trunc in T. unfold is_floor. nia.
        * exists z. split; [|auto]. unfold is_trunc in T. unfold is_floor. nia.
    - intros H. rewrite (feq_ok Hw), (flt_ok Hw). unfold float_eq, float_lt, ordered. rewrite H. cbn [negb andb]. rewrite andb_false_r. cbn [negb andb]. auto.
    - intros H. rewrite (I H), (feq_refl_inf x H). reflexivity.
  Qed.
  Lemma ceil_lane_ok (x y : word w) : trunc_ok x y -> rounded_value is_ceil x (ceil_lane x y).
  Proof.
    intros (F & N & I). destruct one_ok as (F1 & V1). pose proof (one_units_pos Hw) as P.
    unfold rounded_value, has_value. rewrite (fone_units Hw). unfold ceil_lane. repeat split.
    - intros H. destruct (F H) as (z & T & A & B & C). rewrite (feq_ok Hw), (flt_ok Hw). unfold float_eq, float_lt, ordered.
      rewrite (finite_not_NaN x H), (finite_not_NaN y A), zero_NaN. rewrite zero_value, B. cbn [negb andb].
      destruct (Z.eqb_spec (z * U) (fvalue x)) as [E|E]; cbn [negb andb orb].
      + exists z. rewrite <- E. auto using exact_ceil.
      + destruct C as [C|C]; [congruence|]. destruct (Z.ltb_spec (fvalue x) 0); cbn [negb].
        * exists z. split; [|auto]. unfold is_trunc in T. unfold is_ceil. nia.
        * exists (z + 1). assert (D : fvalue y + fvalue (of_int w 1) = (z + 1) * U) by (rewrite B, V1; lia).
          assert (RR : FpIntP.repr (w := w) (Z.abs (fvalue y + fvalue (of_int w 1)))).
          { rewrite D, Z.abs_mul, (Z.abs_eq U) by lia. exact (proj2 (small_step z C)). }
          destruct (fadd_repr Hw y (of_int w 1) A F1 RR) as (X & Y & _). split; [|split; [auto|lia]].
          unfold is_trunc in T. unfold is_ceil. nia.
    - intros H. rewrite (feq_ok Hw), (flt_ok Hw). unfold float_eq, float_lt, ordered. rewrite H. cbn [negb andb]. rewrite andb_false_r. cbn [negb andb orb].
      unfold fadd, nan2. rewrite <- (nan_ok Hw), (N H). apply quiet_NaN. auto.
    - intros H. rewrite (I H), (feq_refl_inf x H). reflexivity.
  Qed.
End R.

(** * SSE2 trunc *)
Lemma land_field p k u : 0 <= p -> 0 <= k -> Z.land u ((2 ^ k - 1) * 2 ^ p) = ((u / 2 ^ p) mod 2 ^ k) * 2 ^ p.
Proof.
  intros Hp Hk. pose proof (pow_pos2 p Hp). pose proof (Z.mod_pos_bound u (2 ^ p) ltac:(lia)).
  pose proof (land_split p (u / 2 ^ p) (2 ^ k - 1) (u mod 2 ^ p) 0 Hp ltac:(lia) ltac:(lia)) as L.
  rewrite Z.land_0_r, !Z.add_0_r, land_low in L by lia. rewrite <- L. f_equal.
  pose proof (Z.div_mod u (2 ^ p) ltac:(lia)). lia.
Qed.
Definition trunc4_lane (x : word 4) : word 4 := if exponent_field x <? 150 then of_int 4 (sval (cvt_int32 ToZero x)) else x.
Lemma expo4_range (x : word 4) : 0 <= exponent_field x < 256.
Proof. unfold exponent_field. apply Z.mod_pos_bound. reflexivity. Qed.
Lemma frac4_range (x : word 4) : 0 <= fraction x < 2 ^ 23.
Proof. unfold fraction. apply Z.mod_pos_bound. reflexivity. Qed.
Lemma expo8_range (x : word 8) : 0 <= exponent_field x < 2048.
Proof. unfold exponent_field. apply Z.mod_pos_bound. reflexivity. Qed.
Lemma frac8_range (x : word 8) : 0 <= fraction x < 2 ^ 52.
Proof. unfold fraction. apply Z.mod_pos_bound. reflexivity. Qed.
Lemma expo_and4 (x : word 4) : wand x (mkw 4 0x7f800000) = mkw 4 (exponent_field x * 2 ^ 23).
Proof.
  unfold wand. f_equal. change (uval (mkw 4 2139095040)) with ((2 ^ 8 - 1) * 2 ^ 23). rewrite land_field by lia. reflexivity.
Qed.
Lemma expo_and8 (x : word 8) : wand x (mkw 8 0x7ff0000000000000) = mkw 8 (exponent_field x * 2 ^ 52).
Proof.
  unfold wand. f_equal. change (uval (mkw 8 9218868437227405312)) with ((2 ^ 11 - 1) * 2 ^ 52). rewrite land_field by lia. reflexivity.
Qed.
Lemma expo4_small (x : word 4) : (sval (wand x (mkw 4 0x7f800000)) <? sval (mkw 4 0x4b000000)) = (exponent_field x <? 150).
Proof.
  rewrite expo_and4. pose proof (expo4_range x). rewrite mkw4_sval by lia. change (sval (mkw 4 1258291200)) with (150 * 2 ^ 23).
  destruct (Z.ltb_spec (exponent_field x) 150); [apply Z.ltb_lt|apply Z.ltb_ge]; nia.
Qed.
Lemma trunc_ps_pack (xs : list (word 4)) : length xs = 4%nat -> trunc_ps_sse2 (pack xs) = pack (map trunc4_lane xs).
Proof.
  intros L. unfold trunc_ps_sse2. rewrite cvttps_pack by auto. rewrite cvtepi32_ps_pack by (now rewrite map_length).
  rewrite and_set1 by auto. rewrite SseArithP.set1_pack. unfold cmplt_epi. rewrite lift2_pack by (rewrite ?map_length; auto).
  four xs. change (16 / 4)%nat with 4%nat. cbn [map map2 repeat]. rewrite andnot_pack, and_pack by reflexivity. cbn [map2].
  rewrite or_pack by reflexivity. cbn [map2]. rewrite !expo4_small, !wandnot_mask, !wand_mask. unfold trunc4_lane.
  repeat match goal with |- context [exponent_field ?x <? 150] => destruct (exponent_field x <? 150); rewrite ?wor_0_l, ?wor_0_r end; reflexivity.
Qed.
Lemma units4 : one_units 4 = 2 ^ 149.
Proof. reflexivity. Qed.
Lemma trunc4_ok (x : word 4) : trunc_ok x (trunc4_lane x).
Proof.
  unfold trunc_ok, trunc4_lane. pose proof (expo4_range x) as RE. pose proof (frac4_range x) as RF. repeat split.
  - intros F. pose proof (round_mode fp4 ToZero x) as T.
    destruct (Z.ltb_spec (exponent_field x) 150) as [L|L].
    + assert (B : Z.abs (fvalue x) < 2 ^ 23 * 2 ^ 149).
      { rewrite <- (fabs_abs fp4). unfold fabs_value. change (frac_bits 4) with 23.
        destruct (Z.eqb_spec (exponent_field x) 0) as [E|E].
        - apply Z.lt_le_trans with (2 ^ 23 * 1); [lia|]. apply Z.mul_le_mono_nonneg_l; [lia|]. vm_compute. discriminate.
        - apply Z.lt_le_trans with (2 ^ 24 * 2 ^ (exponent_field x - 1)).
          + apply Z.mul_lt_mono_pos_r; [apply pow_pos2; lia|lia].
          + rewrite <- !Z.pow_add_r by lia. apply Z.pow_le_mono_r; lia. }
      set (z := round_int ToZero x) in *.
      assert (ZB : Z.abs z < 2 ^ 23).
      { destruct T as [(T & _) _]. rewrite Z.abs_mul, units4, (Z.abs_eq (2 ^ 149)) in T by (apply Z.pow_nonneg; lia).
        pose proof (pow_pos2 149 ltac:(lia)). nia. }
      exists z. rewrite (cvt_int32_ok fp4) by (auto; fold z; lia). rewrite mkw4_sval by (fold z; lia). fold z.
      assert (EX : FpIntP.exact_int (w := 4) z) by (apply (exact_small fp4); change (2 ^ (mant_bits 4 + 1)) with (2 ^ 24); lia).
      destruct (of_int_exact fp4 z EX) as (A & V & _). repeat split; try apply T; auto.
    + assert (V : exists k, fvalue x = k * 2 ^ 149).
      { unfold fvalue, fabs_value. change (frac_bits 4) with 23. destruct (Z.eqb_spec (exponent_field x) 0); [lia|].
        replace (exponent_field x - 1) with ((exponent_field x - 150) + 149) by lia. rewrite Z.pow_add_r by lia.
        destruct (sign_bit x); [exists (- ((2 ^ 23 + fraction x) * 2 ^ (exponent_field x - 150)))|exists ((2 ^ 23 + fraction x) * 2 ^ (exponent_field x - 150))]; ring. }
      destruct V as (k & V). exists k. rewrite V. repeat split; auto; apply (exact_trunc fp4).
  - intros N. assert (E : exponent_field x = 255).
    { unfold is_NaN, all_ones_exponent in N. apply andb_true_iff in N as (N & _). now apply Z.eqb_eq in N. }
    rewrite E. exact N.
  - intros N. assert (E : exponent_field x = 255).
    { unfold is_Inf, all_ones_exponent in N. apply andb_true_iff in N as (N & _). now apply Z.eqb_eq in N. }
    rewrite E. reflexivity.
Qed.

Section W8.
  Context {w : nat} (Hw : fp_width w).
  Lemma or_sign_gen (b : bool) (t : word w) : wor (with_sign w b 0) t = with_sign w (b || negative t) (magnitude t).
  Proof.
    apply word_ext. unfold wor. pose proof (sign_pos Hw). pose proof (mod_sign Hw). pose proof (mag_range Hw t) as M.
    rewrite uval_mkw, !(with_sign_uval Hw) by lia. rewrite Z.add_0_r, (u_sign Hw t).
    pose proof (lor_split (bits w - 1) (if b then 1 else 0) (if negative t then 1 else 0) 0 (magnitude t) (bit_nonneg Hw)) as L.
    rewrite bits_sign in L. specialize (L ltac:(lia) ltac:(lia)). rewrite Z.lor_0_l in L.
    replace (if b then sign_weight w else 0) with ((if b then 1 else 0) * sign_weight w + 0) by (destruct b; lia).
    replace (if negative t then sign_weight w else 0) with ((if negative t then 1 else 0) * sign_weight w) by (destruct (negative t); lia).
    rewrite L. assert (E : Z.lor (if b then 1 else 0) (if negative t then 1 else 0) = if b || negative t then 1 else 0) by (destruct b, (negative t); reflexivity).
    rewrite E. rewrite Z.mod_small; destruct (b || negative t); lia.
  Qed.
  Lemma fsub_sign (a b : word w) : is_Finite a = true -> is_Finite b = true -> negative a = false -> 0 <= fvalue a - fvalue b -> negative (fsub a b) = false.
  Proof.
    intros Fa Fb Na D. unfold fsub, nan2. rewrite (finite_not_nan Hw a Fa), (finite_not_nan Hw b Fb). unfold fadd_num.
    destruct (fneg_value Hw b) as (V & F & N & _ & I). rewrite I, (finite_not_inf Hw a Fa), (finite_not_inf Hw b Fb), V, Na. cbn [andb].
    pose proof (inf_bound Hw). destruct (Z.eqb_spec (fvalue a + - fvalue b) 0).
    - apply (negative_with_sign Hw). lia.
    - unfold fround. rewrite (negative_with_sign Hw).
      + apply Z.ltb_ge. lia.
      + pose proof (round_magnitude_bound Hw (Z.abs (fvalue a + - fvalue b)) 1 ltac:(lia) ltac:(lia)). lia.
  Qed.
  Lemma NaN_left (f : word w -> word w -> word w) (a b : word w) : f = fadd \/ f = fsub \/ f = fmul -> is_NaN a = true -> is_NaN (f a b) = true.
  Proof.
    intros Hf N. destruct Hf as [->|[->| ->]]; unfold fadd, fsub, fmul, nan2; rewrite <- (nan_ok Hw), N; now apply (quiet_NaN Hw).
  Qed.
  Lemma NaN_mag (x y : word w) : magnitude x = magnitude y -> is_NaN x = is_NaN y.
  Proof. intros E. rewrite !(nan_ok Hw). unfold is_nan. now rewrite E. Qed.
  Lemma abs_facts (x : word w) : let ax := with_sign w false (magnitude x) in
    is_Finite ax = is_Finite x /\ fvalue ax = fabs_value x /\ negative ax = false /\ magnitude ax = magnitude x.
  Proof.
    cbv zeta. pose proof (mag_range Hw x) as M. rewrite !(finite_mag Hw), (magnitude_with_sign Hw), (negative_with_sign Hw), (fvalue_with_sign Hw) by lia.
    rewrite (fabs_mval Hw). repeat split; auto; lia.
  Qed.
End W8.

Definition c52 : word 8 := mkw 8 0x4330000000000000.
Lemma c52_ok : is_Finite c52 = true /\ fvalue c52 = 2 ^ 52 * one_units 8 /\ negative c52 = false.
Proof. repeat split; vm_compute; reflexivity. Qed.
Definition one8 : word 8 := mkw 8 0x3ff0000000000000.
Lemma one8_ok : is_Finite one8 = true /\ fvalue one8 = one_units 8.
Proof. split; vm_compute; reflexivity. Qed.
Lemma units8 : one_units 8 = 2 ^ 1074.
Proof. reflexivity. Qed.
Definition trunc8_lane (x : word 8) : word 8 :=
  let ax := with_sign 8 false (magnitude x) in
  let t1 := fsub (fadd ax c52) c52 in
  let t2 := fsub t1 (if flt ax t1 then one8 else w0 8) in
  with_sign 8 (negative x || negative t2) (magnitude t2).
Lemma trunc_pd_pack (xs : list (word 8)) : length xs = 2%nat -> trunc_pd_sse2 (pack xs) = pack (map trunc8_lane xs).
Proof.
  intros L. unfold trunc_pd_sse2. rewrite (fabs_pack 8) by (auto using fp8). unfold v_one. rewrite !SseArithP.set1_pack. unfold v_fadd, v_fsub.
  two xs. change (16 / 8)%nat with 2%nat. cbn [map repeat]. repeat (rewrite lift2_pack by reflexivity; cbn [map2]).
  unfold fcmp. rewrite lift2_pack by reflexivity. cbn [map2]. rewrite !and_pack by reflexivity. cbn [map2]. rewrite lift2_pack by reflexivity. cbn [map2].
  rewrite or_pack by reflexivity. cbn [map2]. rewrite !wand_mask, !(wand_comm _ (mkw 8 9223372036854775808)).
  change (mkw 8 9223372036854775808) with (mkw 8 (sign_weight 8)). rewrite !(sign_lane fp8), !(or_sign_gen fp8). reflexivity.
Qed.
Lemma add52 (ax : word 8) : is_Finite ax = true -> 0 <= fvalue ax <= 2 ^ 52 * one_units 8 ->
  is_Finite (fadd ax c52) = true /\ negative (fadd ax c52) = false /\
  exists j, fvalue (fadd ax c52) = (j + 2 ^ 52) * one_units 8 /\ 0 <= j <= 2 ^ 52 /\ (j - 1) * one_units 8 < fvalue ax < (j + 1) * one_units 8.
Proof.
  intros F B. destruct c52_ok as (Fc & Vc & Nc). pose proof (one_units_pos fp8) as P. set (U := one_units 8) in *.
  set (a := fvalue ax) in *. set (q := a / U). pose proof (Z.div_mod a U ltac:(lia)) as DM. pose proof (Z.mod_pos_bound a U P) as MB. fold q in DM.
  assert (Q : 0 <= q <= 2 ^ 52) by (split; [apply Z.div_pos; lia|nia]).
  assert (NZ : 0 < a + fvalue c52) by (rewrite Vc; fold U; nia).
  assert (D : fadd ax c52 = fround 8 false (a + fvalue c52) 1).
  { unfold fadd, nan2. rewrite (finite_not_nan fp8 ax F), (finite_not_nan fp8 c52 Fc). unfold fadd_num.
    rewrite (finite_not_inf fp8 ax F), (finite_not_inf fp8 c52 Fc). fold a.
    destruct (Z.eqb_spec (a + fvalue c52) 0); [lia|]. rewrite (proj2 (Z.ltb_ge (a + fvalue c52) 0)) by lia. now rewrite Z.abs_eq by lia. }
  assert (EL : FpIntP.exact_int (w := 8) (q + 2 ^ 52)) by (apply (exact_small fp8); change (2 ^ (mant_bits 8 + 1)) with (2 ^ 53); lia).
  destruct (Z.eq_dec (a mod U) 0) as [E|E].
  - assert (V : a + fvalue c52 = (q + 2 ^ 52) * U) by (rewrite Vc; fold U; lia).
    assert (R : FpIntP.repr (w := 8) ((q + 2 ^ 52) * U)) by (unfold FpIntP.exact_int in EL; rewrite Z.abs_eq in EL by lia; exact EL).
    destruct (fround_repr fp8 false (a + fvalue c52) 1 _ ltac:(lia) R ltac:(lia)) as (A1 & A2 & A3). rewrite D.
    split; [auto|]. split; [auto|]. exists q. rewrite (fvalue_abs fp8), A3, A2. repeat split; try lia.
  - assert (Q' : q < 2 ^ 52) by nia.
    assert (EH : FpIntP.exact_int (w := 8) (q + 1 + 2 ^ 52)) by (apply (exact_small fp8); change (2 ^ (mant_bits 8 + 1)) with (2 ^ 53); lia).
    unfold FpIntP.exact_int in EL, EH. rewrite Z.abs_eq in EL, EH by lia. fold U in EL, EH.
    destruct (repr_mag fp8 _ EL) as (ml & Ml & Vl). destruct (repr_mag fp8 _ EH) as (mh & Mh & Vh).
    set (s := a + fvalue c52) in *. assert (SV : s = a + 2 ^ 52 * U) by (unfold s; rewrite Vc; reflexivity).
    pose proof (rnd_ge (mant_bits 8) (mant_pos fp8) s 1 ml ltac:(lia) ltac:(lia) ltac:(lia) ltac:(rewrite Vl; lia)) as G.
    pose proof (rnd_le (mant_bits 8) (mant_pos fp8) s 1 mh ltac:(lia) ltac:(lia) ltac:(lia) ltac:(rewrite Vh; lia)) as H.
    set (m := rnd (mant_bits 8) s 1) in *.
    assert (RM : round_magnitude 8 s 1 = m) by (rewrite (round_magnitude_rnd (w := 8)); fold m; apply Z.min_r; lia).
    rewrite D. unfold fround. rewrite RM. pose proof (inf_bound fp8).
    assert (FIN : is_Finite (with_sign 8 false m) = true) by (apply (finite_with_sign fp8); lia).
    split; [exact FIN|]. split; [apply (negative_with_sign fp8); lia|].
    pose proof (fvalue_with_sign fp8 false m ltac:(lia)) as V. rewrite Z.mul_1_l in V.
    pose proof (mval_le (mant_bits 8) (mant_pos fp8) ml m ltac:(lia) ltac:(lia)) as L1. rewrite Vl in L1.
    pose proof (mval_le (mant_bits 8) (mant_pos fp8) m mh ltac:(lia) ltac:(lia)) as L2. rewrite Vh in L2.
    destruct (mag_repr fp8 m ltac:(lia)) as (k & e & K & Ee & VE & _). change (2 ^ (mant_bits 8 + 1)) with (2 ^ 53) in K.
    assert (Ege : 1074 <= e).
    { destruct (Z.le_gt_cases 1074 e); [auto|]. exfalso.
      assert (2 ^ e <= 2 ^ 1073) by (apply Z.pow_le_mono_r; lia).
      assert (k * 2 ^ e < 2 ^ 53 * 2 ^ 1073) by (apply Z.le_lt_trans with (k * 2 ^ 1073); [apply Z.mul_le_mono_nonneg_l; lia|apply Z.mul_lt_mono_pos_r; [apply pow_pos2; lia|lia]]).
      assert (2 ^ 53 * 2 ^ 1073 = 2 ^ 52 * U) by (vm_compute; reflexivity). nia. }
    assert (VU : mval (mant_bits 8) m = (k * 2 ^ (e - 1074)) * U).
    { rewrite VE. unfold U. rewrite units8. rewrite <- Z.mul_assoc, <- Z.pow_add_r by lia. f_equal. f_equal. lia. }
    set (j := k * 2 ^ (e - 1074)) in *. exists (j - 2 ^ 52).
    assert (J : q + 2 ^ 52 <= j <= q + 1 + 2 ^ 52) by nia. rewrite V, VU.
    split; [lia|]. split; [lia|]. nia.
Qed.
Lemma small8 (z : Z) : Z.abs z <= 2 ^ 53 -> FpIntP.repr (w := 8) (Z.abs (z * one_units 8)).
Proof. intros H. rewrite Z.abs_mul, (Z.abs_eq (one_units 8)) by (pose proof (one_units_pos fp8); lia). now apply (exact_small fp8). Qed.
Lemma trunc8_finite (x : word 8) : is_Finite x = true -> Z.abs (fvalue x) <= 2 ^ 52 * one_units 8 ->
  exists z, is_trunc (fvalue x) (one_units 8) z /\ is_Finite (trunc8_lane x) = true /\ fvalue (trunc8_lane x) = z * one_units 8 /\
    (fvalue x = z * one_units 8 \/ Z.abs z < 2 ^ mant_bits 8) /\ negative (trunc8_lane x) = negative x.
Proof.
  intros F B. rewrite <- (fabs_abs fp8) in B. pose proof (fabs_nonneg fp8 x) as NN. pose proof (one_units_pos fp8) as P.
  destruct (abs_facts fp8 x) as (Fa & Va & Na & _). unfold trunc8_lane. cbv zeta. set (ax := with_sign 8 false (magnitude x)) in *. rewrite F in Fa.
  destruct (add52 ax Fa ltac:(lia)) as (F0 & N0 & j & V0 & J & JB). set (t0 := fadd ax c52) in *. rewrite Va in JB.
  destruct c52_ok as (Fc & Vc & Nc). set (U := one_units 8) in *.
  assert (D : fvalue t0 - fvalue c52 = j * U) by (rewrite V0, Vc; fold U; lia).
  destruct (fsub_repr fp8 t0 c52 F0 Fc ltac:(rewrite D; apply small8; lia)) as (F1 & V1). rewrite D in V1.
  pose proof (fsub_sign fp8 t0 c52 F0 Fc N0 ltac:(rewrite D; nia)) as N1. set (t1 := fsub t0 c52) in *.
  assert (T2 : exists q, is_Finite (fsub t1 (if flt ax t1 then one8 else w0 8)) = true /\ fvalue (fsub t1 (if flt ax t1 then one8 else w0 8)) = q * U /\
     negative (fsub t1 (if flt ax t1 then one8 else w0 8)) = false /\ 0 <= q <= 2 ^ 52 /\ q * U <= fabs_value x < (q + 1) * U).
  { rewrite (flt_ok fp8). unfold float_lt, ordered. rewrite (finite_not_NaN ax Fa), (finite_not_NaN t1 F1), Va, V1. cbn [negb andb].
    destruct (Z.ltb_spec (fabs_value x) (j * U)) as [L|L].
    - destruct one8_ok as (Fo & Vo). exists (j - 1). assert (j <> 0) by (intros ->; nia).
      assert (D2 : fvalue t1 - fvalue one8 = (j - 1) * U) by (rewrite V1, Vo; fold U; lia).
      destruct (fsub_repr fp8 t1 one8 F1 Fo ltac:(rewrite D2; apply small8; lia)) as (F2 & V2). rewrite D2 in V2.
      pose proof (fsub_sign fp8 t1 one8 F1 Fo N1 ltac:(rewrite D2; nia)) as N2. repeat split; auto; try lia; nia.
    - exists j. assert (Fz : is_Finite (w0 8) = true) by (vm_compute; reflexivity). pose proof (zero_value fp8) as Vz.
      assert (D2 : fvalue t1 - fvalue (w0 8) = j * U) by (rewrite V1, Vz; lia).
      destruct (fsub_repr fp8 t1 (w0 8) F1 Fz ltac:(rewrite D2; apply small8; lia)) as (F2 & V2). rewrite D2 in V2.
      pose proof (fsub_sign fp8 t1 (w0 8) F1 Fz N1 ltac:(rewrite D2; nia)) as N2. repeat split; auto; try lia; nia. }
  destruct T2 as (q & F2 & V2 & N2 & Q & QB). set (t2 := fsub t1 (if flt ax t1 then one8 else w0 8)) in *. rewrite N2, orb_false_r.
  pose proof (mag_range fp8 t2) as M2.
  assert (MQ : mval (mant_bits 8) (magnitude t2) = q * U) by (rewrite (fvalue_mval fp8), N2 in V2; lia).
  assert (FM : magnitude t2 < inf_magnitude 8) by (rewrite (finite_mag fp8) in F2; now apply Z.ltb_lt).
  exists ((if negative x then -1 else 1) * q). rewrite (fvalue_with_sign fp8), MQ, (finite_with_sign fp8), (negative_with_sign fp8) by lia.
  pose proof (fvalue_abs fp8 x) as VX. change (mant_bits 8) with 52. split; [|split; [reflexivity|split; [destruct (negative x); lia|split; [|reflexivity]]]].
  - unfold is_trunc. rewrite VX. fold U. destruct (negative x); split; nia.
  - destruct (Z.eq_dec q (2 ^ 52)) as [->|NE]; [left|right; destruct (negative x); lia].
    assert (fabs_value x = 2 ^ 52 * U) by lia. rewrite VX. fold U. lia.
Qed.
Lemma trunc8_ok (x : word 8) : (is_Finite x = true -> Z.abs (fvalue x) <= 2 ^ 52 * one_units 8) -> trunc_ok x (trunc8_lane x).
Proof.
  intros B. unfold trunc_ok. repeat split.
  - intros F. destruct (trunc8_finite x F (B F)) as (z & A & A1 & A2 & A3 & _). exists z. auto.
  - intros N. unfold trunc8_lane. cbv zeta. set (ax := with_sign 8 false (magnitude x)).
    assert (NA : is_NaN ax = true).
    { rewrite (NaN_mag fp8 ax x); auto. unfold ax. apply (magnitude_with_sign fp8), (mag_range fp8). }
    pose proof (NaN_left fp8 fadd ax c52 (or_introl eq_refl) NA) as N0.
    pose proof (NaN_left fp8 fsub _ c52 (or_intror (or_introl eq_refl)) N0) as N1.
    pose proof (NaN_left fp8 fsub _ (if flt ax (fsub (fadd ax c52) c52) then one8 else w0 8) (or_intror (or_introl eq_refl)) N1) as N2.
    rewrite (NaN_mag fp8 _ (fsub (fsub (fadd ax c52) c52) (if flt ax (fsub (fadd ax c52) c52) then one8 else w0 8))); auto.
    apply (magnitude_with_sign fp8), (mag_range fp8).
  - intros I. rewrite (inf_ok fp8) in I. unfold is_inf in I. apply Z.eqb_eq in I. unfold trunc8_lane. cbv zeta. rewrite I.
    rewrite <- (with_sign_eta fp8 x), I. destruct (negative x); apply word_ext; vm_compute; reflexivity.
Qed.

(** * trunc, floor, ceil, round on registers *)
Lemma fp_width_ok w : fp_width w -> width_ok w.
Proof. unfold width_ok. intros [->| ->]; auto. Qed.
Lemma map2_same {X Y Z T} (f : Y -> Z -> T) (g : X -> Y) (h : X -> Z) xs : map2 f (map g xs) (map h xs) = map (fun x => f (g x) (h x)) xs.
Proof. induction xs; cbn; auto. now f_equal. Qed.
Lemma assign_map sse41 w (xs : list (word w)) (f g : word w -> word w) c :
  v_assign sse41 (pack (map f xs)) (pack (map g xs)) (mask_reg w (map c xs)) = pack (map (fun x => if c x : bool then g x else f x) xs).
Proof.
  unfold v_assign, mask_reg. rewrite blendv_pack by (now rewrite !map_length). f_equal. induction xs; cbn; auto. now f_equal.
Qed.
Lemma fcmp_map w rel (xs : list (word w)) (f g : word w -> word w) : length xs = (16 / w)%nat ->
  fcmp w rel (pack (map f xs)) (pack (map g xs)) = mask_reg w (map (fun x => rel (f x) (g x)) xs).
Proof. intros L. rewrite fcmp_pack by (now rewrite map_length). now rewrite map2_same. Qed.
Lemma lift2_map w op (xs : list (word w)) (f g : word w -> word w) : length xs = (16 / w)%nat -> lift2 w op (pack (map f xs)) (pack (map g xs)) = pack (map (fun x => op (f x) (g x)) xs).
Proof. intros L. rewrite lift2_pack by (now rewrite map_length). now rewrite map2_same. Qed.
Lemma map_const {X Y} (c : Y) (xs : list X) n : length xs = n -> repeat c n = map (fun _ => c) xs.
Proof. intros <-. induction xs; cbn; auto. now f_equal. Qed.
Lemma map_self {X} (xs : list X) : xs = map (fun x => x) xs.
Proof. symmetry. apply map_id. Qed.
Lemma zero_map w (xs : list (word w)) : fp_width w -> length xs = (16 / w)%nat -> mm_setzero = pack (map (fun _ => w0 w) xs).
Proof. intros Hw L. rewrite (setzero_pack w) by now apply fp_lane. f_equal. now apply map_const. Qed.
Lemma set1_fp_map w z (xs : list (word w)) : length xs = (16 / w)%nat -> set1_fp w z = pack (map (fun _ => of_int w z) xs).
Proof. intros L. rewrite set1_fp_pack. f_equal. now apply map_const. Qed.
Lemma not_map w (xs : list (word w)) c : fp_width w -> length xs = (16 / w)%nat -> m_not (mask_reg w (map c xs)) = mask_reg w (map (fun x => negb (c x)) xs).
Proof. intros Hw L. rewrite m_not_ok by (rewrite ?map_length; auto using fp_width_ok). now rewrite map_map. Qed.
Lemma and_map w (xs : list (word w)) c d : m_and (mask_reg w (map c xs)) (mask_reg w (map d xs)) = mask_reg w (map (fun x => c x && d x) xs).
Proof. rewrite m_and_ok by (now rewrite !map_length). now rewrite map2_same. Qed.
Lemma or_map w (xs : list (word w)) c d : m_or (mask_reg w (map c xs)) (mask_reg w (map d xs)) = mask_reg w (map (fun x => c x || d x) xs).
Proof. rewrite m_or_ok by (now rewrite !map_length). now rewrite map2_same. Qed.

Definition trunc_lane (w : nat) : word w -> word w := match w with 4%nat => trunc4_lane | 8%nat => trunc8_lane | _ => fun x => x end.
Lemma trunc_pack w (xs : list (word w)) : fp_width w -> length xs = (16 / w)%nat -> v_trunc false w (pack xs) = pack (map (trunc_lane w) xs).
Proof. intros [->| ->] L; [now apply trunc_ps_pack|now apply trunc_pd_pack]. Qed.
Lemma floor_pack w (xs : list (word w)) : fp_width w -> length xs = (16 / w)%nat ->
  v_floor false w (pack xs) = pack (map (fun x => floor_lane x (trunc_lane w x)) xs).
Proof.
  intros Hw L. unfold v_floor. cbv zeta. rewrite trunc_pack by auto. rewrite (set1_fp_map w 1 xs), (zero_map w xs) by auto.
  unfold v_fsub. rewrite lift2_map by auto.
  assert (E : forall rel (f : word w -> word w), fcmp w rel (pack (map f xs)) (pack xs) = mask_reg w (map (fun x => rel (f x) x) xs)).
  { intros. rewrite (map_self xs) at 2. now apply fcmp_map. }
  assert (E' : fcmp w flt (pack xs) (pack (map (fun _ => w0 w) xs)) = mask_reg w (map (fun x => flt x (w0 w)) xs)).
  { rewrite (map_self xs) at 1. now apply fcmp_map. }
  rewrite E, E', not_map, and_map, assign_map by auto. reflexivity.
Qed.
Lemma ceil_pack w (xs : list (word w)) : fp_width w -> length xs = (16 / w)%nat ->
  v_ceil false w (pack xs) = pack (map (fun x => ceil_lane x (trunc_lane w x)) xs).
Proof.
  intros Hw L. unfold v_ceil. cbv zeta. rewrite trunc_pack by auto. rewrite (set1_fp_map w 1 xs), (zero_map w xs) by auto.
  unfold v_fadd. rewrite lift2_map by auto.
  assert (E : forall rel (f : word w -> word w), fcmp w rel (pack (map f xs)) (pack xs) = mask_reg w (map (fun x => rel (f x) x) xs)).
  { intros. rewrite (map_self xs) at 2. now apply fcmp_map. }
  assert (E' : fcmp w flt (pack xs) (pack (map (fun _ => w0 w) xs)) = mask_reg w (map (fun x => flt x (w0 w)) xs)).
  { rewrite (map_self xs) at 1. now apply fcmp_map. }
  rewrite E, E', or_map, not_map, assign_map by auto. reflexivity.
Qed.
Lemma round_pack w (xs : list (word w)) : fp_width w -> length xs = (16 / w)%nat ->
  v_round false w (pack xs) = pack (map (fun x => of_int w (sval (cvt_int32 ToNearest x))) xs).
Proof.
  intros [->| ->] L; cbn [v_round].
  - unfold cvtps_epi32. rewrite lift1_pack by auto. rewrite cvtepi32_ps_pack by (now rewrite map_length). now rewrite map_map.
  - unfold cvtpd_epi32. rewrite lanes_pack by auto. rewrite cvtepi32_pd_pack by (rewrite app_length, map_length; cbn [length]; now rewrite L).
    two xs. reflexivity.
Qed.
Lemma round_lane_ok {w} (Hw : fp_width w) (x : word w) : is_Finite x = true -> - 2 ^ 31 * fone w <= fvalue x <= (2 ^ 31 - 1) * fone w ->
  exists z, is_round (fvalue x) (fone w) z /\ has_value (of_int w (sval (cvt_int32 ToNearest x))) z.
Proof.
  intros F B. unfold has_value. rewrite (fone_units Hw) in *. pose proof (one_units_pos Hw) as P. set (z := round_int ToNearest x).
  pose proof (round_mode Hw ToNearest x) as R. cbv iota beta in R. fold z in R.
  assert (ZB : - 2 ^ 31 <= z < 2 ^ 31) by (unfold is_round in R; nia).
  exists z. split; [exact R|]. rewrite (cvt_int32_ok Hw) by auto. rewrite mkw4_sval by auto. fold z.
  destruct (of_int_exact Hw z (round_int_repr Hw ToNearest x F)) as (A & V & _). auto.
Qed.

(** * frexp, ldexp, exponent *)
Section Fields.
  Context {w : nat} (Hw : fp_width w).
  Local Notation p := (mant_bits w).
  Local Notation k := (exp_bits w).
  Definition with_fields (neg : bool) (e f : Z) : word w := with_sign w neg (e * 2 ^ p + f).
  Lemma fields_range (x : word w) : 0 <= exponent_field x < 2 ^ k /\ 0 <= fraction x < 2 ^ p.
  Proof.
    unfold exponent_field, fraction. rewrite (frac_mant Hw), (expo_exp Hw). split; apply Z.mod_pos_bound; apply pow_pos2; [apply (exp_nonneg Hw)|apply (mant_nonneg Hw)].
  Qed.
  Lemma mag_fields (x : word w) : magnitude x = exponent_field x * 2 ^ p + fraction x.
  Proof.
    destruct (fields Hw x) as (F & E & R). rewrite F, E. pose proof (pow_pos2 p (mant_nonneg Hw)).
    pose proof (Z.div_mod (magnitude x) (2 ^ p) ltac:(lia)). lia.
  Qed.
  Lemma fields_eta (x : word w) : with_fields (negative x) (exponent_field x) (fraction x) = x.
  Proof. unfold with_fields. rewrite <- mag_fields. apply (with_sign_eta Hw). Qed.
  Lemma fields_bound e f : 0 <= e < 2 ^ k -> 0 <= f < 2 ^ p -> 0 <= e * 2 ^ p + f < sign_weight w.
  Proof. intros. rewrite (sign_split Hw). pose proof (pow_pos2 p (mant_nonneg Hw)). nia. Qed.
  Lemma expo_with_fields neg e f : 0 <= e < 2 ^ k -> 0 <= f < 2 ^ p -> exponent_field (with_fields neg e f) = e /\ fraction (with_fields neg e f) = f /\ negative (with_fields neg e f) = neg.
  Proof.
    intros He Hf. pose proof (fields_bound e f He Hf) as B. destruct (fields Hw (with_fields neg e f)) as (F & E & _). unfold with_fields in *.
    rewrite (magnitude_with_sign Hw) in F, E by auto. rewrite F, E. rewrite (negative_with_sign Hw) by auto.
    pose proof (pow_pos2 p (mant_nonneg Hw)). rewrite Z.div_add_l, (Z.div_small f), (Z.add_comm (e * 2 ^ p)), Z.mod_add, Z.mod_small by lia. auto with zarith.
  Qed.
  Lemma value_fields neg e f : 0 < e < 2 ^ k -> 0 <= f < 2 ^ p -> fvalue (with_fields neg e f) = (if neg then -1 else 1) * ((2 ^ p + f) * 2 ^ (e - 1)).
  Proof.
    intros He Hf. destruct (expo_with_fields neg e f ltac:(lia) Hf) as (E & F & N). rewrite (fvalue_abs Hw), N. f_equal.
    unfold fabs_value. rewrite E, F, (frac_mant Hw). destruct (Z.eqb_spec e 0); [lia|reflexivity].
  Qed.
  Lemma u_fields (x : word w) : uval x = (((if negative x then 1 else 0) * 2 ^ k) + exponent_field x) * 2 ^ p + fraction x.
  Proof. rewrite (u_sign Hw x), (mag_fields x), (sign_split Hw). destruct (negative x); ring. Qed.
  Lemma value_zero (x : word w) : fvalue x = 0 -> magnitude x = 0.
  Proof.
    intros V. rewrite (fvalue_mval Hw) in V. assert (M : mval p (magnitude x) = 0) by (destruct (negative x); lia).
    destruct (Z.eq_dec (magnitude x) 0); [auto|]. pose proof (mag_range Hw x).
    pose proof (mval_lt p 0 (magnitude x) (mant_nonneg Hw) ltac:(lia) ltac:(lia)) as L. rewrite mval_0 in L by apply (mant_nonneg Hw). lia.
  Qed.
  Lemma zero_test (x : word w) : feq x (w0 w) = (is_Finite x && (fvalue x =? 0)).
  Proof.
    rewrite (feq_ok Hw). unfold float_eq, ordered. rewrite (zero_NaN Hw), (zero_value Hw), andb_true_r.
    destruct (is_Finite x) eqn:F.
    - now rewrite (finite_not_NaN x F).
    - cbn [andb]. destruct (Z.eqb_spec (fvalue x) 0) as [V|V]; [|apply andb_false_r]. exfalso.
      pose proof (value_zero x V) as M. rewrite (finite_mag Hw), M in F. apply Z.ltb_ge in F. pose proof (inf_bound Hw). lia.
  Qed.
  Lemma special_test (x : word w) : ((is_NaN x || negb (is_Finite x)) || feq x (w0 w)) = negb (is_Finite x && negb (fvalue x =? 0)).
  Proof.
    rewrite zero_test. destruct (is_Finite x) eqn:F; cbn [negb andb orb].
    - rewrite (finite_not_NaN x F). cbn [orb]. now rewrite negb_involutive.
    - now rewrite orb_true_r.
  Qed.
  (** the mantissa of frexp *)
  Definition half_expo : Z := 2 ^ (k - 1) - 2.
  Definition frexp_lane (x : word w) : word w := if negb (is_Finite x && negb (fvalue x =? 0)) then x else with_fields (negative x) half_expo (fraction x).
  Definition frexp_exp (x : word w) : Z := if is_Finite x && (fvalue x =? 0) then 0 else exponent_field x - half_expo.
  Lemma expo_small : 0 <= half_expo < 2 ^ k /\ 0 < half_expo.
  Proof. unfold half_expo. destruct Hw as [->| ->]; vm_compute; repeat split; discriminate || reflexivity. Qed.
  Lemma frexp_lane_ok (x : word w) : frexp_ok x (frexp_lane x) (frexp_exp x).
  Proof.
    destruct (fields_range x) as (RE & RF). destruct expo_small as (HE & HE').
    unfold frexp_ok, frexp_lane, frexp_exp. repeat split.
    - apply andb_true_iff in H as (F & H). rewrite negb_true_iff, Z.eqb_neq in H. rewrite F.
      assert (V : fvalue x <> 0) by (rewrite <- (fields_eta x), value_fields by lia; pose proof (pow_pos2 (exponent_field x - 1) ltac:(lia)); pose proof (pow_pos2 p (mant_nonneg Hw)); destruct (negative x); nia).
      rewrite (proj2 (Z.eqb_neq _ _) V). cbn [negb andb]. rewrite value_fields by lia. rewrite (fone_units Hw).
      assert (E : one_units w = 2 ^ p * 2 ^ (half_expo - 1) * 2) by (unfold half_expo; destruct Hw as [->| ->]; vm_compute; reflexivity).
      rewrite E. pose proof (pow_pos2 (half_expo - 1) ltac:(lia)). destruct (negative x); rewrite Z.abs_mul; [change (Z.abs (-1)) with 1|change (Z.abs 1) with 1]; rewrite Z.abs_eq by nia; nia.
    - apply andb_true_iff in H as (F & H). rewrite negb_true_iff, Z.eqb_neq in H. rewrite F.
      assert (V : fvalue x <> 0) by (rewrite <- (fields_eta x), value_fields by lia; pose proof (pow_pos2 (exponent_field x - 1) ltac:(lia)); pose proof (pow_pos2 p (mant_nonneg Hw)); destruct (negative x); nia).
      rewrite (proj2 (Z.eqb_neq _ _) V). cbn [negb andb]. rewrite value_fields by lia. rewrite (fone_units Hw).
      assert (E : one_units w = 2 ^ p * 2 ^ (half_expo - 1) * 2) by (unfold half_expo; destruct Hw as [->| ->]; vm_compute; reflexivity).
      rewrite E. pose proof (pow_pos2 (half_expo - 1) ltac:(lia)). destruct (negative x); rewrite Z.abs_mul; [change (Z.abs (-1)) with 1|change (Z.abs 1) with 1]; rewrite Z.abs_eq by nia; nia.
    - apply andb_true_iff in H as (F & H). rewrite negb_true_iff, Z.eqb_neq in H. rewrite F.
      assert (V : fvalue x <> 0) by (rewrite <- (fields_eta x), value_fields by lia; pose proof (pow_pos2 (exponent_field x - 1) ltac:(lia)); pose proof (pow_pos2 p (mant_nonneg Hw)); destruct (negative x); nia).
      rewrite (proj2 (Z.eqb_neq _ _) V). cbn [negb andb]. unfold scaled_by. rewrite value_fields by lia.
      rewrite <- (fields_eta x) at 1. rewrite value_fields by lia. rewrite <- !Z.mul_assoc. do 2 f_equal. rewrite <- !Z.pow_add_r by lia. f_equal. lia.
    - rewrite H, H0. reflexivity.
    - rewrite H, H0. reflexivity.
    - intros F. rewrite F. reflexivity.
  Qed.
  (** x + (e << p) *)
  Definition ldexp_word (x : word w) (e : Z) : word w := if is_Finite x && (fvalue x =? 0) then x else mkw w (uval x + e * 2 ^ p).
  Lemma ldexp_fields (x : word w) e : 0 <= exponent_field x + e < 2 ^ k -> mkw w (uval x + e * 2 ^ p) = with_fields (negative x) (exponent_field x + e) (fraction x).
  Proof.
    intros R. destruct (fields_range x) as (RE & RF). pose proof (fields_bound (exponent_field x + e) (fraction x) R RF) as B.
    unfold with_fields, with_sign. f_equal. rewrite u_fields, (sign_split Hw). destruct (negative x); ring.
  Qed.
  Lemma normal_nonzero (x : word w) : is_Normal x = true -> is_Finite x = true /\ fvalue x <> 0 /\ 0 < exponent_field x.
  Proof.
    intros H. destruct (fields_range x) as (RE & RF). apply andb_true_iff in H as (F & H). rewrite negb_true_iff, Z.eqb_neq in H. split; [auto|]. split; [|lia].
    rewrite <- (fields_eta x), value_fields by lia. pose proof (pow_pos2 (exponent_field x - 1) ltac:(lia)). pose proof (pow_pos2 p (mant_nonneg Hw)). destruct (negative x); nia.
  Qed.
  Lemma ldexp_word_ok (x : word w) e : is_Normal x = true -> ldexp_in_range x e -> is_Finite (ldexp_word x e) = true /\ scaled_by x e (ldexp_word x e).
  Proof.
    intros N R. destruct (normal_nonzero x N) as (F & V & E). destruct (fields_range x) as (RE & RF). unfold ldexp_in_range in R. rewrite (expo_exp Hw) in R.
    unfold ldexp_word. rewrite F, (proj2 (Z.eqb_neq _ _) V). cbn [andb]. rewrite ldexp_fields by lia.
    destruct (expo_with_fields (negative x) (exponent_field x + e) (fraction x) ltac:(lia) RF) as (E' & F' & N').
    split.
    - unfold is_Finite, all_ones_exponent. rewrite E', (expo_exp Hw). rewrite negb_true_iff, Z.eqb_neq. lia.
    - unfold scaled_by. rewrite value_fields by lia. assert (VX : fvalue x = (if negative x then -1 else 1) * ((2 ^ p + fraction x) * 2 ^ (exponent_field x - 1))) by (rewrite <- (fields_eta x) at 1; now rewrite value_fields by lia). rewrite VX.
      rewrite <- !Z.mul_assoc. do 2 f_equal. rewrite <- !Z.pow_add_r by lia. f_equal. lia.
  Qed.
  Lemma ldexp_frexp (x : word w) : is_Finite x = true -> ldexp_word (frexp_lane x) (frexp_exp x) = x.
  Proof.
    intros F. destruct (fields_range x) as (RE & RF). destruct expo_small as (HE & HE'). unfold frexp_lane, frexp_exp. rewrite F. cbn [andb].
    destruct (Z.eqb_spec (fvalue x) 0) as [V|V]; cbn [negb].
    - unfold ldexp_word. rewrite F, V. reflexivity.
    - unfold ldexp_word. destruct (expo_with_fields (negative x) half_expo (fraction x) HE RF) as (E' & F' & N').
      assert (V' : fvalue (with_fields (negative x) half_expo (fraction x)) <> 0).
      { rewrite value_fields by lia. pose proof (pow_pos2 (half_expo - 1) ltac:(lia)). pose proof (pow_pos2 p (mant_nonneg Hw)). destruct (negative x); nia. }
      rewrite (proj2 (Z.eqb_neq _ _) V'), andb_false_r. rewrite ldexp_fields by (rewrite E'; lia). rewrite E', F', N'.
      replace (half_expo + (exponent_field x - half_expo)) with (exponent_field x) by lia. apply fields_eta.
  Qed.
  (** exponent *)
  Lemma exponent_ok (x : word w) : is_Normal x = true -> sign_bit x = false ->
    uval x / 2 ^ p = exponent_field x /\ is_log2 x (exponent_field x - (2 ^ (k - 1) - 1)) /\
    has_value (of_int w (exponent_field x - (2 ^ (k - 1) - 1))) (exponent_field x - (2 ^ (k - 1) - 1)).
  Proof.
    intros N S. rewrite (sign_bit_neg Hw) in S. destruct (normal_nonzero x N) as (F & V & E). destruct (fields_range x) as (RE & RF).
    pose proof (pow_pos2 p (mant_nonneg Hw)) as PP. split; [|split].
    - rewrite u_fields, S. rewrite Z.mul_0_l, Z.add_0_l, Z.div_add_l, Z.div_small by lia. lia.
    - unfold is_log2. rewrite (fone_units Hw). assert (VX : fvalue x = (2 ^ p + fraction x) * 2 ^ (exponent_field x - 1)) by (rewrite <- (fields_eta x) at 1; rewrite value_fields, S by lia; lia). rewrite VX.
      set (c := 2 ^ (k - 1) - 1). assert (U : one_units w = 2 ^ p * 2 ^ (c - 1)) by (unfold c; destruct Hw as [->| ->]; vm_compute; reflexivity).
      assert (C : 0 < c) by (unfold c; destruct Hw as [->| ->]; vm_compute; reflexivity).
      assert (Q : 2 ^ (exponent_field x - 1) * 2 ^ Z.max 0 (- (exponent_field x - c)) = 2 ^ (c - 1) * 2 ^ Z.max 0 (exponent_field x - c)).
      { rewrite <- !Z.pow_add_r by lia. f_equal. lia. }
      rewrite U, <- !Z.mul_assoc, Q. pose proof (pow_pos2 (c - 1) ltac:(lia)). pose proof (pow_pos2 (Z.max 0 (exponent_field x - c)) ltac:(lia)).
      set (Y := 2 ^ (c - 1) * 2 ^ Z.max 0 (exponent_field x - c)). assert (0 < Y) by (unfold Y; nia). nia.
    - set (z := exponent_field x - (2 ^ (k - 1) - 1)).
      assert (Zs : Z.abs z <= 2 ^ (p + 1)).
      { unfold z. assert (2 ^ k <= 2 ^ (p + 1) /\ 0 <= 2 ^ (k - 1) - 1 < 2 ^ k) by (destruct Hw as [->| ->]; vm_compute; repeat split; discriminate || reflexivity). lia. }
      destruct (of_int_exact Hw z (exact_small Hw z Zs)) as (A & B & _). split; [exact A|]. now rewrite (fone_units Hw).
  Qed.
End Fields.

(** * frexp, ldexp, exponent on registers *)
Lemma set_zero_map w (xs : list (word w)) (f : word w -> word w) c :
  v_set_zero (pack (map f xs)) (mask_reg w (map c xs)) = pack (map (fun x => if c x : bool then w0 w else f x) xs).
Proof.
  unfold v_set_zero, mask_reg. rewrite andnot_pack by (now rewrite !map_length). f_equal. rewrite map_map, map2_same. apply map_ext. intros. apply wandnot_mask.
Qed.
Lemma zero_lanes_pack w (xs : list (word w)) : fp_width w -> length xs = (16 / w)%nat -> zero_lanes w (pack xs) = mask_reg w (map (fun x => is_Finite x && (fvalue x =? 0)) xs).
Proof.
  intros Hw L. unfold zero_lanes. rewrite (zero_map w xs) by auto. rewrite (map_self xs) at 1. rewrite fcmp_map by auto. f_equal. apply map_ext. intros. now apply zero_test.
Qed.
Lemma special_lanes_pack w (xs : list (word w)) : fp_width w -> length xs = (16 / w)%nat ->
  special_lanes w (pack xs) = mask_reg w (map (fun x => negb (is_Finite x && negb (fvalue x =? 0))) xs).
Proof.
  intros Hw L. unfold special_lanes. rewrite isnan_pack, isfinite_pack, zero_lanes_pack, not_map, !or_map by auto. f_equal. apply map_ext. intros x.
  rewrite <- (special_test Hw x), (zero_test Hw x). reflexivity.
Qed.
Lemma or_set1 w z (xs : list (word w)) : length xs = (16 / w)%nat -> mm_or (pack xs) (set1 w z) = pack (map (fun x => wor x (mkw w z)) xs).
Proof. intros L. rewrite SseArithP.set1_pack, or_pack by (now rewrite rep_len). now rewrite map2_repeat_r. Qed.
Section Bits.
  Context {w : nat} (Hw : fp_width w).
  Local Notation p := (mant_bits w).
  Local Notation k := (exp_bits w).
  Lemma frexp_bits (x : word w) : wand (wor x (mkw w ((2 ^ k - 1) * 2 ^ p))) (mkw w ((2 ^ k + half_expo (w := w)) * 2 ^ p + (2 ^ p - 1))) =
    with_fields (negative x) (half_expo (w := w)) (fraction x).
  Proof.
    destruct (fields_range Hw x) as (RE & RF). destruct (expo_small Hw) as (HE & HE'). pose proof (pow_pos2 p (mant_nonneg Hw)) as PP. pose proof (pow_pos2 k (exp_nonneg Hw)) as PK.
    assert (MOD : modulus w = 2 * (2 ^ p * 2 ^ k)) by (rewrite (mod_sign Hw), (sign_split Hw); reflexivity).
    assert (M1 : uval (mkw w ((2 ^ k - 1) * 2 ^ p)) = (2 ^ k - 1) * 2 ^ p) by (apply mkw_small; nia).
    assert (HB : (2 ^ k + half_expo (w := w) + 1) * 2 ^ p <= 2 * 2 ^ k * 2 ^ p) by (apply Z.mul_le_mono_nonneg_r; lia).
    assert (HN : 0 <= (2 ^ k + half_expo (w := w)) * 2 ^ p) by (apply Z.mul_nonneg_nonneg; lia).
    assert (M2 : uval (mkw w ((2 ^ k + half_expo (w := w)) * 2 ^ p + (2 ^ p - 1))) = (2 ^ k + half_expo (w := w)) * 2 ^ p + (2 ^ p - 1)) by (apply mkw_small; rewrite MOD; lia).
    set (s := if negative x then 1 else 0).
    assert (OR : uval (wor x (mkw w ((2 ^ k - 1) * 2 ^ p))) = (s * 2 ^ k + (2 ^ k - 1)) * 2 ^ p + fraction x).
    { unfold wor. rewrite M1, (u_fields Hw x). fold s.
      replace ((2 ^ k - 1) * 2 ^ p) with ((2 ^ k - 1) * 2 ^ p + 0) by lia. rewrite lor_split, Z.lor_0_r by (apply (mant_nonneg Hw) || lia).
      pose proof (lor_split k s 0 (exponent_field x) (2 ^ k - 1) (exp_nonneg Hw) RE ltac:(lia)) as L. rewrite Z.mul_0_l, Z.add_0_l, Z.lor_0_r in L. rewrite L.
      assert (O : Z.lor (exponent_field x) (2 ^ k - 1) = 2 ^ k - 1).
      { replace (2 ^ k - 1) with (Z.ones k) by (rewrite Z.ones_equiv; lia). destruct (Z.eq_dec (exponent_field x) 0) as [->|N]; [apply Z.lor_0_l|].
        apply Z.lor_ones_low; [lia|]. apply Z.log2_lt_pow2; lia. }
      rewrite O. apply mkw_small. assert (0 <= s <= 1) by (unfold s; destruct (negative x); lia). nia. }
    apply word_ext. unfold wand. rewrite OR, M2, uval_mkw. rewrite land_split by (apply (mant_nonneg Hw) || lia).
    replace (2 ^ k + half_expo (w := w)) with (1 * 2 ^ k + half_expo (w := w)) by lia. rewrite land_split by (apply (exp_nonneg Hw) || lia).
    rewrite (Z.land_comm (2 ^ k - 1)), !land_low by (apply (exp_nonneg Hw) || apply (mant_nonneg Hw)). rewrite (Z.mod_small (half_expo (w := w))), (Z.mod_small (fraction x)) by lia.
    replace (Z.land s 1) with s by (unfold s; destruct (negative x); reflexivity).
    unfold with_fields, with_sign. rewrite uval_mkw. f_equal. rewrite (sign_split Hw). unfold s. destruct (negative x); ring.
  Qed.
End Bits.

Lemma frexp_ps_fst sse41 (xs : list (word 4)) : length xs = 4%nat -> fst (v_frexp_ps sse41 (pack xs)) = pack (map (frexp_lane (w := 4)) xs).
Proof.
  intros L. unfold v_frexp_ps, exponent_mask, frexp_mask. cbv zeta. cbn [fst]. rewrite or_set1 by auto. rewrite and_set1 by (now rewrite map_length). rewrite map_map.
  rewrite special_lanes_pack by (auto using fp4). rewrite (map_self xs) at 2. rewrite assign_map. f_equal. apply map_ext. intros x. unfold frexp_lane.
  destruct (negb _); [reflexivity|]. exact (frexp_bits fp4 x).
Qed.
Lemma srl_expo4 (x : word 4) : mkw 4 (uval (wand x (mkw 4 0x7f800000)) / 2 ^ 23) = mkw 4 (exponent_field x).
Proof.
  rewrite expo_and4. pose proof (expo4_range x). rewrite mkw_small by (change (modulus 4) with (2 ^ 32); lia). now rewrite Z.div_mul by lia.
Qed.
Lemma srl_expo8 (x : word 8) : mkw 8 (uval (wand x (mkw 8 0x7ff0000000000000)) / 2 ^ 52) = mkw 8 (exponent_field x).
Proof.
  rewrite expo_and8. pose proof (expo8_range x). rewrite mkw_small by (change (modulus 8) with (2 ^ 64); lia). now rewrite Z.div_mul by lia.
Qed.
Lemma wsub_mkw w a b : wsub (mkw w a) (mkw w b) = mkw w (a - b).
Proof. unfold wsub. rewrite !uval_mkw. apply mkw_eq. now rewrite <- Zminus_mod. Qed.
Lemma frexp_ps_snd sse41 (xs : list (word 4)) : length xs = 4%nat -> snd (v_frexp_ps sse41 (pack xs)) = pack (map (fun x => mkw 4 (frexp_exp (w := 4) x)) xs).
Proof.
  intros L. unfold v_frexp_ps, exponent_mask. cbv zeta. cbn [snd]. rewrite and_set1 by auto. unfold srli_epi, sub_epi. rewrite lift1_pack by (now rewrite map_length). rewrite map_map.
  rewrite SseArithP.set1_pack. rewrite lift2_pack by (rewrite ?map_length; auto). rewrite map2_repeat_r by (now rewrite map_length). rewrite map_map.
  rewrite zero_lanes_pack by (auto using fp4). rewrite set_zero_map. f_equal. apply map_ext. intros x. unfold frexp_exp. change (half_expo (w := 4)) with 126.
  rewrite srl_expo4, wsub_mkw. destruct (_ && _); reflexivity.
Qed.
Lemma frexp_exp_range {w} (Hw : fp_width w) (x : word w) : - 2 ^ 31 <= frexp_exp (w := w) x < 2 ^ 31.
Proof.
  unfold frexp_exp. destruct (_ && _); [lia|]. destruct (fields_range Hw x) as (R & _).
  unfold half_expo. destruct Hw as [->| ->]; [change (2 ^ exp_bits 4) with 256 in R; change (2 ^ (exp_bits 4 - 1) - 2) with 126|change (2 ^ exp_bits 8) with 2048 in R; change (2 ^ (exp_bits 8 - 1) - 2) with 1022]; lia.
Qed.
Lemma frexp_pd_fst sse41 (xs : list (word 8)) : length xs = 2%nat -> fst (v_frexp_pd sse41 (pack xs)) = pack (map (frexp_lane (w := 8)) xs).
Proof.
  intros L. unfold v_frexp_pd, exponent_mask, frexp_mask. cbv zeta. cbn [fst]. rewrite or_set1 by auto. rewrite and_set1 by (now rewrite map_length). rewrite map_map.
  rewrite special_lanes_pack by (auto using fp8). rewrite (map_self xs) at 2. rewrite assign_map. f_equal. apply map_ext. intros x. unfold frexp_lane.
  destruct (negb _); [reflexivity|]. exact (frexp_bits fp8 x).
Qed.
Lemma lo_expo (x : word 8) : @lo_half 4 (mkw 8 (exponent_field x)) = mkw 4 (exponent_field x).
Proof. unfold lo_half. pose proof (expo8_range x). change (2 * 4)%nat with 8%nat. rewrite mkw_small; [reflexivity|]. change (modulus 8) with (2 ^ 64). lia. Qed.
Lemma mask8_4 b c : mask_reg 8 [b; c] = mask_reg 4 [b; b; c; c].
Proof. exact (pack_wmask2 b c). Qed.
Lemma frexp_pd_snd sse41 (x0 x1 : word 8) : snd (v_frexp_pd sse41 (pack [x0; x1])) = (mkw 4 (frexp_exp (w := 8) x0), mkw 4 (frexp_exp (w := 8) x1)).
Proof.
  unfold v_frexp_pd, exponent_mask. cbv zeta. cbn [snd]. rewrite and_set1 by auto. unfold srli_epi, sub_epi. rewrite lift1_pack by reflexivity. rewrite map_map. cbn [map].
  rewrite !srl_expo8. rewrite pack_halves2, SseArithP.set1_pack. change (16 / 4)%nat with 4%nat. cbn [repeat]. rewrite lift2_pack by reflexivity. cbn [map2].
  rewrite zero_lanes_pack by (auto using fp8). cbn [map]. rewrite mask8_4. unfold v_set_zero, mask_reg. cbn [map]. rewrite andnot_pack by reflexivity. cbn [map2]. rewrite !wandnot_mask.
  rewrite lanes_pack by reflexivity. cbn [nth]. rewrite !lo_expo, !wsub_mkw. unfold frexp_exp. change (half_expo (w := 8)) with 1022.
  f_equal; destruct (_ && _); reflexivity.
Qed.

Lemma ldexp_ps_pack (xs es : list (word 4)) : length xs = 4%nat -> length es = 4%nat ->
  v_ldexp_ps (pack xs) (pack es) = pack (map2 (fun x e => ldexp_word (w := 4) x (sval e)) xs es).
Proof.
  intros L Le. unfold v_ldexp_ps, v_shl. cbv zeta. rewrite zero_lanes_pack by (auto using fp4). unfold v_set_zero, mask_reg.
  rewrite andnot_pack by (rewrite !map_length; congruence). unfold slli_epi. cbn [esize]. rewrite lift1_pack by (rewrite map2_length, !map_length, L, Le; reflexivity).
  rewrite (v_add_pack Int) by (first [exact L | rewrite map_length, map2_length, !map_length, L, Le; reflexivity]). f_equal. clear L Le. revert es.
  induction xs as [|x xs IH]; intros [|e es]; cbn [map map2]; auto. f_equal; [|apply IH]. rewrite wandnot_mask. unfold ldexp_word. change (mant_bits 4) with 23.
  destruct (_ && _).
  - apply word_ext. unfold wadd. cbn [esize]. rewrite uval_w0, uval_mkw, Z.add_0_r. apply Z.mod_small, uval_range.
  - unfold wadd. rewrite uval_mkw. apply mkw_eq. cbn [esize]. rewrite Zplus_mod_idemp_r. rewrite Zplus_mod, (Zplus_mod (uval x) (sval e * 2 ^ 23)). f_equal. f_equal.
    rewrite <- (sval_mod e). now rewrite Zmult_mod_idemp_l.
Qed.
Lemma join_zero4 (x : word 4) : @join 4 x (w0 4) = mkw 8 (uval x).
Proof.
  apply word_ext. rewrite (uval_join 4), uval_w0, uval_mkw. pose proof (uval_range x). rewrite Z.mod_small; [lia|].
  change (2 * 4)%nat with 8%nat. change (modulus 8) with (2 ^ 64). change (modulus 4) with (2 ^ 32) in *. lia.
Qed.
Lemma ldexp_pd_pack (x0 x1 : word 8) (e0 e1 : word 4) :
  v_ldexp_pd (pack [x0; x1]) e0 e1 = pack [ldexp_word (w := 8) x0 (sval e0); ldexp_word (w := 8) x1 (sval e1)].
Proof.
  unfold v_ldexp_pd. cbv zeta. rewrite zero_lanes_pack by (auto using fp8). rewrite SseArithP.pack_join, !join_zero4. unfold v_set_zero, mask_reg. cbn [map].
  rewrite andnot_pack by reflexivity. cbn [map2]. rewrite !wandnot_mask. unfold slli_epi, add_epi. rewrite lift1_pack by reflexivity. cbn [map]. rewrite lift2_pack by reflexivity. cbn [map2].
  assert (H : forall (x : word 8) (e : word 4), wadd x (mkw 8 (uval (if is_Finite x && (fvalue x =? 0) then w0 8 else mkw 8 (uval e)) * 2 ^ 52)) = ldexp_word (w := 8) x (sval e)).
  { intros x e. unfold ldexp_word. change (mant_bits 8) with 52. destruct (_ && _).
    - apply word_ext. unfold wadd. rewrite uval_w0, uval_mkw, Z.add_0_r. apply Z.mod_small, uval_range.
    - unfold wadd. rewrite uval_mkw. apply mkw_eq. rewrite Zplus_mod_idemp_r.
      pose proof (uval_range e). rewrite mkw_small by (change (modulus 8) with (2 ^ 64); change (modulus 4) with (2 ^ 32) in *; lia).
      pose proof (sval_mod e) as SM. pose proof (Z.div_mod (sval e) (modulus 4) ltac:(discriminate)) as DM. rewrite SM in DM.
      replace (uval x + sval e * 2 ^ 52) with (uval x + uval e * 2 ^ 52 + (sval e / modulus 4 * 2 ^ 20) * modulus 8).
      + now rewrite Z.mod_add by discriminate.
      + change (modulus 8) with (modulus 4 * 2 ^ 32). rewrite DM at 2. ring. }
  now rewrite !H.
Qed.

Lemma exponent_ps_pack (xs : list (word 4)) : length xs = 4%nat -> v_exponent 4 (pack xs) = pack (map (fun x => of_int 4 (sval (mkw 4 (uval x / 2 ^ 23 - 127)))) xs).
Proof.
  intros L. unfold v_exponent, srli_epi, sub_epi. rewrite lift1_pack by auto. rewrite SseArithP.set1_pack, lift2_pack by (rewrite ?map_length; auto).
  rewrite map2_repeat_r by (now rewrite map_length). rewrite cvtepi32_ps_pack by (now rewrite !map_length). rewrite !map_map. f_equal. apply map_ext. intros. now rewrite wsub_mkw.
Qed.
Lemma exponent_pd_pack (xs : list (word 8)) : length xs = 2%nat -> v_exponent 8 (pack xs) = pack (map (fun x => of_int 8 (sval (mkw 4 (uval x / 2 ^ 52 - 1023)))) xs).
Proof.
  intros L. two xs. unfold v_exponent, srli_epi, sub_epi. rewrite lift1_pack by reflexivity. cbn [map]. rewrite pack_halves2, SseArithP.set1_pack. change (16 / 4)%nat with 4%nat. cbn [repeat].
  rewrite lift2_pack by reflexivity. cbn [map2]. rewrite shuffle_epi32_pack by reflexivity. unfold imm2. cbn [Nat.mul Nat.add Nat.div Nat.modulo Nat.pow Nat.divmod fst snd Nat.sub map nth].
  rewrite cvtepi32_pd_pack by reflexivity. cbn [map firstn].
  assert (H : forall x : word 8, wsub (@lo_half 4 (mkw 8 (uval x / 2 ^ 52))) (mkw 4 1023) = mkw 4 (uval x / 2 ^ 52 - 1023)).
  { intros x. unfold lo_half. change (2 * 4)%nat with 8%nat. pose proof (uval_range x) as R. change (modulus 8) with (2 ^ 64) in R.
    assert (0 <= uval x / 2 ^ 52 < 2 ^ 12) by (split; [apply Z.div_pos; lia|apply Z.div_lt_upper_bound; lia]).
    rewrite mkw_small by (change (modulus 8) with (2 ^ 64); lia). apply wsub_mkw. }
  now rewrite !H.
Qed.
Lemma exponent_lane4 (x : word 4) : is_Normal x = true -> sign_bit x = false ->
  exists k, is_log2 x k /\ has_value (of_int 4 (sval (mkw 4 (uval x / 2 ^ 23 - 127)))) k.
Proof.
  intros N S. destruct (exponent_ok fp4 x N S) as (E & L & V). change (mant_bits 4) with 23 in E. change (2 ^ (exp_bits 4 - 1) - 1) with 127 in *.
  pose proof (expo4_range x). rewrite E, mkw4_sval by lia. eauto.
Qed.
Lemma exponent_lane8 (x : word 8) : is_Normal x = true -> sign_bit x = false ->
  exists k, is_log2 x k /\ has_value (of_int 8 (sval (mkw 4 (uval x / 2 ^ 52 - 1023)))) k.
Proof.
  intros N S. destruct (exponent_ok fp8 x N S) as (E & L & V). change (mant_bits 8) with 52 in E. change (2 ^ (exp_bits 8 - 1) - 1) with 1023 in *.
  pose proof (expo8_range x). rewrite E, mkw4_sval by lia. eauto.
Qed.

(** * Random *)
Section Rand.
  Context {w : nat} (Hw : fp_width w).
  Local Notation p := (mant_bits w).
  Local Notation k := (exp_bits w).
  Local Notation c := (2 ^ (k - 1) - 1).
  Definition fone_word : word w := mkw w (c * 2 ^ p).
  Lemma fone_word_ok : fone_word = with_fields (w := w) false c 0.
  Proof. unfold fone_word, with_fields, with_sign. f_equal. lia. Qed.
  Lemma bias_facts : 0 < c < 2 ^ k /\ one_units w = 2 ^ p * 2 ^ (c - 1) /\ p + 1 + (c - 1) <= FpIntP.top_exp w.
  Proof. destruct Hw as [->| ->]; repeat split; vm_compute; discriminate || reflexivity. Qed.
  Lemma unit_sub f : 0 <= f < 2 ^ p -> in_unit_interval (fsub (with_fields (w := w) false c f) fone_word).
  Proof.
    intros F. destruct bias_facts as (C & U & T). rewrite fone_word_ok. pose proof (pow_pos2 p (mant_nonneg Hw)) as PP. pose proof (pow_pos2 (c - 1) ltac:(lia)) as PC.
    assert (FIN : forall g, 0 <= g < 2 ^ p -> is_Finite (with_fields (w := w) false c g) = true).
    { intros g G. destruct (expo_with_fields Hw false c g ltac:(lia) G) as (E & _ & _). unfold is_Finite, all_ones_exponent. rewrite E, (expo_exp Hw). rewrite negb_true_iff, Z.eqb_neq.
      destruct Hw as [->| ->]; vm_compute; discriminate. }
    assert (D : fvalue (with_fields (w := w) false c f) - fvalue (with_fields (w := w) false c 0) = f * 2 ^ (c - 1)) by (rewrite !(value_fields Hw) by lia; ring).
    destruct (fsub_repr Hw _ _ (FIN f F) (FIN 0 ltac:(lia))) as (A & V).
    { rewrite D, Z.abs_eq by nia. apply (repr_pow Hw); try lia. rewrite Z.pow_add_r by (pose proof (mant_nonneg Hw); lia). lia. }
    rewrite D in V. destruct (expo_with_fields Hw false c f ltac:(lia) F) as (_ & _ & NG).
    split; [exact A|]. split.
    - rewrite (sign_bit_neg Hw). apply (fsub_sign Hw); auto; [apply FIN; lia|rewrite D; nia].
    - rewrite V, (fone_units Hw), U. nia.
  Qed.
  Lemma or_one h l : 0 <= h <= c -> 0 <= l < 2 ^ p -> wor (mkw w (h * 2 ^ p + l)) fone_word = with_fields (w := w) false c l.
  Proof.
    intros Hh Hl. destruct bias_facts as (C & U & T). pose proof (pow_pos2 p (mant_nonneg Hw)) as PP.
    assert (MOD : modulus w = 2 * (2 ^ p * 2 ^ k)) by (rewrite (mod_sign Hw), (sign_split Hw); reflexivity).
    unfold wor, fone_word, with_fields, with_sign. rewrite !mkw_small by nia. f_equal.
    replace (c * 2 ^ p) with (c * 2 ^ p + 0) at 1 by lia. rewrite lor_split, Z.lor_0_r by (apply (mant_nonneg Hw) || lia).
    assert (O : Z.lor h c = c).
    { assert (KP : 0 <= k - 1) by (destruct Hw as [->| ->]; vm_compute; discriminate).
      replace c with (Z.ones (k - 1)) by (rewrite Z.ones_equiv; lia). destruct (Z.eq_dec h 0) as [->|N]; [apply Z.lor_0_l|].
      apply Z.lor_ones_low; [lia|]. apply Z.log2_lt_pow2; [lia|]. pose proof (pow_pos2 (k - 1) KP). lia. }
    rewrite O. lia.
  Qed.
End Rand.
Lemma random_lane4 (x : word 4) : in_unit_interval (fsub (wor (mkw 4 (uval x / 2 ^ 2)) (mkw 4 0x3f800000)) (mkw 4 0x3f800000)).
Proof.
  change (mkw 4 0x3f800000) with (fone_word (w := 4)). pose proof (uval_range x) as R. change (modulus 4) with (2 ^ 32) in R.
  assert (B : 0 <= uval x / 2 ^ 2 < 2 ^ 30) by (split; [apply Z.div_pos; lia|apply Z.div_lt_upper_bound; lia]).
  pose proof (Z.div_mod (uval x / 2 ^ 2) (2 ^ 23) ltac:(lia)) as DM. pose proof (Z.mod_pos_bound (uval x / 2 ^ 2) (2 ^ 23) ltac:(lia)) as MB.
  rewrite DM, Z.mul_comm. change (2 ^ 23) with (2 ^ mant_bits 4) at 2. rewrite (or_one fp4); [now apply (unit_sub fp4)| |exact MB].
  split; [apply Z.div_pos; lia|]. change (2 ^ (exp_bits 4 - 1) - 1) with 127. enough (uval x / 2 ^ 2 / 2 ^ 23 < 128) by lia. apply Z.div_lt_upper_bound; lia.
Qed.
Lemma random_lane8 (x : word 8) : in_unit_interval (fsub (wor (mkw 8 (uval x / 2 ^ 12)) (mkw 8 0x3ff0000000000000)) (mkw 8 0x3ff0000000000000)).
Proof.
  change (mkw 8 0x3ff0000000000000) with (fone_word (w := 8)). pose proof (uval_range x) as R. change (modulus 8) with (2 ^ 64) in R.
  assert (B : 0 <= uval x / 2 ^ 12 < 2 ^ 52) by (split; [apply Z.div_pos; lia|apply Z.div_lt_upper_bound; lia]).
  replace (uval x / 2 ^ 12) with (0 * 2 ^ mant_bits 8 + uval x / 2 ^ 12) by lia. rewrite (or_one fp8).
  - now apply (unit_sub fp8).
  - split; [lia|]. vm_compute. discriminate.
  - exact B.
Qed.
Definition lcg (x : word 4) : word 4 := wadd (wmul x (mkw 4 0xdeece66d)) (mkw 4 11).
Lemma lcg_inj x y : lcg x = lcg y -> x = y.
Proof.
  intros E. assert (H : forall z, uval z = (uval (lcg z) - 11) * 1540035429 mod 2 ^ 32).
  { intros z. unfold lcg, wadd, wmul. rewrite !uval_mkw. change (modulus 4) with (2 ^ 32). change (3740067437 mod 2 ^ 32) with 3740067437. change (11 mod 2 ^ 32) with 11.
    pose proof (Z.div_mod (uval z * 3740067437) (2 ^ 32) ltac:(lia)) as D1. set (q1 := uval z * 3740067437 / 2 ^ 32) in *. set (r1 := (uval z * 3740067437) mod 2 ^ 32) in *.
    pose proof (Z.div_mod (r1 + 11) (2 ^ 32) ltac:(lia)) as D2. set (q2 := (r1 + 11) / 2 ^ 32) in *. set (r2 := (r1 + 11) mod 2 ^ 32) in *.
    replace ((r2 - 11) * 1540035429) with (uval z + (uval z * 1341066407 - (q1 + q2) * 1540035429) * 2 ^ 32).
    - rewrite Z.mod_add by lia. symmetry. apply Z.mod_small. exact (uval_range z).
    - replace r2 with (r1 + 11 - 2 ^ 32 * q2) by lia. replace r1 with (uval z * 3740067437 - 2 ^ 32 * q1) by lia. ring. }
  apply word_ext. rewrite (H x), (H y), E. reflexivity.
Qed.

(** * fma *)
Lemma nearest_scale {w} (x : word w) n d c : 0 < c -> nearest x n d -> nearest x (n * c) (d * c).
Proof.
  intros C (F & H). split; [exact F|]. intros y Fy. destruct (H y Fy) as (A & B).
  assert (E : forall z, Z.abs (z * (d * c) - n * c) = Z.abs (z * d - n) * c) by (intros z; rewrite <- (Z.abs_eq c) at 3 by lia; rewrite <- Z.abs_mul; f_equal; ring).
  rewrite !E. split; [nia|]. intros Q. apply B. nia.
Qed.
Lemma nearest_value {w} (Hw : fp_width w) (x y : word w) n d : nearest x n d -> is_Finite y = true -> fvalue y = fvalue x -> nearest y n d.
Proof.
  intros (F & H) Fy V. split; [exact Fy|]. rewrite V.
  assert (M : magnitude y = magnitude x).
  { pose proof (fabs_abs Hw x) as A. pose proof (fabs_abs Hw y) as B. rewrite V in B. rewrite (fabs_mval Hw) in A, B. rewrite <- A in B.
    pose proof (mag_range Hw x). pose proof (mag_range Hw y). pose proof (mant_pos Hw).
    apply Z.le_antisymm; apply (mval_le_inv _ (mant_pos Hw)); lia. }
  assert (E : Z.even (fraction y) = Z.even (fraction x)) by (rewrite !(even_fraction Hw); now rewrite M). rewrite E. exact H.
Qed.
Lemma to_double_ok (x : word 4) : is_Finite x = true ->
  is_Finite (to_double x) = true /\ fvalue (to_double x) = fvalue x * 2 ^ 925 /\ negative (to_double x) = negative x /\
  exists k e, fabs_value (to_double x) = k * 2 ^ (e + 925) /\ 0 <= k < 2 ^ 24 /\ 0 <= e /\ k * 2 ^ e < 2 ^ 277.
Proof.
  intros F. unfold to_double. rewrite (finite_not_nan fp4 x F), (finite_not_inf fp4 x F).
  destruct (finite_repr fp4 x F) as (k & e & K & E & V & B). change (2 ^ (mant_bits 4 + 1)) with (2 ^ 24) in K. change (FpIntP.top_exp 4) with 277 in B.
  change (2 ^ (1074 - 149)) with (2 ^ 925).
  assert (R : FpIntP.repr (w := 8) (fabs_value x * 2 ^ 925)).
  { exists k, (e + 925). change (2 ^ (mant_bits 8 + 1)) with (2 ^ 53). change (FpIntP.top_exp 8) with 2098. rewrite V. rewrite Z.pow_add_r by lia. repeat split; lia. }
  destruct (fround_repr fp8 (negative x) (fabs_value x * 2 ^ 925) 1 _ ltac:(lia) R ltac:(lia)) as (A1 & A2 & A3).
  split; [exact A1|]. split; [|split; [exact A3|]].
  - rewrite (fvalue_abs fp8), A3, A2, (fvalue_abs fp4). ring.
  - exists k, e. rewrite A2, V. repeat split; try lia. rewrite Z.pow_add_r by lia. ring.
Qed.
Lemma fmul_repr {w} (Hw : fp_width w) (a b : word w) v : is_Finite a = true -> is_Finite b = true -> FpIntP.repr (w := w) v -> fabs_value a * fabs_value b = v * one_units w ->
  is_Finite (fmul a b) = true /\ fabs_value (fmul a b) = v /\ negative (fmul a b) = xorb (negative a) (negative b).
Proof.
  intros Fa Fb R E. unfold fmul, nan2. rewrite (finite_not_nan Hw a Fa), (finite_not_nan Hw b Fb), (finite_not_inf Hw a Fa), (finite_not_inf Hw b Fb). cbn [orb].
  apply (fround_repr Hw); auto. apply (one_units_pos Hw).
Qed.
Lemma mul_sign {w} (Hw : fp_width w) (a b : word w) : fvalue a * fvalue b = (if xorb (negative a) (negative b) then -1 else 1) * (fabs_value a * fabs_value b).
Proof. rewrite !(fvalue_abs Hw). destruct (negative a), (negative b); cbn [xorb]; ring. Qed.
Lemma fadd_nearest {w} (Hw : fp_width w) (a b : word w) : is_Finite a = true -> is_Finite b = true -> Z.abs (fvalue a + fvalue b) < overflow_at w ->
  nearest (fadd a b) (fvalue a + fvalue b) 1.
Proof.
  intros Fa Fb O. unfold fadd, nan2. rewrite (finite_not_nan Hw a Fa), (finite_not_nan Hw b Fb). unfold fadd_num. rewrite (finite_not_inf Hw a Fa), (finite_not_inf Hw b Fb).
  set (s := fvalue a + fvalue b) in *. destruct (Z.eqb_spec s 0) as [E|E].
  - rewrite E. pose proof (inf_bound Hw). apply (nearest_exact Hw); [lia|apply (finite_with_sign Hw); lia|].
    rewrite (fvalue_with_sign Hw) by lia. rewrite mval_0 by apply (mant_nonneg Hw). lia.
  - destruct (round_overflow Hw (Z.abs s) 1 ltac:(lia) ltac:(lia)) as (B & _).
    pose proof (fround_nearest Hw (s <? 0) (Z.abs s) 1 ltac:(lia) ltac:(lia) (B ltac:(lia))) as N.
    replace ((if s <? 0 then -1 else 1) * Z.abs s) with s in N; [exact N|]. destruct (Z.ltb_spec s 0); lia.
Qed.
Definition fma4_lane (a b c : word 4) : word 4 := to_float (fadd (fmul (to_double a) (to_double b)) (to_double c)).
Lemma fma4_ok (a b c : word 4) : is_Finite a = true -> is_Finite b = true -> is_Finite c = true ->
  exists t : word 8, nearest t (fma_exact a b c * 2 ^ 776) 1 /\ rounded (fma4_lane a b c) (sign_bit t) (fabs_value t) (2 ^ 925).
Proof.
  intros Fa Fb Fc. destruct (to_double_ok a Fa) as (A1 & A2 & A3 & ka & ea & A4 & A5 & A6 & A7). destruct (to_double_ok b Fb) as (B1 & B2 & B3 & kb & eb & B4 & B5 & B6 & B7).
  destruct (to_double_ok c Fc) as (C1 & C2 & C3 & kc & ec & C4 & C5 & C6 & C7). unfold fma4_lane. set (A := to_double a) in *. set (B := to_double b) in *. set (C := to_double c) in *.
  set (v := (ka * kb) * 2 ^ (ea + eb + 776)).
  assert (R : FpIntP.repr (w := 8) v).
  { exists (ka * kb), (ea + eb + 776). change (2 ^ (mant_bits 8 + 1)) with (2 ^ 53). change (FpIntP.top_exp 8) with 2098. split; [nia|]. split; [lia|]. split; [reflexivity|].
    unfold v. rewrite !Z.pow_add_r by lia.
    assert (Q : ka * 2 ^ ea * (kb * 2 ^ eb) < 2 ^ 277 * 2 ^ 277).
    { pose proof (pow_pos2 ea A6). pose proof (pow_pos2 eb B6). pose proof (pow_pos2 277 ltac:(lia)). apply Z.mul_lt_mono_nonneg; nia. }
    replace (ka * kb * (2 ^ ea * 2 ^ eb * 2 ^ 776)) with (ka * 2 ^ ea * (kb * 2 ^ eb) * 2 ^ 776) by ring.
    apply Z.lt_le_trans with (2 ^ 277 * 2 ^ 277 * 2 ^ 776); [apply Z.mul_lt_mono_pos_r; [apply pow_pos2; lia|exact Q]|]. rewrite <- !Z.pow_add_r by lia. apply Z.pow_le_mono_r; lia. }
  assert (E : fabs_value A * fabs_value B = v * one_units 8).
  { rewrite A4, B4. unfold v. rewrite units8, <- !Z.mul_assoc, <- !Z.pow_add_r by lia. rewrite (Z.mul_comm (2 ^ (ea + 925))), <- !Z.mul_assoc, <- !Z.pow_add_r by lia. do 3 f_equal. lia. }
  destruct (fmul_repr fp8 A B v A1 B1 R E) as (P1 & P2 & P3). set (P := fmul A B) in *.
  assert (PV : fvalue P = fvalue a * fvalue b * 2 ^ 776).
  { rewrite (fvalue_abs fp8), P3, P2. pose proof (mul_sign fp8 A B) as M. rewrite E, A2, B2, units8 in M.
    pose proof (pow_pos2 1074 ltac:(lia)). apply (Z.mul_reg_r _ _ (2 ^ 1074)); [lia|]. rewrite <- Z.mul_assoc, <- M.
    replace (2 ^ 925) with (2 ^ 776 * 2 ^ 149) by (rewrite <- Z.pow_add_r by lia; reflexivity).
    replace (2 ^ 1074) with (2 ^ 776 * 2 ^ 149 * 2 ^ 149) by (rewrite <- !Z.pow_add_r by lia; reflexivity). ring. }
  assert (SV : fvalue P + fvalue C = fma_exact a b c * 2 ^ 776).
  { rewrite PV, C2. unfold fma_exact. change (fone 4) with (2 ^ 149). replace (2 ^ 925) with (2 ^ 776 * 2 ^ 149) by (rewrite <- Z.pow_add_r by lia; reflexivity). ring. }
  assert (O : Z.abs (fvalue P + fvalue C) < overflow_at 8).
  { apply Z.le_lt_trans with (Z.abs (fvalue P) + Z.abs (fvalue C)); [lia|]. rewrite <- !(fabs_abs fp8).
    assert (BP : fabs_value P < 2 ^ 1330).
    { rewrite P2. unfold v. rewrite !Z.pow_add_r by lia. replace (2 ^ 1330) with (2 ^ 277 * 2 ^ 277 * 2 ^ 776) by (rewrite <- !Z.pow_add_r by lia; reflexivity).
      replace (ka * kb * (2 ^ ea * 2 ^ eb * 2 ^ 776)) with (ka * 2 ^ ea * (kb * 2 ^ eb) * 2 ^ 776) by ring. apply Z.mul_lt_mono_pos_r; [apply pow_pos2; lia|].
      pose proof (pow_pos2 ea A6). pose proof (pow_pos2 eb B6). apply Z.mul_lt_mono_nonneg; nia. }
    assert (BC : fabs_value C < 2 ^ 1202).
    { rewrite C4, Z.pow_add_r by lia. replace (2 ^ 1202) with (2 ^ 277 * 2 ^ 925) by (rewrite <- !Z.pow_add_r by lia; reflexivity). rewrite Z.mul_assoc. apply Z.mul_lt_mono_pos_r; [apply pow_pos2; lia|lia]. }
    apply Z.lt_trans with (2 ^ 1330 + 2 ^ 1202); [lia|]. vm_compute. reflexivity. }
  pose proof (fadd_nearest fp8 P C P1 C1 O) as N. rewrite SV in N. set (t := fadd P C) in *. exists t. split; [exact N|].
  destruct N as (Ft & _). unfold to_float. rewrite (finite_not_nan fp8 t Ft), (finite_not_inf fp8 t Ft). rewrite (sign_bit_neg fp8). change (2 ^ (1074 - 149)) with (2 ^ 925).
  apply (fround_rounded fp4); [apply (fabs_nonneg fp8)|apply pow_pos2; lia].
Qed.
Lemma fma_ps_pack (xs ys zs : list (word 4)) : length xs = 4%nat -> length ys = 4%nat -> length zs = 4%nat ->
  v_fma_ps (pack xs) (pack ys) (pack zs) = pack (map3 fma4_lane xs ys zs).
Proof.
  intros Lx Ly Lz. four xs. four ys. four zs.
  assert (M : forall a b c d : word 4, movehl_ps 8 (pack [a; b; c; d]) (pack [a; b; c; d]) = pack [c; d; c; d]).
  { intros. reflexivity. }
  unfold v_fma_ps. cbv zeta. rewrite !M, !cvtps_pd_pack by reflexivity. cbn [map firstn]. unfold v_fmul, v_fadd. repeat (rewrite lift2_pack by reflexivity; cbn [map2]).
  rewrite !cvtpd_ps_pack by reflexivity. cbn [map app]. unfold movelh_ps. rewrite unpacklo64. reflexivity.
Qed.
Lemma fma_int_pack sse41 e (xs ys zs : list (elt e)) : is_integer e = true -> length xs = (16 / esize e)%nat -> length ys = (16 / esize e)%nat -> length zs = (16 / esize e)%nat ->
  v_fma_int sse41 e (pack xs) (pack ys) (pack zs) = pack (map3 (fun x y z => wadd (wmul x y) z) xs ys zs).
Proof.
  intros He Lx Ly Lz. unfold v_fma_int. rewrite v_mul_pack by auto. 
  assert (L : length (map2 (@wmul (esize e)) xs ys) = (16 / esize e)%nat) by (rewrite map2_length; unfold elt in *; lia).
  rewrite v_add_pack by (first [exact L | exact Lz | exact He | unfold elt in *; congruence]).
  f_equal. clear. revert ys zs. induction xs as [|x xs IH]; intros [|y ys] [|z zs]; cbn [map2 map3]; auto. f_equal. apply IH.
Qed.

(** double: the factors have at most 26 significant bits *)
Definition fma8_lane (a b c : word 8) : word 8 :=
  let h1 := wand a (mkw 8 0xfffffffff8000000) in
  let h2 := wand b (mkw 8 0xfffffffff8000000) in
  let l1 := fsub a h1 in
  let l2 := fsub b h2 in
  let ll := fmul l1 l2 in
  let lh := fadd (fmul l1 h2) (fmul h1 l2) in
  let hh := fmul h1 h2 in
  let m := flt (with_sign 8 false (magnitude lh)) (with_sign 8 false (magnitude c)) in
  fadd (fadd ll (if m then lh else c)) (fadd (if m then c else lh) hh).
Lemma fma_pd_pack sse41 (a0 a1 b0 b1 c0 c1 : word 8) :
  v_fma_pd sse41 (pack [a0; a1]) (pack [b0; b1]) (pack [c0; c1]) = pack [fma8_lane a0 b0 c0; fma8_lane a1 b1 c1].
Proof.
  unfold v_fma_pd, high_mask_double, v_fsub, v_fmul, v_fadd. cbv zeta. rewrite !and_set1 by reflexivity. cbn [map].
  repeat (rewrite lift2_pack by reflexivity; cbn [map2]). rewrite !(fabs_pack 8) by (auto using fp8). cbn [map]. rewrite fcmp_pack by reflexivity. cbn [map2]. unfold mask_reg.
  rewrite !blendv_pack by reflexivity. cbn [map3]. repeat (rewrite lift2_pack by reflexivity; cbn [map2]). reflexivity.
Qed.
Lemma high_same (a : word 8) : fraction a mod 2 ^ 27 = 0 -> wand a (mkw 8 0xfffffffff8000000) = a.
Proof.
  intros H. apply word_ext. unfold wand. change (uval (mkw 8 0xfffffffff8000000)) with ((2 ^ 37 - 1) * 2 ^ 27). rewrite land_field by lia.
  pose proof (uval_range a) as R. change (modulus 8) with (2 ^ 64) in R.
  assert (E : uval a mod 2 ^ 27 = 0).
  { unfold fraction in H. change (frac_bits 8) with 52 in H. change (2 ^ 52) with (2 ^ 27 * 2 ^ 25) in H. rewrite Z.rem_mul_r in H by lia.
    rewrite Z.mul_comm, Z.mod_add, Zmod_mod in H by lia. exact H. }
  pose proof (Z.div_mod (uval a) (2 ^ 27) ltac:(lia)) as D. rewrite E in D.
  rewrite (Z.mod_small (uval a / 2 ^ 27)) by (split; [apply Z.div_pos; lia|apply Z.div_lt_upper_bound; lia]). rewrite uval_mkw, Z.mod_small by (change (modulus 8) with (2 ^ 64); lia). lia.
Qed.
Definition zero_like {w} (x : word w) : Prop := is_Finite x = true /\ fvalue x = 0.
Lemma repr0 {w} (Hw : fp_width w) : FpIntP.repr (w := w) 0.
Proof. apply (repr_small Hw). pose proof (pow_pos2 (mant_bits w + 1) ltac:(pose proof (mant_pos Hw); lia)). lia. Qed.
Lemma zero_add {w} (Hw : fp_width w) (x y : word w) : zero_like x -> zero_like y -> zero_like (fadd x y).
Proof.
  intros (Fx & Vx) (Fy & Vy). destruct (fadd_repr Hw x y Fx Fy) as (A & B & _). { rewrite Vx, Vy. apply (repr0 Hw). } split; [exact A|]. lia.
Qed.
Lemma zero_mul_l {w} (Hw : fp_width w) (x y : word w) : zero_like x -> is_Finite y = true -> zero_like (fmul x y).
Proof.
  intros (Fx & Vx) Fy. assert (fabs_value x = 0) by (rewrite (fabs_abs Hw); lia).
  destruct (fmul_repr Hw x y 0 Fx Fy (repr0 Hw) ltac:(nia)) as (A & B & _). split; [exact A|]. rewrite (fvalue_abs Hw), B. lia.
Qed.
Lemma zero_mul_r {w} (Hw : fp_width w) (x y : word w) : zero_like y -> is_Finite x = true -> zero_like (fmul x y).
Proof.
  intros (Fx & Vx) Fy. assert (fabs_value y = 0) by (rewrite (fabs_abs Hw); lia).
  destruct (fmul_repr Hw x y 0 Fy Fx (repr0 Hw) ltac:(nia)) as (A & B & _). split; [exact A|]. rewrite (fvalue_abs Hw), B. lia.
Qed.
Lemma zero_sub {w} (Hw : fp_width w) (x : word w) : is_Finite x = true -> zero_like (fsub x x).
Proof. intros F. destruct (fsub_repr Hw x x F F) as (A & B). { rewrite Z.sub_diag. apply (repr0 Hw). } split; [exact A|]. lia. Qed.
Lemma add_zero_value {w} (Hw : fp_width w) (x y : word w) : zero_like x -> is_Finite y = true -> is_Finite (fadd x y) = true /\ fvalue (fadd x y) = fvalue y.
Proof.
  intros (Fx & Vx) Fy. destruct (fadd_repr Hw x y Fx Fy) as (A & B & _).
  { rewrite Vx, Z.add_0_l, <- (fabs_abs Hw). now apply (finite_repr Hw). } split; [exact A|]. lia.
Qed.
Lemma fma8_ok (a b c : word 8) : is_Finite a = true -> is_Finite b = true -> is_Finite c = true ->
  fraction a mod 2 ^ 27 = 0 -> fraction b mod 2 ^ 27 = 0 -> (exists p : word 8, is_Finite p = true /\ fvalue p * fone 8 = fvalue a * fvalue b) ->
  Z.abs (fma_exact a b c) < overflow_at 8 * fone 8 -> nearest (fma8_lane a b c) (fma_exact a b c) (fone 8).
Proof.
  intros Fa Fb Fc Ha Hb (p & Fp & Vp) O. unfold fma8_lane. cbv zeta. rewrite (high_same a Ha), (high_same b Hb).
  pose proof (zero_sub fp8 a Fa) as L1. pose proof (zero_sub fp8 b Fb) as L2. set (l1 := fsub a a) in *. set (l2 := fsub b b) in *.
  pose proof (zero_mul_l fp8 l1 l2 L1 (proj1 L2)) as LL. set (ll := fmul l1 l2) in *.
  pose proof (zero_add fp8 _ _ (zero_mul_l fp8 l1 b L1 Fb) (zero_mul_r fp8 a l2 L2 Fa)) as LH. set (lh := fadd (fmul l1 b) (fmul a l2)) in *.
  assert (HH : is_Finite (fmul a b) = true /\ fvalue (fmul a b) * fone 8 = fvalue a * fvalue b).
  { rewrite (fone_units fp8) in *. pose proof (one_units_pos fp8). pose proof (mul_sign fp8 a b) as M. pose proof (fabs_nonneg fp8 a). pose proof (fabs_nonneg fp8 b).
    assert (E : fabs_value a * fabs_value b = fabs_value p * one_units 8).
    { rewrite (fabs_abs fp8 p). rewrite <- (Z.abs_eq (one_units 8)) by lia. rewrite <- Z.abs_mul, Vp, M. destruct (xorb _ _); nia. }
    destruct (fmul_repr fp8 a b _ Fa Fb (finite_repr fp8 p Fp) E) as (A1 & A2 & A3). split; [exact A1|].
    rewrite (fvalue_abs fp8), A3, A2, M, E. ring. }
  destruct HH as (FH & VH). set (hh := fmul a b) in *.
  set (m := flt (with_sign 8 false (magnitude lh)) (with_sign 8 false (magnitude c))).
  assert (MV : m = negb (fvalue c =? 0)).
  { unfold m. rewrite (flt_ok fp8). unfold float_lt, ordered. destruct (abs_facts fp8 lh) as (G1 & G2 & _). destruct (abs_facts fp8 c) as (G3 & G4 & _).
    rewrite (proj1 LH) in G1. rewrite Fc in G3. rewrite (finite_not_NaN _ G1), (finite_not_NaN _ G3), G2, G4. cbn [negb andb]. rewrite !(fabs_abs fp8), (proj2 LH).
    destruct (Z.eqb_spec (fvalue c) 0) as [->|N]; cbn; [reflexivity|]. apply Z.ltb_lt. change (Z.abs 0) with 0. lia. }
  assert (S : (fvalue c + fvalue hh) * fone 8 = fma_exact a b c) by (unfold fma_exact; rewrite <- VH; ring).
  assert (OV : Z.abs (fvalue c + fvalue hh) < overflow_at 8).
  { rewrite <- S, Z.abs_mul in O. assert (P : 0 < fone 8) by (rewrite (fone_units fp8); apply (one_units_pos fp8)). rewrite (Z.abs_eq (fone 8)) in O by lia. nia. }
  assert (R : exists r : word 8, nearest r (fvalue c + fvalue hh) 1 /\ fvalue (fadd (if m then c else lh) hh) = fvalue r /\ is_Finite (fadd (if m then c else lh) hh) = true).
  { exists (fadd c hh). pose proof (fadd_nearest fp8 c hh Fc FH OV) as N. rewrite MV. destruct (Z.eqb_spec (fvalue c) 0) as [E|E]; cbn [negb].
    - split; [exact N|]. destruct (add_zero_value fp8 lh hh LH FH) as (X1 & X2). destruct (add_zero_value fp8 c hh (conj Fc E) FH) as (Y1 & Y2). split; [congruence|exact X1].
    - split; [exact N|]. split; [reflexivity|apply N]. }
  destruct R as (r & NR & VR & FR). set (q := fadd (if m then c else lh) hh) in *.
  assert (Z0 : zero_like (fadd ll (if m then lh else c))).
  { apply (zero_add fp8); [exact LL|]. rewrite MV. destruct (Z.eqb_spec (fvalue c) 0); cbn [negb]; [now split|exact LH]. }
  destruct (add_zero_value fp8 _ q Z0 FR) as (X1 & X2).
  rewrite <- S. replace (fone 8) with (1 * fone 8) at 2 by lia. apply nearest_scale; [rewrite (fone_units fp8); apply (one_units_pos fp8)|].
  apply (nearest_value fp8 r); auto. congruence.
Qed.
