(** Integer division of AVX vectors, evaluated in float (16-bit types) or double (32-bit types). *)
From Coq Require Import ZArith List Bool Lia.
From Verif.Spec Require Import Seq FloatSpec RoundSpec CastSpec.
From Verif.Model Require Import Word Fp FpArith SseReg SseMove SortNet SseInt SseBuild SseArith SseMask SseConvert SimdArray
  AvxReg AvxMove AvxBuild AvxShuffle AvxMask AvxArith AvxConvert.
From Verif.Proof Require Import SeqP WordP FpP FpArithP FpIntP SseIntP SseEmulP ConvertP ConvertRegP SseArithP SseMaskP DivP
  AvxMoveP AvxVecP AvxShuffleP AvxMaskP AvxArithP SseBuildP SortNetP AvxConvertP AvxCastP.
Import ListNotations.
Local Open Scope Z_scope.

Lemma div_lane8 a b : Z.abs a <= 2 ^ 32 -> 0 < Z.abs b <= 2 ^ 32 ->
  is_Finite (fdiv (of_int 8 a) (of_int 8 b)) = true /\ round_int ToZero (fdiv (of_int 8 a) (of_int 8 b)) = Z.quot a b.
Proof.
  intros HA HB. pose proof fp8 as Hw. destruct (exps Hw) as (P & U & T & T2 & T3). pose proof (one_units_pos Hw) as UP.
  assert (Ea : exact_int (w := 8) a) by (apply (exact_small Hw); change (mant_bits 8 + 1) with 53; lia).
  assert (Eb : exact_int (w := 8) b) by (apply (exact_small Hw); change (mant_bits 8 + 1) with 53; lia).
  destruct (of_int_exact Hw a Ea) as (Fa & Va & Na & Aa). destruct (of_int_exact Hw b Eb) as (Fb & Vb & Nb & Ab).
  unfold fdiv, nan2. rewrite !(finite_not_nan Hw), !(finite_not_inf Hw), !(is_zero_value Hw) by auto. rewrite Aa, Ab, Na, Nb.
  replace (Z.abs b * one_units 8 =? 0) with false by (symmetry; apply Z.eqb_neq; nia).
  set (s := xorb (a <? 0) (b <? 0)). set (A := Z.abs a) in *. set (B := Z.abs b) in *. set (V := one_units 8) in *.
  assert (A0 : 0 <= A) by (unfold A; lia).
  set (q := A / B). assert (Q : B * q <= A < B * q + B) by (unfold q; pose proof (Z.div_mod A B ltac:(lia)); pose proof (Z.mod_pos_bound A B ltac:(lia)); lia).
  assert (Q0 : 0 <= q <= 2 ^ 32) by nia.
  set (l := Z.log2_up B).
  assert (L : 0 <= l <= 32 /\ B <= 2 ^ l /\ 2 ^ l <= 2 * B).
  { unfold l. split; [split; [apply Z.log2_up_nonneg|apply Z.log2_up_le_pow2; lia]|]. split; [apply Z.log2_log2_up_spec; lia|].
    destruct (Z.eq_dec B 1) as [->|]; [vm_compute; congruence|]. pose proof (Z.log2_up_spec B ltac:(lia)) as (S1 & _).
    assert (0 < Z.log2_up B) by (apply Z.log2_up_pos; lia). replace (Z.log2_up B) with (Z.succ (Z.pred (Z.log2_up B))) by lia. rewrite Z.pow_succ_r by lia. lia. }
  destruct L as (L & LB & LB'). pose proof (pow_pos2 l ltac:(lia)) as PL.
  assert (UV : V = 2 ^ (1074 - l) * 2 ^ l) by (unfold V; rewrite <- Z.pow_add_r by lia; change (one_units 8) with (2 ^ 1074); f_equal; lia).
  (* the quotient and a float just below the quotient plus one *)
  assert (R1 : repr (w := 8) (q * V)) by (pose proof (exact_small (w := 8) Hw q) as E; unfold exact_int in E; rewrite Z.abs_eq in E by lia; apply E; change (mant_bits 8 + 1) with 53; lia).
  assert (R2 : repr (w := 8) (((q + 1) * 2 ^ l - 1) * 2 ^ (1074 - l))).
  { apply (repr_pow Hw); [change (mant_bits 8 + 1) with 53; nia|lia|]. change (mant_bits 8) with 52. change (top_exp 8) with 2098. lia. }
  destruct (repr_mag Hw _ R1) as (m1 & M1 & V1). destruct (repr_mag Hw _ R2) as (m2 & M2 & V2).
  assert (N0 : 0 <= A * V * V) by nia. assert (D0 : 0 < B * V) by nia.
  assert (N1 : q * V * (B * V) <= A * V * V).
  { replace (q * V * (B * V)) with (B * q * (V * V)) by ring. replace (A * V * V) with (A * (V * V)) by ring. apply Z.mul_le_mono_nonneg_r; [apply Z.mul_nonneg_nonneg; lia|lia]. }
  pose proof (rnd_ge _ (mant_pos Hw) (A * V * V) (B * V) m1 N0 D0 ltac:(lia) ltac:(rewrite V1; exact N1)) as G1.
  assert (G2 : rnd (mant_bits 8) (A * V * V) (B * V) <= m2).
  { apply (rnd_le _ (mant_pos Hw)); auto; [lia|]. rewrite V2. replace (((q + 1) * 2 ^ l - 1) * 2 ^ (1074 - l) * (B * V)) with (((q + 1) * 2 ^ l - 1) * B * (2 ^ (1074 - l) * V)) by ring.
    rewrite UV at 1. replace (A * (2 ^ (1074 - l) * 2 ^ l) * V) with (A * 2 ^ l * (2 ^ (1074 - l) * V)) by ring.
    apply Z.mul_le_mono_nonneg_r; [pose proof (pow_pos2 (1074 - l) ltac:(lia)); nia|].
    assert (K : (A + 1) * 2 ^ l <= B * (q + 1) * 2 ^ l) by (apply Z.mul_le_mono_nonneg_r; lia). replace (((q + 1) * 2 ^ l - 1) * B) with (B * (q + 1) * 2 ^ l - B) by ring. rewrite Z.mul_add_distr_r in K. lia. }
  assert (RM : round_magnitude 8 (A * V * V) (B * V) = rnd (mant_bits 8) (A * V * V) (B * V)) by (rewrite round_magnitude_rnd; lia).
  set (m := rnd (mant_bits 8) (A * V * V) (B * V)) in *.
  pose proof (inf_bound Hw) as IB.
  assert (VL : q * V <= mval (mant_bits 8) m) by (rewrite <- V1; apply (mval_le _ (mant_pos Hw)); lia).
  assert (VU : mval (mant_bits 8) m < (q + 1) * V).
  { apply Z.le_lt_trans with (((q + 1) * 2 ^ l - 1) * 2 ^ (1074 - l)); [rewrite <- V2; apply (mval_le _ (mant_pos Hw)); lia|]. pose proof (pow_pos2 (1074 - l) ltac:(lia)). rewrite UV. nia. }
  unfold fround. rewrite RM. split; [apply (finite_with_sign Hw); lia|].
  rewrite !round_int_eq. rewrite (fvalue_with_sign Hw) by lia. set (v := mval (mant_bits 8) m) in *. fold V.
  assert (QV : Z.quot v V = q) by (rewrite Z.quot_div_nonneg by nia; symmetry; apply Z.div_unique with (r := v - q * V); nia).
  assert (QQ : Z.quot A B = q) by (rewrite Z.quot_div_nonneg by lia; reflexivity).
  assert (Hb0 : b <> 0) by (unfold B in HB; lia).
  destruct (Z.ltb_spec a 0), (Z.ltb_spec b 0); cbn [s xorb] in *; unfold s; cbn [xorb].
  - rewrite Z.mul_1_l, QV, <- QQ. unfold A, B. rewrite !Z.abs_neq by lia. rewrite Z.quot_opp_opp by lia. reflexivity.
  - replace (-1 * v) with (- v) by lia. rewrite Z.quot_opp_l, QV, <- QQ by lia. unfold A, B. rewrite Z.abs_neq, Z.abs_eq by lia. rewrite Z.quot_opp_l by lia. lia.
  - replace (-1 * v) with (- v) by lia. rewrite Z.quot_opp_l, QV, <- QQ by lia. unfold A, B. rewrite Z.abs_eq, Z.abs_neq by lia. rewrite Z.quot_opp_r by lia. lia.
  - rewrite Z.mul_1_l, QV, <- QQ. unfold A, B. rewrite !Z.abs_eq by lia. reflexivity.
Qed.

(** ** lanes *)
Definition quot_lane (e : etype) (x y : elt e) : elt e := mkw (esize e) (Z.quot (int_value e x) (int_value e y)).
Lemma div_int_lane (x y : word 4) : sval y <> 0 -> cvt_int32 ToZero (fdiv (of_int 8 (sval x)) (of_int 8 (sval y))) = quot_lane Int x y.
Proof.
  intros N. pose proof (sval_range x ltac:(lia)). pose proof (sval_range y ltac:(lia)). change (modulus 4 / 2) with (2 ^ 31) in *.
  destruct (div_lane8 (sval x) (sval y)) as (F & Q); [lia|lia|]. unfold quot_lane. change (int_value Int x) with (sval x). change (int_value Int y) with (sval y). cbn [esize].
  assert (B : Z.abs (Z.quot (sval x) (sval y)) <= 2 ^ 31). { rewrite <- Z.quot_abs by exact N. apply Z.le_trans with (Z.abs (sval x)); [|lia]. rewrite Z.quot_div_nonneg by lia. apply Z.div_le_upper_bound; nia. }
  destruct (Z.eq_dec (Z.quot (sval x) (sval y)) (2 ^ 31)) as [E|E].
  - unfold cvt_int32. rewrite Q, E. destruct (2 ^ 31 <=? 2 ^ 31) eqn:T; [|discriminate T]. now rewrite orb_true_r.
  - rewrite (cvt_int32_ok fp8); rewrite ?Q; auto; lia.
Qed.
Lemma div_uint_lane (x y : word 4) : uval y <> 0 -> (if uval y =? 1 then x else cvt_int32 ToZero (fdiv (u2d x) (u2d y))) = quot_lane UInt x y.
Proof.
  intros N. pose proof (uval_range x). pose proof (uval_range y). change (modulus 4) with (2 ^ 32) in *. unfold quot_lane. change (int_value UInt x) with (uval x). change (int_value UInt y) with (uval y). cbn [esize].
  destruct (Z.eqb_spec (uval y) 1) as [E|E].
  - rewrite E, Z.quot_1_r. symmetry. apply mkw_uval.
  - rewrite !u2d_value. destruct (div_lane8 (uval x) (uval y)) as (F & Q); [lia|lia|].
    assert (B : 0 <= Z.quot (uval x) (uval y) < 2 ^ 31). { rewrite Z.quot_div_nonneg by lia. split; [apply Z.div_pos; lia|]. apply Z.div_lt_upper_bound; lia. }
    rewrite (cvt_int32_ok fp8); rewrite ?Q; auto; lia.
Qed.
Lemma quot16_range e (x y : word 2) : v16 e y <> 0 -> - 2 ^ 16 <= Z.quot (v16 e x) (v16 e y) <= 2 ^ 16 /\ (is_signed e = false -> 0 <= Z.quot (v16 e x) (v16 e y) < 2 ^ 16).
Proof.
  intros N. pose proof (v16_range e x) as X. pose proof (v16_range e y) as Y.
  assert (B : Z.abs (Z.quot (v16 e x) (v16 e y)) <= 2 ^ 16). { rewrite <- Z.quot_abs by exact N. apply Z.le_trans with (Z.abs (v16 e x)); [|lia]. rewrite Z.quot_div_nonneg by lia. apply Z.div_le_upper_bound; nia. }
  split; [lia|]. intros S. unfold v16 in *. rewrite S in *. pose proof (uval_range x). pose proof (uval_range y). change (modulus 2) with (2 ^ 16) in *.
  rewrite Z.quot_div_nonneg by lia. split; [apply Z.div_pos; lia|]. apply Z.div_lt_upper_bound; nia.
Qed.
Lemma div16_lo e (x y : word 2) : v16 e y <> 0 -> mkw 2 (uval (div16_lane e x y)) = mkw 2 (Z.quot (v16 e x) (v16 e y)).
Proof.
  intros N. pose proof (v16_range e x) as X. pose proof (v16_range e y) as Y. pose proof (quot16_range e x y N) as (B & _).
  destruct (div_lane (v16 e x) (v16 e y)) as (F & Q); [lia|lia|]. unfold div16_lane. rewrite (cvt_int32_ok fp4) by (rewrite ?Q; auto; lia). rewrite Q.
  apply mkw_eq. rewrite uval_mkw. change (modulus 4) with (2 ^ 16 * 2 ^ 16). change (modulus 2) with (2 ^ 16). rewrite Z.rem_mul_r by lia. rewrite Z.mul_comm, Z.mod_add by lia. apply Z.mod_mod. lia.
Qed.
Lemma div16_uint e (x y : word 2) : is_signed e = false -> v16 e y <> 0 -> mkw 2 (uval (f2u (fdiv (of_int 4 (v16 e x)) (of_int 4 (v16 e y))))) = mkw 2 (Z.quot (v16 e x) (v16 e y)).
Proof.
  intros S N. pose proof (v16_range e x) as X. pose proof (v16_range e y) as Y. pose proof (quot16_range e x y N) as (_ & B). specialize (B S).
  destruct (div_lane (v16 e x) (v16 e y)) as (F & Q); [lia|lia|]. rewrite (f2u_value fp4) by (auto; rewrite Q; lia). now rewrite Q.
Qed.

(** ** registers *)
Lemma y_fdiv_pack {w} (a b c d : list (word w)) : lane_ok w -> length a = (16 / w)%nat -> length b = (16 / w)%nat -> length c = (16 / w)%nat -> length d = (16 / w)%nat ->
  y_fdiv w (Ymm (pack a) (pack b)) (Ymm (pack c) (pack d)) = Ymm (pack (map2 fdiv a c)) (pack (map2 fdiv b d)).
Proof. intros. unfold y_fdiv, ymap2, v_fdiv. cbn [lo128 hi128]. now rewrite !lift2_pack. Qed.
Lemma yp4 (a b c d e f g h : word 4) : ypack [a; b; c; d; e; f; g; h] = Ymm (pack [a; b; c; d]) (pack [e; f; g; h]).
Proof. now apply (ypack_app [_;_;_;_] [_;_;_;_]). Qed.
Lemma ydiv_int_pack (xs ys : list (word 4)) : length xs = 8%nat -> length ys = 8%nat -> Forall (fun y => sval y <> 0) ys ->
  ydiv_int (ypack xs) (ypack ys) = ypack (map2 (quot_lane Int) xs ys).
Proof.
  intros Hx Hy F. eight xs. eight ys. repeat match goal with H : Forall _ (_ :: _) |- _ => inversion H; clear H; subst end.
  cbn [map2]. rewrite !yp4. unfold ydiv_int. cbn [lo128 hi128].
  rewrite !ycvtepi32_pd_pack, !y_fdiv_pack by (try reflexivity; unfold lane_ok; auto). cbn [map2]. rewrite !ycvttpd_pack by reflexivity. cbn [app map].
  rewrite !div_int_lane by assumption. reflexivity.
Qed.
Lemma ydiv_uint_pack (xs ys : list (word 4)) : length xs = 8%nat -> length ys = 8%nat -> Forall (fun y => uval y <> 0) ys ->
  ydiv_uint (ypack xs) (ypack ys) = ypack (map2 (quot_lane UInt) xs ys).
Proof.
  intros Hx Hy F. eight xs. eight ys. repeat match goal with H : Forall _ (_ :: _) |- _ => inversion H; clear H; subst end.
  cbn [map2]. rewrite !yp4. unfold ydiv_uint, y_add, yset1, ymap2. cbn [lo128 hi128 esize].
  change (set1 4 (- 2147483648)) with (pack (repeat (mkw 4 (2 ^ 31)) 4)). unfold add_epi. rewrite !lift2_pack by reflexivity. cbn [map2 repeat]. rewrite !add_msb.
  rewrite !ycvtepi32_pd_pack. change 2147483648 with (2 ^ 31). rewrite !add_pd31, !y_fdiv_pack by (try reflexivity; unfold lane_ok; auto). cbn [map2]. rewrite !ycvttpd_pack by reflexivity. cbn [app map].
  unfold y_cmpeq, y_blendv_ps, y_assign, ymap2. cbn [lo128 hi128 is_integer esize]. change (set1 4 1) with (pack (repeat (mkw 4 1) 4)). unfold cmpeq_epi. rewrite !lift2_pack by reflexivity. cbn [map2 repeat].
  change (uval (mkw 4 1)) with 1. rewrite !masks4, !(blend4 _ (or_intror eq_refl)) by reflexivity. cbn [map3].
  fold (u2d a) (u2d b) (u2d c) (u2d d).
  repeat match goal with |- context [fadd (of_int 8 (sval (wxor ?x (mkw 4 (2 ^ 31))))) (of_int 8 (2 ^ 31))] => change (fadd (of_int 8 (sval (wxor x (mkw 4 (2 ^ 31))))) (of_int 8 (2 ^ 31))) with (u2d x) end.
  rewrite !div_uint_lane by assumption. reflexivity.
Qed.
Lemma yp2 (a b c d e f g h i j k l m n o p : word 2) : ypack [a; b; c; d; e; f; g; h; i; j; k; l; m; n; o; p] = Ymm (pack [a; b; c; d; e; f; g; h]) (pack [i; j; k; l; m; n; o; p]).
Proof. now apply (ypack_app [_;_;_;_;_;_;_;_] [_;_;_;_;_;_;_;_]). Qed.
Lemma if_same {A} (b : bool) (x : A) : (if b then x else x) = x.
Proof. now destruct b. Qed.
Section Half.
  Context (avx2 : bool) (e : etype) (E : e = Short \/ e = UShort).
  Definition conv16 (r : reg) : yreg := ycvtepi32_ps (if is_signed e then yconvert_short_int avx2 r else yconvert_ushort_int avx2 r).
  Notation fl := (fun x => of_int 4 (v16 e x)).
  Lemma conv16_pack (xs : list (word 2)) : length xs = 8%nat -> conv16 (pack xs) = Ymm (pack (map fl (firstn 4 xs))) (pack (map fl (skipn 4 xs))).
  Proof using.
    intros L. unfold conv16. assert (V : forall x, of_int 4 (sval (mkw 4 (v16 e x))) = of_int 4 (v16 e x)) by (intros x; now rewrite sval_v16).
    unfold v16 in *. destruct (is_signed e); rewrite ?yshort_int_pack, ?yushort_int_pack by exact L; eight xs; cbn [map firstn skipn]; rewrite ycvtepi32_ps_pack by reflexivity; cbn [map]; rewrite !V; reflexivity.
  Qed.
  Notation qf := (fun x y => fdiv (of_int 4 (v16 e x)) (of_int 4 (v16 e y))).
  Lemma div_conv16 (xs ys : list (word 2)) : length xs = 8%nat -> length ys = 8%nat ->
    y_fdiv 4 (conv16 (pack xs)) (conv16 (pack ys)) = Ymm (pack (map2 qf (firstn 4 xs) (firstn 4 ys))) (pack (map2 qf (skipn 4 xs) (skipn 4 ys))).
  Proof using.
    intros Hx Hy. rewrite !conv16_pack by assumption. eight xs. eight ys. cbn [map firstn skipn map2]. rewrite y_fdiv_pack by (try reflexivity; unfold lane_ok; auto). reflexivity.
  Qed.
  Notation quot2 := (fun x y => mkw 2 (Z.quot (v16 e x) (v16 e y))).
  Lemma half_short (xs ys : list (word 2)) : length xs = 8%nat -> length ys = 8%nat -> Forall (fun y => v16 e y <> 0) ys ->
    yconvert_float_short avx2 (y_fdiv 4 (conv16 (pack xs)) (conv16 (pack ys))) = pack (map2 quot2 xs ys).
  Proof using.
    intros Hx Hy F. rewrite div_conv16 by assumption. eight xs. eight ys. repeat match goal with H : Forall _ (_ :: _) |- _ => inversion H; clear H; subst end.
    cbn [firstn skipn map2]. unfold yconvert_float_short. rewrite ycvttps_pack by reflexivity. cbn [map]. rewrite yint_short_pack by reflexivity. cbn [app map].
    repeat match goal with |- context [cvt_int32 ToZero (fdiv (of_int 4 (v16 e ?x)) (of_int 4 (v16 e ?y)))] => change (cvt_int32 ToZero (fdiv (of_int 4 (v16 e x)) (of_int 4 (v16 e y)))) with (div16_lane e x y) end.
    rewrite !div16_lo by assumption. reflexivity.
  Qed.
  Lemma half_ushort (xs ys : list (word 2)) : is_signed e = false -> length xs = 8%nat -> length ys = 8%nat -> Forall (fun y => v16 e y <> 0) ys ->
    yconvert_float_ushort (y_fdiv 4 (conv16 (pack xs)) (conv16 (pack ys))) = pack (map2 quot2 xs ys).
  Proof using.
    intros S Hx Hy F. rewrite div_conv16 by assumption. eight xs. eight ys. repeat match goal with H : Forall _ (_ :: _) |- _ => inversion H; clear H; subst end.
    cbn [firstn skipn map2]. unfold yconvert_float_ushort. rewrite yfloat_uint_pack by reflexivity. cbn [map]. rewrite yint_ushort_pack by reflexivity. cbn [app map].
    rewrite !div16_uint by assumption. reflexivity.
  Qed.
End Half.
Lemma ydiv_short_pack avx2 (xs ys : list (elt Short)) : length xs = (32 / esize Short)%nat -> length ys = (32 / esize Short)%nat -> Forall (fun y => sval y <> 0) ys ->
  ydiv_short avx2 (ypack xs) (ypack ys) = ypack (map2 (quot_lane Short) xs ys).
Proof.
  intros Hx Hy F. destruct (split_y Short xs Hx) as (l & h & -> & Ll & Lh & ->). destruct (split_y Short ys Hy) as (l' & h' & -> & Ll' & Lh' & ->).
  apply Forall_app in F. destruct F as (F1 & F2). unfold ydiv_short. cbn [lo128 hi128]. rewrite map2_app by congruence. unfold elt in *. cbn [esize] in *. change (16 / 2)%nat with 8%nat in *.
  pose proof (half_short avx2 Short l l' Ll Ll' F1) as E1. pose proof (half_short avx2 Short h h' Lh Lh' F2) as E2. unfold conv16 in E1, E2. cbn [is_signed] in E1, E2. rewrite E1, E2.
  symmetry. apply (ypack_app (w := 2)). rewrite length_map2 by congruence. exact Ll.
Qed.
Lemma ydiv_ushort_pack avx2 gcc (xs ys : list (elt UShort)) : length xs = (32 / esize UShort)%nat -> length ys = (32 / esize UShort)%nat -> Forall (fun y => uval y <> 0) ys ->
  ydiv_ushort avx2 gcc (ypack xs) (ypack ys) = ypack (map2 (quot_lane UShort) xs ys).
Proof.
  intros Hx Hy F. destruct (split_y UShort xs Hx) as (l & h & -> & Ll & Lh & ->). destruct (split_y UShort ys Hy) as (l' & h' & -> & Ll' & Lh' & ->).
  apply Forall_app in F. destruct F as (F1 & F2). unfold ydiv_ushort. cbn [lo128 hi128]. rewrite map2_app by congruence. unfold elt in *. cbn [esize] in *. change (16 / 2)%nat with 8%nat in *.
  pose proof (half_short avx2 UShort l l' Ll Ll' F1) as E1. pose proof (half_short avx2 UShort h h' Lh Lh' F2) as E2.
  pose proof (half_ushort avx2 UShort l l' eq_refl Ll Ll' F1) as G1. pose proof (half_ushort avx2 UShort h h' eq_refl Lh Lh' F2) as G2. unfold conv16 in E1, E2, G1, G2. cbn [is_signed] in E1, E2, G1, G2. rewrite E1, E2, G1, G2.
  rewrite !if_same. symmetry. apply (ypack_app (w := 2)). rewrite length_map2 by congruence. exact Ll.
Qed.
Lemma y_idiv_pack avx2 gcc e (xs ys : list (elt e)) : is_integer e = true -> length xs = (32 / esize e)%nat -> length ys = (32 / esize e)%nat ->
  Forall (fun y => int_value e y <> 0) ys -> y_idiv avx2 gcc e (ypack xs) (ypack ys) = ypack (map2 (quot_lane e) xs ys).
Proof.
  intros I Hx Hy F. destruct e; try discriminate I; unfold y_idiv; unfold elt in *; cbn [esize] in *.
  - now apply ydiv_short_pack.
  - now apply ydiv_ushort_pack.
  - now apply ydiv_int_pack.
  - now apply ydiv_uint_pack.
Qed.
