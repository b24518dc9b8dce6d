(** The conversions of AVX builds on registers. *)
From Coq Require Import ZArith List Bool Lia.
From Verif.Spec Require Import Seq FloatSpec RoundSpec CastSpec.
From Verif.Model Require Import Word Fp FpArith SseReg SseMove SortNet SseInt SseBuild SseArith SseMask SseConvert SimdArray
  AvxReg AvxMove AvxBuild AvxShuffle AvxMask AvxArith AvxConvert.
From Verif.Proof Require Import SeqP WordP FpP FpArithP FpIntP SseIntP SseEmulP ConvertP ConvertRegP SseArithP SseMaskP
  AvxMoveP AvxVecP AvxShuffleP AvxMaskP AvxArithP.
Import ListNotations.
Local Open Scope Z_scope.

(** ** words *)
Lemma xor_msb (x : word 4) : wxor x (mkw 4 (2 ^ 31)) = mkw 4 (uval x - 2 ^ 31).
Proof.
  apply word_ext. pose proof (flip_sign 4 x ltac:(lia)) as FS. change (bits 4 - 1) with 31 in FS. change (modulus 4 / 2) with (2 ^ 31) in FS.
  rewrite <- (sval_mod (wxor x (mkw 4 (2 ^ 31)))), FS, uval_mkw. reflexivity.
Qed.
Lemma add_msb (x : word 4) : wadd x (mkw 4 (2 ^ 31)) = wxor x (mkw 4 (2 ^ 31)).
Proof.
  rewrite xor_msb. apply word_ext. unfold wadd. rewrite !uval_mkw. change (modulus 4) with (2 ^ 32). change (2 ^ 31 mod 2 ^ 32) with (2 ^ 31).
  replace (uval x + 2 ^ 31) with (uval x - 2 ^ 31 + 1 * 2 ^ 32) by lia. now rewrite Z.mod_add by lia.
Qed.
Lemma sub_msb (x : word 4) : wsub x (mkw 4 (2 ^ 31)) = wxor x (mkw 4 (2 ^ 31)).
Proof. rewrite xor_msb. apply word_ext. unfold wsub. rewrite !uval_mkw. change (modulus 4) with (2 ^ 32). change (2 ^ 31 mod 2 ^ 32) with (2 ^ 31). reflexivity. Qed.

(** ** lane functions of the other routes *)
Definition ushort_sat {w} (x : word w) : word 2 := mkw 2 (Z.max 0 (Z.min (2 ^ 16 - 1) (sval (cvt_int32 ToZero x)))).
Lemma cast_fp_ushort_sat from (x : elt from) : is_integer from = false -> cast_ok from UShort x (ushort_sat x).
Proof.
  intros I. unfold cast_ok. rewrite I. cbn [is_integer]. rewrite (trunc_units (fpw from I)). intros F R.
  unfold in_range, int_value in *. cbn [is_signed esize] in *. change (8 * Z.of_nat 2) with 16 in R. unfold ushort_sat. rewrite (cvt_int32_ok (fpw from I)) by (auto; lia).
  rewrite mkw4_sval by lia. rewrite uval_mkw. change (modulus 2) with (2 ^ 16). rewrite Z.min_r, Z.max_r by lia. apply Z.mod_small. lia.
Qed.
Lemma cast_fp_ushort_u from (x : elt from) : is_integer from = false -> cast_ok from UShort x (mkw 2 (uval (f2u x))).
Proof.
  intros I. unfold cast_ok. rewrite I. cbn [is_integer]. rewrite (trunc_units (fpw from I)). intros F R.
  unfold in_range, int_value in *. cbn [is_signed esize] in *. change (8 * Z.of_nat 2) with 16 in R.
  rewrite (f2u_value (fpw from I)) by (auto; lia). apply mkw_small. change (modulus 2) with (2 ^ 16). lia.
Qed.
Lemma cast_double_ushort_u (x : elt Double) : cast_ok Double UShort x (mkw 2 (uval (d2u x))).
Proof.
  unfold cast_ok. cbn [is_integer]. rewrite (trunc_units (fpw Double eq_refl)). intros F R.
  unfold in_range, int_value in *. cbn [is_signed esize] in *. change (8 * Z.of_nat 2) with 16 in R.
  rewrite d2u_value by (auto; lia). apply mkw_small. change (modulus 2) with (2 ^ 16). lia.
Qed.

(** ** instructions *)
Lemma ylanes_pack2 {w} (l h : list (word w)) : length l = (16 / w)%nat -> length h = (16 / w)%nat -> ylanes w (Ymm (pack l) (pack h)) = l ++ h.
Proof. intros. rewrite ylanes_halves. cbn [lo128 hi128]. now rewrite !lanes_pack. Qed.
Lemma ycvttpd_pack (xs ys : list (word 8)) : length xs = 2%nat -> length ys = 2%nat ->
  ycvttpd_epi32 (Ymm (pack xs) (pack ys)) = pack (map (cvt_int32 ToZero) (xs ++ ys)).
Proof. intros Hx Hy. unfold ycvttpd_epi32. now rewrite ylanes_pack2. Qed.
Lemma ycvtpd_ps_pack (xs ys : list (word 8)) : length xs = 2%nat -> length ys = 2%nat ->
  ycvtpd_ps (Ymm (pack xs) (pack ys)) = pack (map to_float (xs ++ ys)).
Proof. intros Hx Hy. unfold ycvtpd_ps. now rewrite ylanes_pack2. Qed.
Lemma ypack4 {w} (g : word 4 -> word w) (a b c d : word 4) : (16 / w = 2)%nat -> ypack (map g [a; b; c; d]) = Ymm (pack [g a; g b]) (pack [g c; g d]).
Proof. intros H. cbn [map]. change [g a; g b; g c; g d] with ([g a; g b] ++ [g c; g d]). apply ypack_app. now rewrite H. Qed.
Lemma ycvtps_pd_pack (a b c d : word 4) : ycvtps_pd (pack [a; b; c; d]) = Ymm (pack [to_double a; to_double b]) (pack [to_double c; to_double d]).
Proof. unfold ycvtps_pd. rewrite lanes_pack by reflexivity. now apply ypack4. Qed.
Lemma ycvtepi32_pd_pack (a b c d : word 4) :
  ycvtepi32_pd (pack [a; b; c; d]) = Ymm (pack [of_int 8 (sval a); of_int 8 (sval b)]) (pack [of_int 8 (sval c); of_int 8 (sval d)]).
Proof. unfold ycvtepi32_pd. rewrite lanes_pack by reflexivity. now rewrite ypack4. Qed.
Lemma ycvtepi16_pack (xs : list (word 2)) : length xs = 8%nat ->
  ycvtepi16_epi32 (pack xs) = Ymm (pack (map (fun x => mkw 4 (sval x)) (firstn 4 xs))) (pack (map (fun x => mkw 4 (sval x)) (skipn 4 xs))).
Proof. intros H. unfold ycvtepi16_epi32. rewrite lanes_pack by assumption. eight xs. exact (ypack_app (w := 4) [_; _; _; _] [_; _; _; _] eq_refl). Qed.
Lemma ycvtepu16_pack (xs : list (word 2)) : length xs = 8%nat ->
  ycvtepu16_epi32 (pack xs) = Ymm (pack (map (fun x => mkw 4 (uval x)) (firstn 4 xs))) (pack (map (fun x => mkw 4 (uval x)) (skipn 4 xs))).
Proof. intros H. unfold ycvtepu16_epi32. rewrite lanes_pack by assumption. eight xs. exact (ypack_app (w := 4) [_; _; _; _] [_; _; _; _] eq_refl). Qed.
Lemma yshort_int_pack avx2 (xs : list (word 2)) : length xs = 8%nat ->
  yconvert_short_int avx2 (pack xs) = Ymm (pack (map (fun x => mkw 4 (sval x)) (firstn 4 xs))) (pack (map (fun x => mkw 4 (sval x)) (skipn 4 xs))).
Proof.
  intros H. unfold yconvert_short_int. destruct avx2; [now apply ycvtepi16_pack|]. eight xs. rewrite unpacklo2, unpackhi2. unfold ymap1. cbn [lo128 hi128].
  rewrite !join_pair2. unfold srai_epi. rewrite !(lift1_pack (2 * 2)) by reflexivity. cbn [map firstn skipn]. change (2 * 2)%nat with 4%nat. rewrite !srai_join. reflexivity.
Qed.
Lemma yushort_int_pack avx2 (xs : list (word 2)) : length xs = 8%nat ->
  yconvert_ushort_int avx2 (pack xs) = Ymm (pack (map (fun x => mkw 4 (uval x)) (firstn 4 xs))) (pack (map (fun x => mkw 4 (uval x)) (skipn 4 xs))).
Proof.
  intros H. unfold yconvert_ushort_int. destruct avx2; [now apply ycvtepu16_pack|]. eight xs. rewrite unpacklo2, unpackhi2. unfold ymap1. cbn [lo128 hi128].
  rewrite !join_pair2. unfold srli_epi. rewrite !(lift1_pack (2 * 2)) by reflexivity. cbn [map firstn skipn]. change (2 * 2)%nat with 4%nat. rewrite !srli_join. reflexivity.
Qed.
Lemma ycvttps_pack (xs ys : list (word 4)) : length xs = 4%nat -> length ys = 4%nat ->
  ycvttps_epi32 (Ymm (pack xs) (pack ys)) = Ymm (pack (map (cvt_int32 ToZero) xs)) (pack (map (cvt_int32 ToZero) ys)).
Proof. intros Hx Hy. unfold ycvttps_epi32, ymap1. cbn [lo128 hi128]. now rewrite !cvttps_pack. Qed.
Lemma ycvtepi32_ps_pack (xs ys : list (word 4)) : length xs = 4%nat -> length ys = 4%nat ->
  ycvtepi32_ps (Ymm (pack xs) (pack ys)) = Ymm (pack (map (fun x => of_int 4 (sval x)) xs)) (pack (map (fun x => of_int 4 (sval x)) ys)).
Proof. intros Hx Hy. unfold ycvtepi32_ps, ymap1. cbn [lo128 hi128]. now rewrite !cvtepi32_ps_pack. Qed.

(** one half of float to unsigned int *)
Lemma masks4 (p q r s : bool) : [wmask 4 p; wmask 4 q; wmask 4 r; wmask 4 s] = map (wmask 4) [p; q; r; s].
Proof. reflexivity. Qed.
Lemma blend4 (f : reg -> reg -> reg -> reg) :
  f = mm_blendv_epi8 \/ f = mm_blendv_fp 4 -> forall (xs ys : list (word 4)) m, length xs = 4%nat -> length ys = 4%nat -> length m = 4%nat ->
  f (pack xs) (pack ys) (pack (map (wmask 4) m)) = pack (map3 (fun x y (b : bool) => if b then y else x) xs ys m).
Proof.
  intros [->| ->] xs ys m Hx Hy Hm.
  - exact (blendv_pack true 4 xs ys m ltac:(congruence) ltac:(congruence)).
  - change (pack (map (wmask 4) m)) with (mask_reg 4 m). rewrite blendv_fp_pack by (first [congruence | exact Hx | right; left; reflexivity]). f_equal. unfold masked_update_spec.
    four xs. four ys. destruct m as [|m0 [|m1 [|m2 [|m3 [|? ?]]]]]; try discriminate. reflexivity.
Qed.
Lemma float_uint_half f (xs : list (word 4)) : f = mm_blendv_epi8 \/ f = mm_blendv_fp 4 -> length xs = 4%nat ->
  f (cvttps_epi32 (pack xs)) (add_epi 4 (cvttps_epi32 (v_fsub 4 (pack xs) (set1_fp 4 (2 ^ 31)))) (set1 4 (2 ^ 31)))
    (fcmp 4 (fun x y => fle y x) (pack xs) (set1_fp 4 (2 ^ 31))) = pack (map f2u xs).
Proof.
  intros Hf H. four xs. rewrite set1_fp_pack. change (16 / 4)%nat with 4%nat. unfold v_fsub, fcmp. rewrite !lift2_pack by reflexivity.
  cbn [map2 repeat]. rewrite !cvttps_pack by reflexivity. rewrite (ConvertRegP.set1_pack 4 (2 ^ 31) lk4). change (16 / 4)%nat with 4%nat. unfold add_epi. rewrite lift2_pack by reflexivity.
  cbn [map map2 repeat]. rewrite !add_msb, masks4, (blend4 f Hf) by reflexivity. reflexivity.
Qed.
Lemma yfloat_uint_pack (xs ys : list (word 4)) : length xs = 4%nat -> length ys = 4%nat ->
  yconvert_float_uint (Ymm (pack xs) (pack ys)) = Ymm (pack (map f2u xs)) (pack (map f2u ys)).
Proof.
  intros Hx Hy. unfold yconvert_float_uint, y_blendv_ps, y_assign, ycvttps_epi32, y_add, y_fsub, yset1_fp, yset1, ymap1, ymap2. cbn [is_integer lo128 hi128 esize].
  f_equal; now apply (float_uint_half (mm_blendv_fp 4)); [right|].
Qed.
Lemma ycast_float_uint_pack (xs ys : list (word 4)) : length xs = 4%nat -> length ys = 4%nat ->
  ycast_float_uint (Ymm (pack xs) (pack ys)) = Ymm (pack (map f2u xs)) (pack (map f2u ys)).
Proof.
  intros Hx Hy. unfold ycast_float_uint, y_assign, ycvttps_epi32, y_add, y_fsub, yset1_fp, yset1, ymap1, ymap2. cbn [is_integer lo128 hi128 esize].
  f_equal; now apply (float_uint_half mm_blendv_epi8); [left|].
Qed.
Lemma ydouble_uint_pack (xs ys : list (word 8)) : length xs = 2%nat -> length ys = 2%nat ->
  yconvert_double_uint (Ymm (pack xs) (pack ys)) = pack (map d2u (xs ++ ys)).
Proof.
  intros Hx Hy. two xs. two ys. unfold yconvert_double_uint, y_floor_pd, y_fsub, yset1_fp, ymap1, ymap2. cbn [lo128 hi128].
  rewrite set1_fp_pack. change (16 / 8)%nat with 2%nat. unfold v_fsub, mm_round. rewrite !lift1_pack by reflexivity. cbn [map]. rewrite !lift2_pack by reflexivity.
  cbn [map2 repeat]. rewrite ycvttpd_pack by reflexivity. rewrite (ConvertRegP.set1_pack 4 _ lk4). cbn [map app]. change (16 / 4)%nat with 4%nat. rewrite xor_pack by reflexivity. reflexivity.
Qed.
Lemma uint_float_half (xs : list (word 4)) : length xs = 4%nat ->
  mm_blendv_fp 4 (cvtepi32_ps (pack xs))
    (v_fadd 4 (cvtepi32_ps (mm_and (pack xs) (set1 4 0x7ffffe00))) (v_fadd 4 (set1_fp 4 (2 ^ 31)) (cvtepi32_ps (mm_and (pack xs) (set1 4 0x000001ff)))))
    (cmplt_epi 4 (pack xs) mm_setzero) = pack (map u2f xs).
Proof.
  intros H. four xs. rewrite set1_fp_pack. change (16 / 4)%nat with 4%nat. rewrite !(ConvertRegP.set1_pack 4 _ lk4). change (16 / 4)%nat with 4%nat. rewrite !and_pack by reflexivity.
  cbn [map2 repeat]. rewrite !cvtepi32_ps_pack by reflexivity. cbn [map]. unfold v_fadd. rewrite !lift2_pack by reflexivity. cbn [map2].
  rewrite zero4. unfold cmplt_epi. rewrite lift2_pack by reflexivity. cbn [map2 repeat].
  rewrite masks4, (blend4 _ (or_intror eq_refl)) by reflexivity. change (sval (w0 4)) with 0. reflexivity.
Qed.
Lemma yuint_float_pack (xs ys : list (word 4)) : length xs = 4%nat -> length ys = 4%nat ->
  yconvert_uint_float (Ymm (pack xs) (pack ys)) = Ymm (pack (map u2f xs)) (pack (map u2f ys)).
Proof.
  intros Hx Hy. unfold yconvert_uint_float, y_blendv_ps, y_assign, ycvtepi32_ps, y_fadd, yset1_fp, yset1, yzero, ymap1, ymap2. cbn [is_integer lo128 hi128 esize].
  f_equal; now apply uint_float_half.
Qed.
Lemma setmin4 : setmin_epi 4 = pack (repeat (mkw 4 (2 ^ 31)) 4).
Proof. reflexivity. Qed.
Lemma add_pd31 (a b c d : word 8) :
  y_fadd 8 (Ymm (pack [a; b]) (pack [c; d])) (yset1_fp 8 (2 ^ 31)) =
  Ymm (pack [fadd a (of_int 8 (2 ^ 31)); fadd b (of_int 8 (2 ^ 31))]) (pack [fadd c (of_int 8 (2 ^ 31)); fadd d (of_int 8 (2 ^ 31))]).
Proof. unfold y_fadd, yset1_fp, ymap2. cbn [lo128 hi128]. rewrite set1_fp_pack. unfold v_fadd. rewrite !lift2_pack by reflexivity. reflexivity. Qed.
Lemma yuint_double_pack (a b c d : word 4) : yconvert_uint_double (pack [a; b; c; d]) = Ymm (pack [u2d a; u2d b]) (pack [u2d c; u2d d]).
Proof.
  unfold yconvert_uint_double. rewrite setmin4, xor_pack by reflexivity. cbn [map2 repeat]. rewrite ycvtepi32_pd_pack, add_pd31. reflexivity.
Qed.
Lemma xyuint_double_pack (a b c d : word 4) :
  y_fadd 8 (ycvtepi32_pd (sub_epi 4 (pack [a; b; c; d]) (setmin_epi 4))) (yset1_fp 8 (2 ^ 31)) = Ymm (pack [u2d a; u2d b]) (pack [u2d c; u2d d]).
Proof.
  rewrite setmin4. unfold sub_epi. rewrite lift2_pack by reflexivity. cbn [map2 repeat]. rewrite ycvtepi32_pd_pack, add_pd31, !sub_msb. reflexivity.
Qed.
(** narrowing *)
Lemma pshufb_pack (a b c d : word 4) :
  mm_shuffle_epi8 (pack [a; b; c; d]) narrow_shuf = pack [mkw 2 (uval a); mkw 2 (uval b); mkw 2 (uval c); mkw 2 (uval d); w0 2; w0 2; w0 2; w0 2].
Proof. rewrite halves4. reflexivity. Qed.
Ltac len8 p := destruct p as [|? [|? [|? [|? [|? [|? [|? [|? [|? ?]]]]]]]]]; try discriminate.
Lemma perm0213 (p0 p1 p2 p3 : list Z) : length p0 = 8%nat -> length p1 = 8%nat -> length p2 = 8%nat -> length p3 = 8%nat ->
  ymem_permute4x64 8 0 2 1 3 (Ymm (p0 ++ p1) (p2 ++ p3)) = Ymm (p0 ++ p2) (p1 ++ p3).
Proof. intros. len8 p0. len8 p1. len8 p2. len8 p3. reflexivity. Qed.
Lemma permF8 (p0 p1 p2 p3 : list Z) : length p0 = 8%nat -> length p1 = 8%nat -> length p2 = 8%nat -> length p3 = 8%nat ->
  lo128 (permute4x64 8 (Ymm (p0 ++ p1) (p2 ++ p3)) 0xf8) = p0 ++ p2.
Proof. intros. len8 p0. len8 p1. len8 p2. len8 p3. reflexivity. Qed.
Lemma unpacklo_cat (p0 p1 p2 p3 : list Z) : length p0 = 8%nat -> length p1 = 8%nat -> length p2 = 8%nat -> length p3 = 8%nat ->
  unpacklo 8 8 (p0 ++ p1) (p2 ++ p3) = p0 ++ p2.
Proof. intros. len8 p0. len8 p1. len8 p2. len8 p3. reflexivity. Qed.
Notation lo16 := (fun x : word 4 => mkw 2 (uval x)) (only parsing).
Lemma yint_ushort_pack (xs ys : list (word 4)) : length xs = 4%nat -> length ys = 4%nat ->
  yconvert_int_ushort (Ymm (pack xs) (pack ys)) = pack (map lo16 (xs ++ ys)).
Proof. intros Hx Hy. exact (i16_pack xs ys Hx Hy). Qed.
Lemma yint_short_pack avx2 (xs ys : list (word 4)) : length xs = 4%nat -> length ys = 4%nat ->
  yconvert_int_short avx2 (Ymm (pack xs) (pack ys)) = pack (map lo16 (xs ++ ys)).
Proof.
  intros Hx Hy. unfold yconvert_int_short. destruct avx2; [|now apply yint_ushort_pack]. four xs. four ys. unfold ymap1. cbn [lo128 hi128]. rewrite !pshufb_pack.
  set (A := [mkw 2 (uval a); mkw 2 (uval b); mkw 2 (uval c); mkw 2 (uval d)]). set (B := [mkw 2 (uval a0); mkw 2 (uval b0); mkw 2 (uval c0); mkw 2 (uval d0)]).
  set (O := [w0 2; w0 2; w0 2; w0 2]). change (lo128 (permute4x64 8 (Ymm (pack (A ++ O)) (pack (B ++ O))) 248) = pack (A ++ B)).
  rewrite !pack_app. apply permF8; apply pack_length.
Qed.
Lemma int_ushort_pack (xs : list (word 4)) : length xs = 4%nat -> convert_int_ushort (pack xs) = pack (map lo16 xs ++ repeat (w0 2) 4).
Proof.
  intros Hx. change (convert_int32_to_int16 (pack xs) mm_setzero = pack (map lo16 xs ++ repeat (w0 2) 4)). rewrite zero4, i16_pack by auto. rewrite map_app. reflexivity.
Qed.
Lemma packus_pack (xs ys : list (word 4)) : length xs = 4%nat -> length ys = 4%nat ->
  packus_epi32 (pack xs) (pack ys) = pack (map (fun x => mkw 2 (Z.max 0 (Z.min (2 ^ 16 - 1) (sval x)))) (xs ++ ys)).
Proof. intros Hx Hy. unfold packus_epi32. rewrite !lanes_pack by assumption. reflexivity. Qed.
Lemma ynarrow_short_pack (a b c d : list (word 4)) : length a = 4%nat -> length b = 4%nat -> length c = 4%nat -> length d = 4%nat ->
  ynarrow_short (Ymm (pack a) (pack b)) (Ymm (pack c) (pack d)) = Ymm (pack (map lo16 (a ++ b))) (pack (map lo16 (c ++ d))).
Proof.
  intros La Lb Lc Ld. unfold ynarrow_short, yunpacklo, ymap1, ymap2. cbn [lo128 hi128].
  assert (P : forall xs, length xs = 4%nat -> mm_shuffle_epi8 (pack xs) narrow_shuf = pack (map lo16 xs) ++ pack (repeat (w0 2) 4)).
  { intros xs L. four xs. rewrite pshufb_pack, <- pack_app. reflexivity. }
  rewrite !P, !unpacklo_cat, perm0213, !map_app, !pack_app by (auto; rewrite pack_length, ?map_length, ?repeat_length; lia). reflexivity.
Qed.
Lemma ynarrow_ushort_pack (a b c d : list (word 4)) : length a = 4%nat -> length b = 4%nat -> length c = 4%nat -> length d = 4%nat ->
  ynarrow_ushort (Ymm (pack a) (pack b)) (Ymm (pack c) (pack d)) = Ymm (pack (map lo16 (a ++ b))) (pack (map lo16 (c ++ d))).
Proof.
  intros La Lb Lc Ld. unfold ynarrow_ushort, yunpacklo, yunpackhi, ymap2. cbn [lo128 hi128].
  change (ymem_permute4x64 8 0 2 1 3 (Ymm (convert_int32_to_int16 (pack a) (pack c)) (convert_int32_to_int16 (pack b) (pack d))) =
          Ymm (pack (map lo16 (a ++ b))) (pack (map lo16 (c ++ d)))).
  rewrite !i16_pack by auto. rewrite !map_app, !pack_app, perm0213 by (rewrite pack_length, map_length; lia). reflexivity.
Qed.
