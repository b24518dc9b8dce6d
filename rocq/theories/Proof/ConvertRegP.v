(** The casts of Model/SseConvert on registers. *)
From Coq Require Import ZArith List Bool Lia.
From Verif.Spec Require Import Seq FloatSpec RoundSpec CastSpec.
From Verif.Model Require Import Word Fp FpArith SseReg SseMove SortNet SseInt SseBuild SseArith SseMask SseConvert SimdArray.
From Verif.Proof Require Import SeqP WordP FpP FpArithP FpIntP SseIntP SseEmulP ConvertP.
Import ListNotations.
Local Open Scope Z_scope.

(** what a lane becomes *)
Definition lane_fn (from to : etype) : elt from -> elt to :=
  match from as f, to as t return elt f -> elt t with
  | Float, Int => fun x => @cvt_int32 4 ToZero x
  | Double, Int => fun x => @cvt_int32 8 ToZero x
  | (Int | UInt), (Int | UInt) | (Short | UShort), (Short | UShort) => fun x => x
  | Short, (Int | UInt) => fun x => mkw 4 (sval x)
  | UShort, (Int | UInt) => fun x => mkw 4 (uval x)
  | Float, UInt => fun x => @f2u 4 x
  | Double, UInt => fun x => d2u x
  | Float, Float | Double, Double => fun x => x
  | Double, Float => fun x => to_float x
  | Float, Double => fun x => to_double x
  | Int, Float => fun x => of_int 4 (sval x)
  | UInt, Float => fun x => u2f x
  | Short, Float => fun x => of_int 4 (sval x)
  | UShort, Float => fun x => of_int 4 (uval x)
  | Int, Double => fun x => of_int 8 (sval x)
  | UInt, Double => fun x => u2d x
  | Short, Double => fun x => of_int 8 (sval x)
  | UShort, Double => fun x => of_int 8 (uval x)
  | (Int | UInt), (Short | UShort) => fun x => mkw 2 (uval x)
  | Float, Short => fun x => saturate_s 2 (sval (@cvt_int32 4 ToZero x))
  | Double, Short => fun x => saturate_s 2 (sval (@cvt_int32 8 ToZero x))
  | Float, UShort => fun x => mkw 2 (uval (@cvt_int32 4 ToZero x))
  | Double, UShort => fun x => mkw 2 (uval (@cvt_int32 8 ToZero x))
  end.

Lemma mkw_uval {w} (x : word w) : mkw w (uval x) = x.
Proof. apply word_ext. apply mkw_small. apply uval_range. Qed.
Lemma sval_minus_uval {w} (x : word w) : (uval x - sval x) mod modulus w = 0.
Proof. pose proof (modulus_pos w). rewrite Zminus_mod, sval_mod, (Z.mod_small (uval x)) by apply uval_range. rewrite Z.sub_diag. apply Z.mod_0_l. lia. Qed.
Lemma mod_low a : a mod modulus 4 = 0 -> a mod modulus 2 = 0.
Proof. intros H. apply Z.mod_divide in H; [|vm_compute; congruence]. apply Z.mod_divide; [vm_compute; congruence|]. destruct H as [q ->]. exists (q * modulus 2). change (modulus 4) with (modulus 2 * modulus 2). ring. Qed.
Lemma zero_mod w (z : Z) : (z - z) mod modulus w = 0.
Proof. rewrite Z.sub_diag. apply Z.mod_0_l. pose proof (modulus_pos w). lia. Qed.
Lemma lane_fn_ok from to (x : elt from) : cast_ok from to x (lane_fn from to x).
Proof.
  destruct from, to.
  - exact (eq_rect _ (cast_ok Short Short x) (cast_int_int Short Short x (uval x) eq_refl eq_refl (sval_minus_uval x)) _ (mkw_uval x)).
  - exact (eq_rect _ (cast_ok Short UShort x) (cast_int_int Short UShort x (uval x) eq_refl eq_refl (sval_minus_uval x)) _ (mkw_uval x)).
  - exact (cast_int_int Short Int x (sval x) eq_refl eq_refl (zero_mod 4 _)).
  - exact (cast_int_int Short UInt x (sval x) eq_refl eq_refl (zero_mod 4 _)).
  - exact (cast_int_fp Short Float x eq_refl eq_refl).
  - exact (cast_int_fp Short Double x eq_refl eq_refl).
  - exact (eq_rect _ (cast_ok UShort Short x) (cast_int_int UShort Short x (uval x) eq_refl eq_refl (zero_mod 2 (uval x))) _ (mkw_uval x)).
  - exact (eq_rect _ (cast_ok UShort UShort x) (cast_int_int UShort UShort x (uval x) eq_refl eq_refl (zero_mod 2 (uval x))) _ (mkw_uval x)).
  - exact (cast_int_int UShort Int x (uval x) eq_refl eq_refl (zero_mod 4 _)).
  - exact (cast_int_int UShort UInt x (uval x) eq_refl eq_refl (zero_mod 4 _)).
  - exact (cast_int_fp UShort Float x eq_refl eq_refl).
  - exact (cast_int_fp UShort Double x eq_refl eq_refl).
  - exact (cast_int_int Int Short x (uval x) eq_refl eq_refl (mod_low _ (sval_minus_uval x))).
  - exact (cast_int_int Int UShort x (uval x) eq_refl eq_refl (mod_low _ (sval_minus_uval x))).
  - exact (eq_rect _ (cast_ok Int Int x) (cast_int_int Int Int x (uval x) eq_refl eq_refl (sval_minus_uval x)) _ (mkw_uval x)).
  - exact (eq_rect _ (cast_ok Int UInt x) (cast_int_int Int UInt x (uval x) eq_refl eq_refl (sval_minus_uval x)) _ (mkw_uval x)).
  - exact (cast_int_fp Int Float x eq_refl eq_refl).
  - exact (cast_int_fp Int Double x eq_refl eq_refl).
  - exact (cast_int_int UInt Short x (uval x) eq_refl eq_refl (zero_mod 2 _)).
  - exact (cast_int_int UInt UShort x (uval x) eq_refl eq_refl (zero_mod 2 _)).
  - exact (eq_rect _ (cast_ok UInt Int x) (cast_int_int UInt Int x (uval x) eq_refl eq_refl (zero_mod 4 (uval x))) _ (mkw_uval x)).
  - exact (eq_rect _ (cast_ok UInt UInt x) (cast_int_int UInt UInt x (uval x) eq_refl eq_refl (zero_mod 4 (uval x))) _ (mkw_uval x)).
  - change (lane_fn UInt Float x) with (u2f x). rewrite (u2f_value x). exact (cast_int_fp UInt Float x eq_refl eq_refl).
  - change (lane_fn UInt Double x) with (u2d x). rewrite (u2d_value x). exact (cast_int_fp UInt Double x eq_refl eq_refl).
  - exact (cast_fp_short Float x eq_refl).
  - exact (cast_fp_ushort Float x eq_refl).
  - exact (cast_fp_int Float x eq_refl).
  - exact (cast_fp_uint Float x eq_refl).
  - exact (cast_fp_same Float x eq_refl).
  - exact (cast_float_double x).
  - exact (cast_fp_short Double x eq_refl).
  - exact (cast_fp_ushort Double x eq_refl).
  - exact (cast_fp_int Double x eq_refl).
  - exact (cast_double_uint x).
  - exact (cast_double_float x).
  - exact (cast_fp_same Double x eq_refl).
Qed.

(** ** registers *)
Lemma unpacklo2 (a0 a1 a2 a3 a4 a5 a6 a7 b0 b1 b2 b3 b4 b5 b6 b7 : word 2) :
  unpacklo 8 2 (pack [a0; a1; a2; a3; a4; a5; a6; a7]) (pack [b0; b1; b2; b3; b4; b5; b6; b7]) = pack [a0; b0; a1; b1; a2; b2; a3; b3].
Proof. rewrite unpacklo_pack by (try reflexivity; right; left; reflexivity). change (8 / 2)%nat with 4%nat. cbn [firstn map2 concat]. unfold pack, to_reg. cbn [map concat]. rewrite <- !app_assoc. reflexivity. Qed.
Lemma unpackhi2 (a0 a1 a2 a3 a4 a5 a6 a7 b0 b1 b2 b3 b4 b5 b6 b7 : word 2) :
  unpackhi 8 2 (pack [a0; a1; a2; a3; a4; a5; a6; a7]) (pack [b0; b1; b2; b3; b4; b5; b6; b7]) = pack [a4; b4; a5; b5; a6; b6; a7; b7].
Proof. rewrite unpackhi_pack by (try reflexivity; right; left; reflexivity). change (8 / 2)%nat with 4%nat. cbn [skipn map2 concat]. unfold pack, to_reg. cbn [map concat]. rewrite <- !app_assoc. reflexivity. Qed.
Lemma unpacklo8 (a0 a1 b0 b1 : word 8) : unpacklo 8 8 (pack [a0; a1]) (pack [b0; b1]) = pack [a0; b0].
Proof. rewrite unpacklo_pack by (try reflexivity; right; right; right; reflexivity). change (8 / 8)%nat with 1%nat. cbn [firstn map2 concat]. unfold pack, to_reg. cbn [map concat]. rewrite <- !app_assoc. reflexivity. Qed.
Lemma join4 (p q r s : word 4) : pack [p; q; r; s] = pack [join p q; join r s].
Proof. rewrite (pack_halves 4 [join p q; join r s]). cbn [flat_map app]. now rewrite !lo_join, !hi_join. Qed.
Lemma unpacklo64 (a0 a1 a2 a3 b0 b1 b2 b3 : word 4) : unpacklo 8 8 (pack [a0; a1; a2; a3]) (pack [b0; b1; b2; b3]) = pack [a0; a1; b0; b1].
Proof. rewrite !join4. apply unpacklo8. Qed.
Lemma halves4 (a b c d : word 4) : pack [a; b; c; d] = pack [@lo_half 2 a; @hi_half 2 a; @lo_half 2 b; @hi_half 2 b; @lo_half 2 c; @hi_half 2 c; @lo_half 2 d; @hi_half 2 d].
Proof. exact (pack_halves 2 [a; b; c; d]). Qed.
Ltac four xs := destruct xs as [|?a [|?b [|?c [|?d [|? ?]]]]]; try discriminate.
Ltac eight xs := destruct xs as [|?a [|?b [|?c [|?d [|?e [|?f [|?g [|?h [|? ?]]]]]]]]]; try discriminate.
Ltac two xs := destruct xs as [|?a [|?b [|? ?]]]; try discriminate.
Lemma i16_pack (xs ys : list (word 4)) : length xs = 4%nat -> length ys = 4%nat ->
  convert_int32_to_int16 (pack xs) (pack ys) = pack (map (fun x => mkw 2 (uval x)) (xs ++ ys)).
Proof.
  intros Hx Hy. four xs. four ys. unfold convert_int32_to_int16. rewrite !halves4.
  rewrite !unpacklo2, !unpackhi2, !unpacklo2. reflexivity.
Qed.
Lemma zero4 : mm_setzero = pack (repeat (w0 4) 4).
Proof. exact (setzero_pack 4 (or_intror (or_intror (or_introl eq_refl)))). Qed.
Lemma zero2 : mm_setzero = pack (repeat (w0 2) 8).
Proof. exact (setzero_pack 2 (or_intror (or_introl eq_refl))). Qed.
Lemma packs_pack (xs ys : list (word 4)) : length xs = 4%nat -> length ys = 4%nat ->
  packs_epi32 (pack xs) (pack ys) = pack (map (fun x => saturate_s 2 (sval x)) (xs ++ ys)).
Proof. intros Hx Hy. unfold packs_epi32. rewrite !lanes_pack by assumption. reflexivity. Qed.
Lemma sval_join w (p q : word w) : (0 < w)%nat -> sval (join p q) = uval p + modulus w * sval q.
Proof. intros W. rewrite sval_halves, lo_join, hi_join by exact W. reflexivity. Qed.
Lemma join_pair2 (a b c d e f g h : word 2) : pack [a; b; c; d; e; f; g; h] = pack [join a b; join c d; join e f; join g h].
Proof. rewrite (pack_halves 2 [join a b; join c d; join e f; join g h]). cbn [flat_map app]. now rewrite !lo_join, !hi_join. Qed.
Lemma srai_join (a : word 2) : mkw 4 (sval (join a a) / 2 ^ 16) = mkw 4 (sval a).
Proof.
  f_equal. change (2 ^ 16) with (modulus 2). rewrite (sval_join 2) by lia. pose proof (uval_range a). pose proof (modulus_pos 2).
  rewrite Z.mul_comm, Z.div_add by lia. rewrite Z.div_small by lia. lia.
Qed.
Lemma srli_join (a : word 2) : mkw 4 (uval (join a a) / 2 ^ 16) = mkw 4 (uval a).
Proof.
  f_equal. change (2 ^ 16) with (modulus 2). rewrite (uval_join 2). pose proof (uval_range a). pose proof (modulus_pos 2).
  rewrite Z.mul_comm, Z.div_add by lia. rewrite Z.div_small by lia. lia.
Qed.
Lemma short_int_pack sse41 (xs : list (word 2)) : length xs = 8%nat ->
  convert_short_int sse41 (pack xs) = pack (map (fun x => mkw 4 (sval x)) (firstn 4 xs)).
Proof.
  intros Hx. unfold convert_short_int. destruct sse41.
  - unfold mm_cvtepi. rewrite lanes_pack by assumption. reflexivity.
  - eight xs. rewrite unpacklo2, join_pair2. unfold srai_epi. rewrite (lift1_pack (2 * 2)) by reflexivity. cbn [map firstn].
    change (2 * 2)%nat with 4%nat. rewrite !srai_join. reflexivity.
Qed.
Lemma ushort_int_pack sse41 (xs : list (word 2)) : length xs = 8%nat ->
  convert_ushort_int sse41 (pack xs) = pack (map (fun x => mkw 4 (uval x)) (firstn 4 xs)).
Proof.
  intros Hx. unfold convert_ushort_int. destruct sse41.
  - unfold mm_cvtepu. rewrite lanes_pack by assumption. reflexivity.
  - eight xs. rewrite unpacklo2, join_pair2. unfold srli_epi. rewrite (lift1_pack (2 * 2)) by reflexivity. cbn [map firstn].
    change (2 * 2)%nat with 4%nat. rewrite !srli_join. reflexivity.
Qed.
Lemma set1_pack w z : lane_ok w -> set1 w z = pack (repeat (mkw w z) (16 / w)).
Proof. intros _. reflexivity. Qed.
Lemma set1_fp_pack w z : set1_fp w z = pack (repeat (of_int w z) (16 / w)).
Proof. unfold set1_fp, set1. rewrite mkw_uval. reflexivity. Qed.
Lemma lk4 : lane_ok 4. Proof. right; right; left; reflexivity. Qed.
Lemma lk8 : lane_ok 8. Proof. right; right; right; reflexivity. Qed.
Lemma cvttps_pack (xs : list (word 4)) : length xs = 4%nat -> cvttps_epi32 (pack xs) = pack (map (cvt_int32 ToZero) xs).
Proof. intros H. unfold cvttps_epi32. now apply lift1_pack. Qed.
Lemma cvttpd_pack (xs : list (word 8)) : length xs = 2%nat -> cvttpd_epi32 (pack xs) = pack (map (cvt_int32 ToZero) xs ++ [w0 4; w0 4]).
Proof. intros H. unfold cvttpd_epi32. now rewrite lanes_pack. Qed.
Lemma cvtepi32_ps_pack (xs : list (word 4)) : length xs = 4%nat -> cvtepi32_ps (pack xs) = pack (map (fun x => of_int 4 (sval x)) xs).
Proof. intros H. unfold cvtepi32_ps. now apply lift1_pack. Qed.
Lemma cvtepi32_pd_pack (xs : list (word 4)) : length xs = 4%nat -> cvtepi32_pd (pack xs) = pack (map (fun x => of_int 8 (sval x)) (firstn 2 xs)).
Proof. intros H. unfold cvtepi32_pd. now rewrite lanes_pack. Qed.
Lemma float_uint_pack sse41 (xs : list (word 4)) : length xs = 4%nat -> convert_float_uint sse41 (pack xs) = pack (map f2u xs).
Proof.
  intros H. four xs. unfold convert_float_uint. rewrite set1_fp_pack. change (16 / 4)%nat with 4%nat. unfold v_fsub, fcmp. rewrite !lift2_pack by reflexivity.
  cbn [map2 repeat]. rewrite !cvttps_pack by reflexivity. rewrite (set1_pack 4 (2 ^ 31) lk4). rewrite xor_pack by reflexivity. cbn [map map2 repeat].
  change [wmask 4 (fle (of_int 4 (2 ^ 31)) a); wmask 4 (fle (of_int 4 (2 ^ 31)) b); wmask 4 (fle (of_int 4 (2 ^ 31)) c); wmask 4 (fle (of_int 4 (2 ^ 31)) d)]
    with (map (wmask 4) [fle (of_int 4 (2 ^ 31)) a; fle (of_int 4 (2 ^ 31)) b; fle (of_int 4 (2 ^ 31)) c; fle (of_int 4 (2 ^ 31)) d]).
  rewrite blendv_pack by reflexivity. reflexivity.
Qed.
Lemma cvtsi64_pack : cvtsi64 0x8000000080000000 = pack [mkw 4 (2 ^ 31); mkw 4 (2 ^ 31); w0 4; w0 4].
Proof. vm_compute. reflexivity. Qed.
Lemma wxor_0_r w (x : word w) : wxor x (w0 w) = x.
Proof. apply word_ext. unfold wxor. rewrite uval_mkw, uval_w0, Z.lxor_0_r. apply Z.mod_small. apply uval_range. Qed.
Lemma double_uint_pack (xs : list (word 8)) : length xs = 2%nat -> convert_double_uint true (pack xs) = pack (map d2u xs ++ [w0 4; w0 4]).
Proof.
  intros H. two xs. unfold convert_double_uint. rewrite set1_fp_pack. change (16 / 8)%nat with 2%nat. unfold v_fsub, mm_round. rewrite lift1_pack by reflexivity. cbn [map]. rewrite lift2_pack by reflexivity.
  cbn [map2 repeat]. rewrite cvttpd_pack by reflexivity. rewrite cvtsi64_pack. cbn [map app]. rewrite xor_pack by reflexivity. cbn [map2]. rewrite !wxor_0_r. reflexivity.
Qed.
Lemma uint_float_pack sse41 (xs : list (word 4)) : length xs = 4%nat -> convert_uint_float sse41 (pack xs) = pack (map u2f xs).
Proof.
  intros H. four xs. unfold convert_uint_float. rewrite set1_fp_pack. change (16 / 4)%nat with 4%nat. rewrite !(set1_pack 4 _ lk4). change (16 / 4)%nat with 4%nat. rewrite !and_pack by reflexivity.
  cbn [map2 repeat]. rewrite !cvtepi32_ps_pack by reflexivity. cbn [map]. unfold v_fadd. rewrite !lift2_pack by reflexivity. cbn [map2].
  rewrite zero4. unfold cmplt_epi. rewrite lift2_pack by reflexivity. cbn [map2 repeat].
  match goal with |- blendv_epi8 _ _ _ (pack [wmask 4 ?p; wmask 4 ?q; wmask 4 ?r; wmask 4 ?s]) = _ =>
    change [wmask 4 p; wmask 4 q; wmask 4 r; wmask 4 s] with (map (wmask 4) [p; q; r; s]) end.
  rewrite blendv_pack by reflexivity. change (sval (w0 4)) with 0. reflexivity.
Qed.
Lemma uint_double_pack (xs : list (word 4)) : length xs = 4%nat -> convert_uint_double (pack xs) = pack (map u2d (firstn 2 xs)).
Proof.
  intros H. four xs. unfold convert_uint_double. rewrite set1_fp_pack. change (16 / 8)%nat with 2%nat. unfold setmin_epi. rewrite (set1_pack 4 _ lk4). rewrite xor_pack by reflexivity.
  change (bits 4 - 1) with 31. change (16 / 4)%nat with 4%nat. cbn [map2 repeat]. rewrite cvtepi32_pd_pack by reflexivity. cbn [map firstn]. unfold v_fadd. rewrite lift2_pack by reflexivity. reflexivity.
Qed.
Lemma cvtpd_ps_pack (xs : list (word 8)) : length xs = 2%nat -> cvtpd_ps (pack xs) = pack (map to_float xs ++ [w0 4; w0 4]).
Proof. intros H. unfold cvtpd_ps. now rewrite lanes_pack. Qed.
Lemma cvtps_pd_pack (xs : list (word 4)) : length xs = 4%nat -> cvtps_pd (pack xs) = pack (map to_double (firstn 2 xs)).
Proof. intros H. unfold cvtps_pd. now rewrite lanes_pack. Qed.

(** ** the casts *)
Definition packed_as (from to : etype) (f : elt from -> elt to) (xs : list (elt from)) (r : reg) : Prop :=
  r = pack (firstn (16 / esize to) (map f xs) ++ repeat (w0 (esize to)) (16 / esize to - length xs)).
Ltac conv_step :=
  first [rewrite short_int_pack by reflexivity | rewrite ushort_int_pack by reflexivity | rewrite cvttps_pack by reflexivity | rewrite cvttpd_pack by reflexivity
       | rewrite cvtepi32_ps_pack by reflexivity | rewrite cvtepi32_pd_pack by reflexivity | rewrite float_uint_pack by reflexivity | rewrite double_uint_pack by reflexivity
       | rewrite uint_float_pack by reflexivity | rewrite uint_double_pack by reflexivity | rewrite cvtpd_ps_pack by reflexivity | rewrite cvtps_pd_pack by reflexivity
       | rewrite unpacklo64];
  cbn [map app firstn repeat].
Lemma sval_short_wide (x : word 2) : sval (mkw 4 (sval x)) = sval x.
Proof. apply mkw4_sval. pose proof (sval_range x ltac:(lia)). change (modulus 2 / 2) with (2 ^ 15) in *. lia. Qed.
Lemma sval_ushort_wide (x : word 2) : sval (mkw 4 (uval x)) = uval x.
Proof. apply mkw4_sval. pose proof (uval_range x). change (modulus 2) with (2 ^ 16) in *. lia. Qed.
Lemma zero_lo : mkw 2 (uval (w0 4)) = w0 2.
Proof. reflexivity. Qed.
Lemma sat_zero : saturate_s 2 (sval (w0 4)) = w0 2.
Proof. reflexivity. Qed.
Lemma simd_cast1_pack sse41 from to (xs : list (elt from)) : length xs = (16 / esize from)%nat -> ~ (sse41 = false /\ from = Double /\ to = UInt) ->
  packed_as from to (lane_fn from to) xs (simd_cast1 sse41 from to (pack xs)).
Proof.
  intros L NB. unfold packed_as, elt in *.
  destruct from; cbn [esize] in *; [change (16 / 2)%nat with 8%nat in L; eight xs|change (16 / 2)%nat with 8%nat in L; eight xs|change (16 / 4)%nat with 4%nat in L; four xs|change (16 / 4)%nat with 4%nat in L; four xs|change (16 / 4)%nat with 4%nat in L; four xs|change (16 / 8)%nat with 2%nat in L; two xs];
  (destruct to; cbn [esize] in *; unfold simd_cast1, convert; try (change (16 / 2)%nat with 8%nat); try (change (16 / 4)%nat with 4%nat); try (change (16 / 8)%nat with 2%nat); cbn [length Nat.sub map firstn app repeat lane_fn];
   repeat conv_step; rewrite ?sval_short_wide, ?sval_ushort_wide; try reflexivity;
   try (rewrite zero4, i16_pack by reflexivity; cbn [map app repeat]; rewrite !zero_lo; reflexivity);
   try (rewrite zero4, packs_pack by reflexivity; cbn [map app repeat]; rewrite ?sat_zero; reflexivity)).
  - destruct sse41; [|exfalso; apply NB; auto]. rewrite double_uint_pack by reflexivity. reflexivity.
Qed.
Lemma cast2_double_int_pack sse41 (xs ys : list (word 8)) : length xs = 2%nat -> length ys = 2%nat ->
  cast2_double_int sse41 (pack xs) (pack ys) = pack (map (cvt_int32 ToZero) (xs ++ ys)).
Proof. intros Hx Hy. two xs. two ys. unfold cast2_double_int, convert, convert_double_int. repeat conv_step. reflexivity. Qed.
Lemma simd_cast2_pack sse41 from to (xs ys : list (elt from)) r : length xs = (16 / esize from)%nat -> length ys = (16 / esize from)%nat ->
  ~ (sse41 = false /\ from = Double /\ to = UInt) -> simd_cast2 sse41 from to (pack xs) (pack ys) = Some r ->
  packed_as from to (lane_fn from to) (xs ++ ys) r.
Proof.
  intros L L' NB H. unfold packed_as, elt in *.
  destruct from, to; try discriminate H; cbn [esize simd_cast2] in *; apply (f_equal (fun o => match o with Some v => v | None => [] end)) in H; subst r; unfold convert.
  all: try (change (16 / 4)%nat with 4%nat in *; four xs; four ys); try (change (16 / 8)%nat with 2%nat in *; two xs; two ys).
  all: try (change (16 / 2)%nat with 8%nat); try (change (16 / 4)%nat with 4%nat); cbn [length Nat.sub map firstn app repeat lane_fn].
  all: try (repeat conv_step; rewrite ?i16_pack, ?packs_pack by reflexivity; reflexivity).
  - rewrite cast2_double_int_pack, zero4, packs_pack by reflexivity. cbn [map app repeat]. rewrite !sat_zero. reflexivity.
  - rewrite cast2_double_int_pack, zero4, i16_pack by reflexivity. cbn [map app repeat]. rewrite !zero_lo. reflexivity.
  - rewrite cast2_double_int_pack by reflexivity. reflexivity.
  - destruct sse41; [|exfalso; apply NB; auto]. rewrite !double_uint_pack by reflexivity. cbn [map app]. rewrite unpacklo64. reflexivity.
Qed.

Definition short3 (x : elt Double) : elt Short := mkw 2 (uval (@cvt_int32 8 ToZero x)).
Lemma simd_cast3_pack sse41 from to (xs ys zs : list (elt from)) r : length xs = (16 / esize from)%nat -> length ys = (16 / esize from)%nat -> length zs = (16 / esize from)%nat ->
  simd_cast3 sse41 from to (pack xs) (pack ys) (pack zs) = Some r ->
  exists f, (forall x, cast_ok from to x (f x)) /\ packed_as from to f (xs ++ ys ++ zs) r.
Proof.
  intros L L' L'' H. unfold packed_as, elt in *.
  destruct from, to; try discriminate H; cbn [esize simd_cast3 simd_cast2] in *; apply (f_equal (fun o => match o with Some v => v | None => [] end)) in H; subst r; unfold convert, convert_double_int;
  change (16 / 8)%nat with 2%nat in *; two xs; two ys; two zs; change (16 / 2)%nat with 8%nat; [exists short3; split; [intros x; exact (cast_fp_short' Double x eq_refl)|]|exists (lane_fn Double UShort); split; [intros x; exact (lane_fn_ok Double UShort x)|]];
  rewrite cast2_double_int_pack, cvttpd_pack, i16_pack by reflexivity; cbn [map app repeat length firstn Nat.sub]; rewrite !zero_lo; reflexivity.
Qed.
Lemma simd_cast4_pack sse41 from to (xs ys zs ts : list (elt from)) r : length xs = (16 / esize from)%nat -> length ys = (16 / esize from)%nat ->
  length zs = (16 / esize from)%nat -> length ts = (16 / esize from)%nat ->
  simd_cast4 sse41 from to (pack xs) (pack ys) (pack zs) (pack ts) = Some r -> packed_as from to (lane_fn from to) (xs ++ ys ++ zs ++ ts) r.
Proof.
  intros L L' L'' L''' H. unfold packed_as, elt in *.
  destruct from, to; try discriminate H; cbn [esize simd_cast4 simd_cast2] in *; apply (f_equal (fun o => match o with Some v => v | None => [] end)) in H; subst r;
  change (16 / 8)%nat with 2%nat in *; two xs; two ys; two zs; two ts; change (16 / 2)%nat with 8%nat;
  rewrite !cast2_double_int_pack by reflexivity; rewrite ?packs_pack, ?i16_pack by reflexivity; reflexivity.
Qed.

(** the entries of the result *)
Definition casted (from to : etype) (xs : list (elt from)) (r : reg) : Prop :=
  let n := Nat.min (length xs) (16 / esize to) in
  Forall2 (cast_ok from to) (firstn n xs) (firstn n (lanes (esize to) r)) /\ skipn n (lanes (esize to) r) = repeat (w0 (esize to)) (16 / esize to - n).
Lemma forall2_map {X Y} (R : X -> Y -> Prop) f : (forall x, R x (f x)) -> forall xs, Forall2 R xs (map f xs).
Proof. intros H. induction xs; constructor; auto. Qed.
Lemma packed_casted from to f xs r : (forall x, cast_ok from to x (f x)) -> packed_as from to f xs r -> casted from to xs r.
Proof.
  intros F ->. unfold casted. set (N := (16 / esize to)%nat). cbv zeta. rewrite lanes_pack by (fold N; rewrite app_length, firstn_length, map_length, repeat_length; lia).
  fold N. destruct (Nat.le_gt_cases (length xs) N) as [Q|Q].
  - rewrite Nat.min_l by exact Q. rewrite (firstn_all2 xs), (firstn_all2 (map f xs)) by (rewrite ?map_length; lia).
    rewrite firstn_app, firstn_all2, map_length, Nat.sub_diag, firstn_O, app_nil_r by (rewrite map_length; lia). split; [now apply forall2_map|].
    rewrite skipn_app, skipn_all2, map_length, Nat.sub_diag, skipn_O by (rewrite map_length; lia). reflexivity.
  - rewrite Nat.min_r by lia. replace (N - length xs)%nat with 0%nat by lia. cbn [repeat]. rewrite app_nil_r, firstn_firstn, Nat.min_id, firstn_map.
    rewrite Nat.sub_diag. split; [now apply forall2_map|]. apply skipn_all2. rewrite map_length, firstn_length. lia.
Qed.
