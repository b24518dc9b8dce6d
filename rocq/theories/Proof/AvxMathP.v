(** The floating-point functions of the AVX vectors on registers. *)
From Coq Require Import ZArith List Bool Lia.
From Verif.Spec Require Import Seq FloatSpec RoundSpec CastSpec MathSpec VectorSpec.
From Verif.Model Require Import Word Fp FpArith SseReg SseMove SortNet SseInt SseBuild SseArith SseMask SimdArray Mem SseConvert SseMath
  AvxReg AvxMove AvxBuild AvxShuffle AvxMask AvxArith AvxConvert AvxMath.
From Verif.Proof Require Import SeqP WordP FpP FpArithP FpIntP SseMoveP SseIntP SseEmulP SseArithP SseMaskP ConvertP ConvertRegP SimdArrayOpsP MathP ShuffleP
  AvxMoveP AvxVecP AvxCast2P AvxShuffleP AvxMaskP AvxArithP AvxConvertP AvxMaskCastP.
Import ListNotations.
Local Open Scope Z_scope.

Lemma fp_w w : fp_width w -> width_ok w.
Proof. intros [->| ->]; [right; left|right; right]; reflexivity. Qed.

(** ** the functions that work on both halves as the SSE functions do *)
Lemma y_isnan_halves w a b : y_isnan w (Ymm a b) = Ymm (v_isnan w a) (v_isnan w b).
Proof. reflexivity. Qed.
Lemma y_isfinite_halves w a b : y_isfinite w (Ymm a b) = Ymm (v_isfinite w a) (v_isfinite w b).
Proof. reflexivity. Qed.
Lemma y_fabs_halves w a b : fp_width w -> y_fabs w (Ymm a b) = Ymm (v_fabs w a) (v_fabs w b).
Proof. intros [->| ->]; reflexivity. Qed.
Lemma y_isinf_halves w a b : fp_width w -> y_isinf w (Ymm a b) = Ymm (v_isinf true w a) (v_isinf true w b).
Proof. intros [->| ->]; reflexivity. Qed.
Lemma y_copysign_halves w a b c d : fp_width w -> y_copysign w (Ymm a b) (Ymm c d) = Ymm (v_copysign w a c) (v_copysign w b d).
Proof. intros [->| ->]; reflexivity. Qed.
Lemma y_isnegative_halves w a b : fp_width w -> y_isnegative w (Ymm a b) = Ymm (v_isnegative w a) (v_isnegative w b).
Proof. intros [->| ->]; reflexivity. Qed.
Lemma yzero_lanes_halves w a b : yzero_lanes w (Ymm a b) = Ymm (zero_lanes w a) (zero_lanes w b).
Proof. reflexivity. Qed.
Lemma yspecial_lanes_halves w a b : yspecial_lanes w (Ymm a b) = Ymm (special_lanes w a) (special_lanes w b).
Proof. reflexivity. Qed.

Lemma ymask_app w (l h : list bool) : length l = (16 / w)%nat -> ymask_reg w (l ++ h) = Ymm (mask_reg w l) (mask_reg w h).
Proof. intros L. unfold ymask_reg. rewrite map_app, ypack_app by (now rewrite map_length). reflexivity. Qed.

Section Lanes.
  Context {w : nat} (Hw : fp_width w).
  Variables (xs : list (word w)).
  Hypothesis L : length xs = (32 / w)%nat.

  Lemma halves_mask (f : yreg -> yreg) (g : reg -> reg) (p : word w -> bool) :
    (forall a b, f (Ymm a b) = Ymm (g a) (g b)) -> (forall l, length l = (16 / w)%nat -> g (pack l) = mask_reg w (map p l)) ->
    f (ypack xs) = ymask_reg w (map p xs).
  Proof using Hw L.
    intros F G. destruct (split_halves xs (fp_w w Hw) L) as (l & h & -> & Ll & Lh & ->). rewrite F, !G by assumption.
    rewrite map_app, ymask_app by (now rewrite map_length). reflexivity.
  Qed.
  Lemma halves_map (f : yreg -> yreg) (g : reg -> reg) (p : word w -> word w) :
    (forall a b, f (Ymm a b) = Ymm (g a) (g b)) -> (forall l, length l = (16 / w)%nat -> g (pack l) = pack (map p l)) ->
    f (ypack xs) = ypack (map p xs).
  Proof using Hw L.
    intros F G. destruct (split_halves xs (fp_w w Hw) L) as (l & h & -> & Ll & Lh & ->). rewrite F, !G by assumption.
    rewrite map_app, ypack_app by (now rewrite map_length). reflexivity.
  Qed.
  Lemma y_isnan_ok : y_isnan w (ypack xs) = ymask_reg w (map is_NaN xs).
  Proof using Hw L. apply (halves_mask _ (v_isnan w)); [apply y_isnan_halves|]. intros. now apply isnan_pack. Qed.
  Lemma y_isfinite_ok : y_isfinite w (ypack xs) = ymask_reg w (map is_Finite xs).
  Proof using Hw L. apply (halves_mask _ (v_isfinite w)); [apply y_isfinite_halves|]. intros. now apply isfinite_pack. Qed.
  Lemma y_isinf_ok : y_isinf w (ypack xs) = ymask_reg w (map is_Inf xs).
  Proof using Hw L. apply (halves_mask _ (v_isinf true w)); [intros; now apply y_isinf_halves|]. intros. now apply isinf_pack. Qed.
  Lemma y_isnegative_ok : y_isnegative w (ypack xs) = ymask_reg w (map sign_bit xs).
  Proof using Hw L. apply (halves_mask _ (v_isnegative w)); [intros; now apply y_isnegative_halves|]. intros. now apply isnegative_pack. Qed.
  Lemma yzero_lanes_ok : yzero_lanes w (ypack xs) = ymask_reg w (map (fun x => is_Finite x && (fvalue x =? 0)) xs).
  Proof using Hw L. apply (halves_mask _ (zero_lanes w)); [apply yzero_lanes_halves|]. intros. now apply zero_lanes_pack. Qed.
  Lemma yspecial_lanes_ok : yspecial_lanes w (ypack xs) = ymask_reg w (map (fun x => negb (is_Finite x && negb (fvalue x =? 0))) xs).
  Proof using Hw L. apply (halves_mask _ (special_lanes w)); [apply yspecial_lanes_halves|]. intros. now apply special_lanes_pack. Qed.
  Lemma y_fabs_ok : y_fabs w (ypack xs) = ypack (map (fun x => with_sign w false (magnitude x)) xs).
  Proof using Hw L. apply (halves_map _ (v_fabs w)); [intros; now apply y_fabs_halves|]. intros. now apply fabs_pack. Qed.
  Lemma y_round_ok R : ymap1 (mm_round w R) (ypack xs) = ypack (map (round_to R) xs).
  Proof using Hw L. apply (halves_map _ (mm_round w R)); [reflexivity|]. intros. unfold mm_round. now apply lift1_pack. Qed.
  Lemma yand_set1 z : yand (ypack xs) (yset1 w z) = ypack (map (fun x => wand x (mkw w z)) xs).
  Proof using Hw L. apply (halves_map (fun r => yand r (yset1 w z)) (fun r => mm_and r (set1 w z))); [reflexivity|]. intros. now apply and_set1. Qed.
  Lemma yor_set1 z : yor (ypack xs) (yset1 w z) = ypack (map (fun x => wor x (mkw w z)) xs).
  Proof using Hw L. apply (halves_map (fun r => yor r (yset1 w z)) (fun r => mm_or r (set1 w z))); [reflexivity|]. intros. now apply or_set1. Qed.
  Lemma y_copysign_ok ys : length ys = (32 / w)%nat -> y_copysign w (ypack xs) (ypack ys) = ypack (map2 (fun m s : word w => with_sign w (negative s) (magnitude m)) xs ys).
  Proof using Hw L.
    intros Ly. destruct (split_halves xs (fp_w w Hw) L) as (l & h & -> & Ll & Lh & ->). destruct (split_halves ys (fp_w w Hw) Ly) as (l' & h' & -> & Ll' & Lh' & ->).
    rewrite y_copysign_halves by exact Hw. rewrite !copysign_pack by assumption. rewrite map2_app by congruence. rewrite ypack_app; [reflexivity|].
    rewrite map2_length, Ll, Ll'. apply Nat.min_id.
  Qed.
  Lemma ylanes_map (f : word w -> word w) : ylanes w (ypack (map f xs)) = map f xs.
  Proof using Hw L. apply ylanes_ypack; [now apply fp_w|]. now rewrite map_length. Qed.
End Lanes.

(** ** exponent *)
Lemma y8d (a b c d : word 8) : ypack [a; b; c; d] = Ymm (pack [a; b]) (pack [c; d]).
Proof. exact (ypack_app [a; b] [c; d] eq_refl). Qed.

Lemma y_exponent4 (xs : list (word 4)) : length xs = 8%nat -> y_exponent 4 (ypack xs) = ypack (map (fun x => of_int 4 (sval (mkw 4 (uval x / 2 ^ 23 - 127)))) xs).
Proof.
  intros L. apply (halves_map fp4 xs L _ (v_exponent 4)); [reflexivity|]. intros. now apply exponent_ps_pack.
Qed.
Lemma shuffle_even_pack (a b c d e f g h : word 4) : shuffle_even (pack [a; b; c; d]) (pack [e; f; g; h]) = pack [a; c; e; g].
Proof. unfold shuffle_even. rewrite shuffle_ps_pack by reflexivity. reflexivity. Qed.
Lemma expo_diff8 (x : word 8) c : wsub (@lo_half 4 (mkw 8 (uval x / 2 ^ 52))) (mkw 4 c) = mkw 4 (uval x / 2 ^ 52 - c).
Proof.
  unfold lo_half. change (2 * 4)%nat with 8%nat. pose proof (uval_range x) as R. change (modulus 8) with (2 ^ 64) in R.
  assert (0 <= uval x / 2 ^ 52 < 2 ^ 12) by (split; [apply Z.div_pos; lia|apply Z.div_lt_upper_bound; lia]).
  rewrite mkw_small by (change (modulus 8) with (2 ^ 64); lia). apply wsub_mkw.
Qed.
Lemma y_exponent8 (a b c d : word 8) :
  y_exponent 8 (ypack [a; b; c; d]) = ypack (map (fun x => of_int 8 (sval (mkw 4 (uval x / 2 ^ 52 - 1023)))) [a; b; c; d]).
Proof.
  change [a; b; c; d] with ([a; b] ++ [c; d]). rewrite ypack_app by reflexivity. unfold y_exponent. cbv zeta. cbn [lo128 hi128]. unfold srli_epi, sub_epi.
  rewrite !lift1_pack by reflexivity. cbn [map]. rewrite !pack_halves2, SseArithP.set1_pack. change (16 / 4)%nat with 4%nat. cbn [repeat].
  rewrite !lift2_pack by reflexivity. cbn [map2]. rewrite shuffle_even_pack, ycvtepi32_pd_pack. rewrite !expo_diff8. cbn [app map].
  now rewrite y8d.
Qed.

(** ** frexp, ldexp *)
Lemma int8_mask_ok undef avx2 (k : list bool) : length k = 8%nat -> int8_mask undef avx2 (ymask_reg 4 k) = Some (ymask_reg 4 k).
Proof. intros L. unfold int8_mask. destruct avx2; [reflexivity|]. generalize (ymask_reg 4 k). intros [a b]. reflexivity. Qed.
Lemma masked_map {w} (xs : list (word w)) (c : word w -> bool) (g : word w -> word w) :
  masked_update_spec (map c xs) xs (map g xs) = map (fun x => if c x then x else g x) xs.
Proof. unfold masked_update_spec. induction xs as [|x xs IH]; cbn [map map3]; [reflexivity|]. now rewrite <- IH. Qed.
Lemma frexp_fst4 (xs : list (word 4)) : length xs = 8%nat ->
  y_assign Float (yand (yor (ypack xs) (yexponent_mask 4)) (yfrexp_mask 4)) (ypack xs) (yspecial_lanes 4 (ypack xs)) = ypack (map (frexp_lane (w := 4)) xs).
Proof.
  intros L. unfold yexponent_mask, yfrexp_mask. rewrite (yor_set1 fp4) by exact L. rewrite (yand_set1 fp4) by (now rewrite map_length). rewrite map_map, (yspecial_lanes_ok fp4) by exact L.
  rewrite (y_assign_ok Float) by (unfold elt; rewrite !map_length; auto). f_equal. unfold elt. cbn [esize]. rewrite (masked_map (w := 4)). apply map_ext. intros x. unfold frexp_lane.
  destruct (negb _); [reflexivity|]. exact (frexp_bits fp4 x).
Qed.
Lemma frexp_fst8 (xs : list (word 8)) : length xs = 4%nat ->
  y_assign Double (yand (yor (ypack xs) (yexponent_mask 8)) (yfrexp_mask 8)) (ypack xs) (yspecial_lanes 8 (ypack xs)) = ypack (map (frexp_lane (w := 8)) xs).
Proof.
  intros L. unfold yexponent_mask, yfrexp_mask. rewrite (yor_set1 fp8) by exact L. rewrite (yand_set1 fp8) by (now rewrite map_length). rewrite map_map, (yspecial_lanes_ok fp8) by exact L.
  rewrite (y_assign_ok Double) by (unfold elt; rewrite !map_length; auto). f_equal. unfold elt. cbn [esize]. rewrite (masked_map (w := 8)). apply map_ext. intros x. unfold frexp_lane.
  destruct (negb _); [reflexivity|]. exact (frexp_bits fp8 x).
Qed.
Lemma y_frexp_ps_ok undef avx2 (xs : list (word 4)) : length xs = 8%nat ->
  y_frexp_ps undef avx2 (ypack xs) = Some (ypack (map (frexp_lane (w := 4)) xs), ypack (map (fun x => mkw 4 (frexp_exp (w := 4) x)) xs)).
Proof.
  intros L. unfold y_frexp_ps. cbv zeta. rewrite frexp_fst4 by exact L. rewrite (yzero_lanes_ok fp4) by exact L. rewrite int8_mask_ok by (now rewrite map_length).
  cbn [obind]. f_equal. f_equal. unfold yexponent_mask. rewrite (yand_set1 fp4) by exact L. rewrite (y_shr_ok UInt) by (unfold elt; now rewrite map_length). rewrite map_map.
  change (yset1 4 126) with (y_set1 4 126). rewrite set1_ypack by (apply fp_w, fp4). rewrite (y_sub_ok UInt) by (unfold elt; rewrite ?map_length, ?repeat_length; auto).
  change (32 / 4)%nat with 8%nat. rewrite (map2_repeat_r) by (now rewrite map_length). rewrite map_map. etransitivity; [apply (y_set_zero_ok Int); unfold elt; rewrite !map_length; auto|]. f_equal.
  rewrite map2_same. apply map_ext. intros x. unfold frexp_exp. change (half_expo (w := 4)) with 126. cbn [esize]. destruct (_ && _); [reflexivity|].
  unfold srl_word. change (bits 4 <=? 23 mod 2 ^ 32) with false. cbv iota. change (23 mod 2 ^ 32) with 23. rewrite srl_expo4. apply wsub_mkw.
Qed.
Lemma zero_cast undef (a b : list bool) : length a = 4%nat -> length b = 4%nat ->
  ymasks_cast undef true Double Int [ymask_reg 8 a; ymask_reg 8 b] = Some (ymask_reg 4 (a ++ b)).
Proof.
  intros La Lb. destruct (ymasks_cast undef true Double Int [ymask_reg 8 a; ymask_reg 8 b]) as [r|] eqn:E; [|discriminate E].
  destruct (ymasks_cast_ok undef true Double Int [a; b] r) as [E1|(E1 & _)]; [repeat constructor; assumption|exact E| |cbn [concat] in E1; rewrite !app_length, La, Lb in E1; cbn in E1; lia].
  f_equal. rewrite E1. cbn [concat]. rewrite app_nil_r. cbn [esize]. do 4 (destruct a as [|? a]; [discriminate La|]). destruct a; [|discriminate La].
  do 4 (destruct b as [|? b]; [discriminate Lb|]). destruct b; [|discriminate Lb]. reflexivity.
Qed.
Lemma zero_cast_x avx2 (a : list bool) : length a = 4%nat -> yxmasks_cast avx2 Double Int [ymask_reg 8 a] = Some (mask_reg 4 a).
Proof.
  intros La. destruct (yxmasks_cast avx2 Double Int [ymask_reg 8 a]) as [r|] eqn:E; [|destruct avx2; discriminate E].
  rewrite (yxmasks_cast_ok avx2 Double Int [a] r) by (exact E || (repeat constructor; assumption)).
  f_equal. cbn [concat]. rewrite app_nil_r. cbn [esize]. do 4 (destruct a as [|? a]; [discriminate La|]). destruct a; [|discriminate La]. reflexivity.
Qed.
Lemma frexp_sub8 (x : word 8) : @lo_half 4 (mkw 8 (uval (wand x (mkw 8 0x7ff0000000000000)) / 2 ^ 52)) = mkw 4 (exponent_field x).
Proof. rewrite srl_expo8. apply lo_expo. Qed.
Lemma y_frexp_pd_ok avx2 (xs : list (word 8)) : length xs = 4%nat ->
  y_frexp_pd avx2 (ypack xs) = Some (ypack (map (frexp_lane (w := 8)) xs), pack (map (fun x => mkw 4 (frexp_exp (w := 8) x)) xs)).
Proof.
  intros L. unfold y_frexp_pd. cbv zeta. rewrite frexp_fst8 by exact L. rewrite (yzero_lanes_ok fp8) by exact L. rewrite zero_cast_x by (now rewrite map_length).
  cbn [obind]. f_equal. f_equal. unfold yexponent_mask. rewrite (yand_set1 fp8) by exact L. do 4 (destruct xs as [|? xs]; [discriminate L|]). destruct xs; [|discriminate L]. cbn [map].
  rewrite y8d. cbn [lo128 hi128]. unfold srli_epi, sub_epi. rewrite !lift1_pack by reflexivity. cbn [map].
  rewrite SseArithP.set1_pack. change (16 / 8)%nat with 2%nat. cbn [repeat]. rewrite !pack_halves2. rewrite !lift2_pack by reflexivity. cbn [map2]. rewrite shuffle_even_pack.
  unfold v_set_zero, mask_reg. cbn [map]. rewrite andnot_pack by reflexivity. cbn [map2]. rewrite !wandnot_mask.
  rewrite !frexp_sub8. unfold frexp_exp. change (half_expo (w := 8)) with 1022. change (@lo_half 4 (mkw 8 0x3fe)) with (mkw 4 1022).
  rewrite !wsub_mkw. f_equal. f_equal; [|f_equal; [|f_equal; [|f_equal]]]; destruct (_ && _); reflexivity.
Qed.
Lemma unpacklo4 (a0 a1 a2 a3 b0 b1 b2 b3 : word 4) : unpacklo 8 4 (pack [a0; a1; a2; a3]) (pack [b0; b1; b2; b3]) = pack [a0; b0; a1; b1].
Proof. rewrite unpacklo_pack by (try reflexivity; right; right; left; reflexivity). change (8 / 4)%nat with 2%nat. cbn [firstn map2 concat]. unfold pack, to_reg. cbn [map concat]. rewrite <- !app_assoc. reflexivity. Qed.
Lemma unpackhi4 (a0 a1 a2 a3 b0 b1 b2 b3 : word 4) : unpackhi 8 4 (pack [a0; a1; a2; a3]) (pack [b0; b1; b2; b3]) = pack [a2; b2; a3; b3].
Proof. rewrite unpackhi_pack by (try reflexivity; right; right; left; reflexivity). change (8 / 4)%nat with 2%nat. cbn [skipn map2 concat]. unfold pack, to_reg. cbn [map concat]. rewrite <- !app_assoc. reflexivity. Qed.
Lemma unpackhi8 (a0 a1 b0 b1 : word 8) : unpackhi 8 8 (pack [a0; a1]) (pack [b0; b1]) = pack [a1; b1].
Proof. rewrite unpackhi_pack by (try reflexivity; right; right; right; reflexivity). change (8 / 8)%nat with 1%nat. cbn [skipn map2 concat]. unfold pack, to_reg. cbn [map concat]. rewrite <- !app_assoc. reflexivity. Qed.
Lemma unpackhi64 (a0 a1 a2 a3 b0 b1 b2 b3 : word 4) : unpackhi 8 8 (pack [a0; a1; a2; a3]) (pack [b0; b1; b2; b3]) = pack [a2; a3; b2; b3].
Proof. rewrite !join4. apply unpackhi8. Qed.
Lemma frexp_part (a b : word 8) : sub_epi 4 (srli_epi 8 (mm_and (pack [a; b]) (set1 8 0x7ff0000000000000)) 52) (set1 4 0x3fe) =
  pack [mkw 4 (exponent_field a - 1022); wsub (@hi_half 4 (mkw 8 (exponent_field a))) (mkw 4 1022); mkw 4 (exponent_field b - 1022); wsub (@hi_half 4 (mkw 8 (exponent_field b))) (mkw 4 1022)].
Proof.
  rewrite and_set1 by reflexivity. unfold srli_epi, sub_epi. rewrite lift1_pack by reflexivity. cbn [map]. rewrite !srl_expo8, pack_halves2, SseArithP.set1_pack. change (16 / 4)%nat with 4%nat.
  cbn [repeat]. rewrite lift2_pack by reflexivity. cbn [map2]. rewrite !lo_expo, !wsub_mkw. reflexivity.
Qed.
Lemma y_frexp_pd8_ok undef (xs ys : list (word 8)) : length xs = 4%nat -> length ys = 4%nat ->
  y_frexp_pd8 undef (ypack xs) (ypack ys) =
  Some (ypack (map (frexp_lane (w := 8)) xs), ypack (map (frexp_lane (w := 8)) ys), ypack (map (fun x => mkw 4 (frexp_exp (w := 8) x)) (xs ++ ys))).
Proof.
  intros L L'. unfold y_frexp_pd8. cbv zeta. rewrite !frexp_fst8 by assumption. rewrite !(yzero_lanes_ok fp8) by assumption. rewrite zero_cast by (now rewrite map_length).
  cbn [obind]. f_equal. f_equal. do 4 (destruct xs as [|? xs]; [discriminate L|]). destruct xs; [|discriminate L]. do 4 (destruct ys as [|? ys]; [discriminate L'|]). destruct ys; [|discriminate L'].
  rewrite !y8d. unfold y_sub, yand, yexponent_mask, yset1, yunpacklo, yunpackhi, ymap1, ymap2. cbn [lo128 hi128 esize].
  rewrite !frexp_part. repeat (rewrite ?unpacklo4, ?unpackhi4, ?unpacklo64, ?unpackhi64; cbn [lo128 hi128]). cbn [map app]. rewrite y4. cbn [lo128 hi128].
  unfold mask_reg. cbn [map]. rewrite !andnot_pack by reflexivity. cbn [map2]. rewrite !wandnot_mask.
  match goal with |- _ = ypack [?a; ?b; ?c; ?d; ?e; ?f; ?g; ?h] => rewrite (ypack_app [a; b; c; d] [e; f; g; h] eq_refl : ypack [a; b; c; d; e; f; g; h] = _) end.
  unfold frexp_exp. change (half_expo (w := 8)) with 1022.
  assert (K : forall (b : bool) z, (if b then Word.w0 4 else mkw 4 z) = mkw 4 (if b then 0 else z)) by (intros [|] z; reflexivity). rewrite !K. reflexivity.
Qed.

(** ** ldexp *)
Lemma y_ldexp_ps_ok undef avx2 (xs es : list (word 4)) : length xs = 8%nat -> length es = 8%nat ->
  y_ldexp_ps undef avx2 (ypack xs) (ypack es) = Some (ypack (map2 (fun x e => ldexp_word (w := 4) x (sval e)) xs es)).
Proof.
  intros L Le. unfold y_ldexp_ps. rewrite (yzero_lanes_ok fp4) by exact L. rewrite int8_mask_ok by (now rewrite map_length). cbn [obind]. f_equal.
  destruct (split_halves xs (fp_w 4 fp4) L) as (l & h & -> & Ll & Lh & ->). destruct (split_halves es (fp_w 4 fp4) Le) as (l' & h' & -> & Ll' & Lh' & ->).
  rewrite map_app, ymask_app by (now rewrite map_length). rewrite map2_app by congruence. rewrite ypack_app by (rewrite map2_length, Ll, Ll'; reflexivity).
  rewrite <- !ldexp_ps_pack by assumption. unfold v_ldexp_ps. rewrite !zero_lanes_pack by (auto using fp4). reflexivity.
Qed.
Lemma ldexp8_lane (x : word 8) (e : word 4) (m : bool) (g : word 8) : g = @join 4 e e -> m = (is_Finite x && (fvalue x =? 0)) ->
  wadd x (mkw 8 (uval (@join 4 (if m then w0 4 else e) (if m then w0 4 else e)) * 2 ^ 52)) = ldexp_word (w := 8) x (sval e).
Proof.
  intros _ ->. unfold ldexp_word. change (mant_bits 8) with 52. destruct (_ && _).
  - apply word_ext. unfold wadd. rewrite !uval_mkw. rewrite (uval_join 4), uval_w0. rewrite ?Z.mul_0_r, ?Z.mul_0_l. cbn [Z.add]. rewrite ?Z.mul_0_l, Zmod_0_l, Z.add_0_r. apply Z.mod_small, uval_range.
  - unfold wadd. rewrite uval_mkw. apply mkw_eq. rewrite Zplus_mod_idemp_r. rewrite (uval_join 4).
    pose proof (sval_mod e) as SM. pose proof (Z.div_mod (sval e) (modulus 4) ltac:(discriminate)) as DM. rewrite SM in DM.
    replace (uval x + (uval e + modulus 4 * uval e) * 2 ^ 52) with (uval x + sval e * 2 ^ 52 + (uval e * 2 ^ 20 - sval e / modulus 4 * 2 ^ 20) * modulus 8).
    + now rewrite Z.mod_add by discriminate.
    + change (modulus 8) with (modulus 4 * 2 ^ 32). rewrite DM at 1. ring.
Qed.
Lemma y_ldexp_pd_ok avx2 (xs : list (word 8)) (es : list (word 4)) : length xs = 4%nat -> length es = 4%nat ->
  y_ldexp_pd avx2 (ypack xs) (pack es) = Some (ypack (map2 (fun x e => ldexp_word (w := 8) x (sval e)) xs es)).
Proof.
  intros L Le. unfold y_ldexp_pd. rewrite (yzero_lanes_ok fp8) by exact L. rewrite zero_cast_x by (now rewrite map_length). cbn [obind]. f_equal.
  do 4 (destruct xs as [|? xs]; [discriminate L|]). destruct xs; [|discriminate L]. do 4 (destruct es as [|? es]; [discriminate Le|]). destruct es; [|discriminate Le].
  cbn [map map2]. unfold v_set_zero, mask_reg. cbn [map]. rewrite andnot_pack by reflexivity. cbn [map2]. rewrite !wandnot_mask. cbv zeta.
  rewrite unpacklo4, unpackhi4, !SseArithP.pack_join, !y8d. unfold slli_epi, add_epi, ymap2. cbn [lo128 hi128]. rewrite !lift1_pack by reflexivity. cbn [map]. rewrite !lift2_pack by reflexivity. cbn [map2].
  rewrite !(ldexp8_lane _ _ _ _ eq_refl eq_refl). reflexivity.
Qed.

(** ** fma *)
Lemma y_fma_ps_halves (l h l' h' l2 h2 : list (word 4)) : length l = 4%nat -> length h = 4%nat -> length l' = 4%nat -> length h' = 4%nat -> length l2 = 4%nat -> length h2 = 4%nat ->
  y_fma_ps (Ymm (pack l) (pack h)) (Ymm (pack l') (pack h')) (Ymm (pack l2) (pack h2)) = Ymm (v_fma_ps (pack l) (pack l') (pack l2)) (v_fma_ps (pack h) (pack h') (pack h2)).
Proof.
  intros. rewrite !fma_ps_pack by assumption. four l. four h. four l'. four h'. four l2. four h2. unfold y_fma_ps. cbv zeta. cbn [lo128 hi128]. rewrite !ycvtps_pd_pack.
  unfold y_fmul, y_fadd, ymap2, v_fadd, v_fmul. cbn [lo128 hi128]. repeat (rewrite lift2_pack by reflexivity; cbn [map2]). rewrite !ycvtpd_ps_pack by reflexivity. reflexivity.
Qed.
Lemma y_fma_pd_halves (a0 a1 b0 b1 c0 c1 a2 a3 b2 b3 c2 c3 : word 8) :
  y_fma_pd (ypack [a0; a1; a2; a3]) (ypack [b0; b1; b2; b3]) (ypack [c0; c1; c2; c3]) = ypack [fma8_lane a0 b0 c0; fma8_lane a1 b1 c1; fma8_lane a2 b2 c2; fma8_lane a3 b3 c3].
Proof.
  rewrite !y8d. unfold y_fma_pd, yhigh_mask_double, yand, yset1, y_fmul, y_fadd, y_fsub, ymap2, y_assign, v_fadd, v_fsub, v_fmul. cbv zeta. cbn [lo128 hi128]. rewrite !and_set1 by reflexivity. cbn [map].
  repeat (rewrite lift2_pack by reflexivity; cbn [map2]). rewrite !(y_fabs_halves 8) by exact fp8. rewrite !(fabs_pack 8) by (auto using fp8). cbn [map lo128 hi128]. rewrite !fcmp_pack by reflexivity. cbn [map2].
  cbn [is_integer esize lo128 hi128]. rewrite !blendv_fp_pack by (reflexivity || (apply fp_w, fp8)). unfold masked_update_spec. cbn [map3]. repeat (rewrite lift2_pack by reflexivity; cbn [map2]). reflexivity.
Qed.
Lemma y_fma_int_ok e (xs ys zs : list (elt e)) : is_integer e = true -> length xs = (32 / esize e)%nat -> length ys = (32 / esize e)%nat -> length zs = (32 / esize e)%nat ->
  y_fma_int e (ypack xs) (ypack ys) (ypack zs) = ypack (map3 (fun x y z => wadd (wmul x y) z) xs ys zs).
Proof.
  intros He Lx Ly Lz. unfold y_fma_int. rewrite y_mul_ok by auto. rewrite y_add_ok by (auto; unfold elt in *; rewrite map2_length; lia).
  f_equal. clear. revert ys zs. induction xs as [|x xs IH]; intros [|y ys] [|z zs]; cbn [map2 map3]; auto. f_equal. apply IH.
Qed.

(** ** Random *)
Definition rnext (s : random_state) : random_state :=
  map2 (fun x y => wxor (lcg x) (mkw 4 (uval y / 2 ^ 16))) (firstn 8 s) (firstn 8 (skipn 8 s)) ++ map lcg (firstn 8 (skipn 8 s)).
Lemma step4 (xs : list (word 4)) : length xs = 4%nat -> v_add UInt (v_mul true UInt (pack xs) (set1 4 0xdeece66d)) (set1 4 11) = pack (map lcg xs).
Proof.
  intros Lx. four xs. rewrite !SseArithP.set1_pack. change (16 / 4)%nat with 4%nat. cbn [repeat]. rewrite (v_mul_pack true UInt) by reflexivity. cbn [map2]. rewrite (v_add_pack UInt) by reflexivity. reflexivity.
Qed.
Lemma xor_step (xs ys : list (word 4)) : length xs = 4%nat -> length ys = 4%nat ->
  mm_xor (pack (map lcg xs)) (srli_epi 4 (pack ys) 16) = pack (map2 (fun x y => wxor (lcg x) (mkw 4 (uval y / 2 ^ 16))) xs ys).
Proof. intros L L'. unfold srli_epi. rewrite lift1_pack by exact L'. rewrite xor_pack by (rewrite !map_length; congruence). now rewrite map2_map. Qed.
Lemma parts4 {X} (s : list X) : length s = 16%nat -> exists a b c d, s = a ++ b ++ c ++ d /\ length a = 4%nat /\ length b = 4%nat /\ length c = 4%nat /\ length d = 4%nat /\
  firstn 4 s = a /\ firstn 4 (skipn 4 s) = b /\ firstn 4 (skipn 8 s) = c /\ firstn 4 (skipn 12 s) = d /\ firstn 8 s = a ++ b /\ firstn 8 (skipn 8 s) = c ++ d /\ skipn 16 s = [].
Proof.
  intros L. do 16 (destruct s as [|? s]; [discriminate L|]). destruct s; [|discriminate L]. cbn [skipn firstn].
  eexists [_; _; _; _], [_; _; _; _], [_; _; _; _], [_; _; _; _]. repeat split; reflexivity.
Qed.
Lemma ylanes_halves4 (l h : list (word 4)) : length l = 4%nat -> length h = 4%nat -> ylanes 4 (Ymm (pack l) (pack h)) = l ++ h.
Proof. intros L H. rewrite ylanes_halves by (right; left; reflexivity). cbn [lo128 hi128]. now rewrite !lanes_pack by assumption. Qed.
Lemma yrandom_step_ok avx2 s : length s = 16%nat -> yrandom_step avx2 s = (ypack (firstn 8 s), rnext s).
Proof.
  intros L. unfold rnext, yrandom_step. destruct (parts4 s L) as (a & b & c & d & _ & La & Lb & Lc & Ld & Ea & Eb & Ec & Ed & Eab & Ecd & E).
  cbn [Nat.add] in *. change (skipn 0 s) with s. rewrite Ea, Eb, Ec, Ed, Eab, Ecd, E, app_nil_r. rewrite map_app, map2_app by congruence.
  assert (M : forall x y : list (word 4), length x = 4%nat -> length y = 4%nat -> length (map2 (fun x y : word 4 => wxor (lcg x) (mkw 4 (uval y / 2 ^ 16))) x y) = 4%nat) by (intros x y A B; rewrite map2_length, A, B; reflexivity).
  destruct avx2; cbv zeta.
  - rewrite !ypack_app by assumption. unfold y_add, y_mul, yset1, ymap1, ymap2. cbn [lo128 hi128 esize].
    change (add_epi 4 (mullo_epi 4 (pack ?x) (set1 4 ?p)) (set1 4 ?q)) with (v_add UInt (v_mul true UInt (pack x) (set1 4 p)) (set1 4 q)).
    rewrite !step4, !xor_step by assumption. rewrite ?app_nil_r, !ylanes_halves4 by (rewrite ?map_length; auto). reflexivity.
  - rewrite !step4, !xor_step by assumption. rewrite ?app_nil_r, !lanes_pack by (rewrite ?map_length; auto). rewrite ypack_app by assumption. now rewrite <- app_assoc.
Qed.
Lemma wxor_inj (a b c : word 4) : wxor a c = wxor b c -> a = b.
Proof.
  intros E. apply (f_equal (fun z => wxor z c)) in E. apply word_ext. apply (f_equal uval) in E. unfold wxor in E. rewrite !uval_mkw in E.
  assert (LX : forall p q : word 4, 0 <= Z.lxor (uval p) (uval q) < modulus 4).
  { intros p q. pose proof (uval_range p). pose proof (uval_range q). change (modulus 4) with (2 ^ 32) in *. split; [apply Z.lxor_nonneg; lia|].
    destruct (Z.eq_dec (Z.lxor (uval p) (uval q)) 0) as [->|NZ]; [lia|]. apply Z.log2_lt_pow2; [assert (0 <= Z.lxor (uval p) (uval q)) by (apply Z.lxor_nonneg; lia); lia|].
    apply Z.le_lt_trans with (Z.max (Z.log2 (uval p)) (Z.log2 (uval q))); [apply Z.log2_lxor; lia|].
    assert (forall x, 0 <= x < 2 ^ 32 -> Z.log2 x < 32) as LG. { intros x Hx. destruct (Z.eq_dec x 0) as [->|]; [cbn; lia|]. apply Z.log2_lt_pow2; lia. }
    apply Z.max_lub_lt; apply LG; lia. }
  rewrite !(Z.mod_small (Z.lxor (uval _) (uval c))) in E by apply LX. rewrite !Z.lxor_assoc, Z.lxor_nilpotent, !Z.lxor_0_r in E. rewrite !Z.mod_small in E by apply uval_range. exact E.
Qed.
Lemma rnext_length s : length s = 16%nat -> length (rnext s) = 16%nat.
Proof.
  intros L. unfold rnext. destruct (parts4 s L) as (a & b & c & d & _ & La & Lb & Lc & Ld & _ & _ & _ & _ & -> & -> & _). rewrite !app_length, map2_length, map_length, !app_length, La, Lb, Lc, Ld. reflexivity.
Qed.
Lemma yrandom_ps_ok avx2 s : length s = 16%nat -> Forall in_unit_interval (ylanes 4 (fst (yrandom_ps avx2 s))) /\ snd (yrandom_ps avx2 s) = rnext s.
Proof.
  intros L. unfold yrandom_ps. rewrite yrandom_step_ok by exact L. cbn [fst snd]. split; [|reflexivity].
  destruct (parts4 s L) as (a & b & c & d & _ & La & Lb & Lc & Ld & _ & _ & _ & _ & -> & _). rewrite ypack_app by assumption.
  assert (K : forall x : list (word 4), length x = 4%nat -> Forall in_unit_interval (lanes 4 (v_fsub 4 (mm_or (srli_epi 4 (pack x) 2) (set1 4 0x3f800000)) (set1 4 0x3f800000)))).
  { intros x Lx. unfold srli_epi. rewrite lift1_pack by exact Lx. rewrite or_set1 by (now rewrite map_length). rewrite map_map, SseArithP.set1_pack. unfold v_fsub. rewrite lift2_pack by (rewrite ?map_length, ?repeat_length; auto).
    rewrite map2_repeat_r by (now rewrite map_length). rewrite map_map, lanes_fin by exact Lx. apply Forall_map. apply Forall_forall. intros y _. apply random_lane4. }
  rewrite ylanes_halves by (right; left; reflexivity). cbn [lo128 hi128 ymap1 ymap2 y_fsub yor y_one yset1]. apply Forall_app. split; apply K; assumption.
Qed.
Lemma yrandom_pd_ok s : length s = 16%nat -> Forall in_unit_interval (ylanes 8 (fst (yrandom_pd s))) /\ length (snd (yrandom_pd s)) = 16%nat.
Proof.
  intros L. unfold yrandom_pd. cbv zeta. cbn [fst snd]. destruct (parts4 s L) as (a & b & c & d & _ & La & Lb & Lc & Ld & _ & _ & _ & _ & -> & _). split.
  - rewrite ypack_app by assumption. four a. four b. rewrite !SseArithP.pack_join.
    assert (K : forall x y : word 8, Forall in_unit_interval (lanes 8 (v_fsub 8 (mm_or (srli_epi 8 (pack [x; y]) 12) (set1 8 0x3ff0000000000000)) (set1 8 0x3ff0000000000000)))).
    { intros x y. unfold srli_epi. rewrite lift1_pack by reflexivity. cbn [map]. rewrite or_set1 by reflexivity. cbn [map]. rewrite SseArithP.set1_pack. change (16 / 8)%nat with 2%nat. cbn [repeat]. unfold v_fsub.
      rewrite lift2_pack by reflexivity. cbn [map2]. rewrite lanes_pack by reflexivity. constructor; [apply random_lane8|constructor; [apply random_lane8|constructor]]. }
    rewrite ylanes_halves by (right; right; reflexivity). cbn [lo128 hi128 ymap1 ymap2 y_fsub yor y_one yset1]. apply Forall_app. split; apply K.
  - rewrite app_length, (ylanes_length Float), skipn_length, L. reflexivity.
Qed.
