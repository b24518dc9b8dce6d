(** conversions between SSE vector types, integer division and converting deinterleave (proofs). *)
From Coq Require Import ZArith List Bool Lia.
From Verif.Spec Require Import Seq FloatSpec MemSpec InterleaveSpec RoundSpec CastSpec.
From Verif.Model Require Import Word Fp FpArith SseReg SseMove SortNet SseInt SseBuild SseArith SseMask SimdArray Mem SseConvert.
Import ListNotations.
Local Open Scope Z_scope.
From Verif.Model Require Import Deinterleave.
From Verif.Proof Require Import SeqP WordP FpP FpArithP FpIntP SseIntP SseEmulP SseArithP ConvertP ConvertRegP DivP AlgorithmsP InterleaveMain.

Lemma forall2_weak {A B} (R S : A -> B -> Prop) xs ys : (forall x y, R x y -> S x y) -> Forall2 R xs ys -> Forall2 S xs ys.
Proof. intros H. induction 1; constructor; auto. Qed.
Lemma casted_all sse41 from to (xss : list (list (elt from))) r : Forall (fun xs => length xs = (16 / esize from)%nat) xss ->
  ~ (sse41 = false /\ from = Double /\ to = UInt) -> simd_cast sse41 from to (map pack xss) = Some r -> casted from to (concat xss) r.
Proof.
  intros F NB H. destruct xss as [|xs [|ys [|zs [|ts [|us xss]]]]]; try discriminate H; cbn [map simd_cast] in H;
    repeat match goal with H : Forall _ (_ :: _) |- _ => inversion H; clear H; subst end; cbn [concat]; rewrite app_nil_r.
  - assert (E : simd_cast1 sse41 from to (pack xs) = r) by congruence. subst r. apply (packed_casted _ _ (lane_fn from to)); [apply lane_fn_ok|]. now apply simd_cast1_pack.
  - apply (packed_casted _ _ (lane_fn from to)); [apply lane_fn_ok|]. now apply (simd_cast2_pack sse41).
  - destruct (simd_cast3_pack sse41 from to xs ys zs r) as (f & F1 & F2); try assumption. now apply (packed_casted _ _ f).
  - apply (packed_casted _ _ (lane_fn from to)); [apply lane_fn_ok|]. now apply (simd_cast4_pack sse41).
Qed.
Lemma skipn_concat {A} (w : nat) : forall (xss : list (list A)) k, Forall (fun xs => length xs = w) xss -> skipn (k * w) (concat xss) = concat (skipn k xss).
Proof.
  induction xss as [|xs xss IH]; intros k H; [destruct k; cbn; now rewrite ?skipn_nil|]. inversion H; subst. destruct k as [|k]; [reflexivity|].
  cbn [concat skipn]. rewrite skipn_app. rewrite skipn_all2 by (cbn; lia). cbn [app]. rewrite <- IH by assumption. f_equal. cbn. lia.
Qed.
Lemma srli_pack {w} (xs : list (word w)) k : (k * w < 16)%nat -> mm_srli (pack xs) (k * w) = pack (skipn k xs ++ repeat (w0 w) k).
Proof.
  intros H. unfold mm_srli, srli_si128. destruct (Nat.ltb_spec 15 (k * w)); [lia|]. rewrite Nat.div_mul by lia. unfold pack, to_reg.
  rewrite map_app, concat_app. f_equal.
  - rewrite skipn_concat; [now rewrite skipn_map|]. apply Forall_forall. intros l Hl. apply in_map_iff in Hl. destruct Hl as (x & <- & _). apply enc_length.
  - assert (Z0 : forall n m, repeat 0 (n * m) = concat (map (@enc m) (repeat (w0 m) n))).
    { induction n; intros m; [reflexivity|]. cbn [Nat.mul repeat map concat]. rewrite repeat_app, IHn. f_equal. unfold enc. rewrite uval_w0. clear. induction m; [reflexivity|]. cbn. now f_equal. }
    apply Z0.
Qed.
Lemma firstn_skip_ok {A} (xs : list A) z k n : (k + n <= length xs)%nat -> firstn n (skipn k xs ++ z) = firstn n (skipn k xs).
Proof. intros H. rewrite firstn_app, skipn_length. replace (n - (length xs - k))%nat with 0%nat by lia. cbn [firstn]. apply app_nil_r. Qed.

Lemma C33_simd_cast_main :
  forall sse41 from to (xss : list (list (elt from))) r, is_integer from = true -> is_integer to = true ->
    Forall (fun xs => length xs = (16 / esize from)%nat) xss -> simd_cast sse41 from to (map pack xss) = Some r ->
    let n := Nat.min (length (concat xss)) (16 / esize to) in
    Forall2 (fun x y => (int_value to y - int_value from x) mod 2 ^ (8 * Z.of_nat (esize to)) = 0)
            (firstn n (concat xss)) (firstn n (lanes (esize to) r)) /\
    skipn n (lanes (esize to) r) = repeat (w0 (esize to)) (16 / esize to - n).
Proof.
  intros sse41 from to xss r I1 I2 F H n. destruct (casted_all sse41 from to xss r F) as (A & B); [intros (_ & -> & _); discriminate I1|exact H|]. fold n in A, B.
  split; [|exact B]. unfold cast_ok in A. rewrite I1, I2 in A. exact A.
Qed.

Lemma C33_simd_cast_defined_main :
  forall sse41 from to (xss : list (list (elt from))), (1 <= length xss)%nat ->
    (length xss = 1%nat \/ (length xss * (16 / esize from) <= 16 / esize to)%nat) ->
    (length xss <= 1 \/ esize from <> esize to)%nat ->
    exists r, simd_cast sse41 from to (map pack xss) = Some r.
Proof.
  intros sse41 from to xss L1 L2 L3. destruct xss as [|xs [|ys [|zs [|ts [|us xss]]]]]; [cbn in L1; lia|cbn; eauto|..]; cbn [length] in L2, L3;
    destruct L2 as [L2|L2]; try discriminate L2; destruct from, to; cbn in L2, L3; try lia; cbn [map simd_cast simd_cast2 simd_cast3 simd_cast4]; eauto.
Qed.

Lemma cast_offset_ok sse41 from to offset (xs : list (elt from)) r : offset <> 0%nat -> ~ (sse41 = false /\ from = Double /\ to = UInt) ->
    length xs = (16 / esize from)%nat -> simd_cast_offset sse41 from to offset (pack xs) = Some r ->
    Forall2 (cast_ok from to) (firstn (16 / esize to) (skipn (offset * (16 / esize to)) xs)) (lanes (esize to) r).
Proof.
  intros NZ NB L H. unfold simd_cast_offset in H. destruct (Nat.eqb_spec offset 0); [contradiction|]. cbv zeta in H.
  destruct (Nat.ltb_spec (esize from * offset * (16 / esize to)) 16) as [S16|]; [|rewrite andb_false_r in H; discriminate H].
  rewrite andb_true_r in H. destruct (0 <? esize from * offset * (16 / esize to))%nat; [|discriminate H].
  assert (E : simd_cast1 sse41 from to (mm_srli (pack xs) (esize from * offset * (16 / esize to))) = r) by congruence. clear H.
  replace (esize from * offset * (16 / esize to))%nat with (offset * (16 / esize to) * esize from)%nat in E by lia.
  rewrite srli_pack in E by lia. set (N := (16 / esize to)%nat) in *. set (k := (offset * N)%nat) in *.
  assert (KN : (k + N <= length xs)%nat).
  { rewrite L. unfold k. replace (esize from * offset * N)%nat with (esize from * (offset * N))%nat in S16 by lia. unfold N in *. destruct from, to; cbn [esize] in *; change (16 / 2)%nat with 8%nat in *; change (16 / 4)%nat with 4%nat in *; change (16 / 8)%nat with 2%nat in *; lia. }
  set (ys := skipn k xs ++ repeat (w0 (esize from)) k) in E.
  assert (LY : length ys = (16 / esize from)%nat) by (unfold ys; rewrite app_length, skipn_length, repeat_length; lia).
  assert (C : casted from to ys r) by (rewrite <- E; exact (packed_casted _ _ _ ys _ (lane_fn_ok from to) (simd_cast1_pack sse41 from to ys LY NB))). unfold casted in C. fold N in C. cbv zeta in C.
  rewrite LY, <- L, Nat.min_r in C by lia. destruct C as (C & C'). unfold ys in C. rewrite firstn_skip_ok in C by exact KN. rewrite Nat.sub_diag in C'. cbn [repeat] in C'.
  rewrite <- (firstn_skipn N (lanes (esize to) r)). rewrite C', app_nil_r. exact C.
Qed.

Lemma C33_simd_cast_offset_main :
  forall sse41 from to offset (xs : list (elt from)) r, is_integer from = true -> is_integer to = true -> offset <> 0%nat ->
    length xs = (16 / esize from)%nat -> simd_cast_offset sse41 from to offset (pack xs) = Some r ->
    Forall2 (fun x y => (int_value to y - int_value from x) mod 2 ^ (8 * Z.of_nat (esize to)) = 0)
            (firstn (16 / esize to) (skipn (offset * (16 / esize to)) xs)) (lanes (esize to) r).
Proof.
  intros sse41 from to offset xs r I1 I2 NZ L H. pose proof (cast_offset_ok sse41 from to offset xs r NZ ltac:(intros (_ & -> & _); discriminate I1) L H) as C.
  unfold cast_ok in C. rewrite I1, I2 in C. exact C.
Qed.

Lemma convert_cast1 sse41 from to v : ~ (to = Short /\ (from = Int \/ from = UInt)) -> convert sse41 from to v = simd_cast1 sse41 from to v.
Proof. intros H. destruct to, from; try reflexivity; exfalso; apply H; auto. Qed.

Lemma C33_constructor_partial_main :
  forall sse41 from to (xs : list (elt from)), is_integer from = true -> is_integer to = true -> length xs = (16 / esize from)%nat ->
    ~ (to = Short /\ (from = Int \/ from = UInt)) ->
    let r := convert sse41 from to (pack xs) in
    let n := Nat.min (length xs) (16 / esize to) in
    Forall2 (fun x y => (int_value to y - int_value from x) mod 2 ^ (8 * Z.of_nat (esize to)) = 0)
            (firstn n xs) (firstn n (lanes (esize to) r)) /\
    skipn n (lanes (esize to) r) = repeat (w0 (esize to)) (16 / esize to - n).
Proof.
  intros sse41 from to xs I1 I2 L N r n. destruct (casted_all sse41 from to [xs] r) as (A & B); [now repeat constructor|intros (_ & -> & _); discriminate I1|unfold r; rewrite convert_cast1 by exact N; reflexivity|].
  cbn [concat] in A, B. rewrite app_nil_r in A, B. fold n in A, B. split; [|exact B]. unfold cast_ok in A. rewrite I1, I2 in A. exact A.
Qed.

Lemma C33_constructor_refuted_main :
  forall sse41, map sval (lanes 2 (convert sse41 Int Short (pack (repeat (mkw 4 40000) 4)))) = repeat 32767 4 ++ repeat 0 4 /\
    (32767 - 40000) mod 2 ^ 16 <> 0 /\
    option_map (fun r => map sval (lanes 2 r)) (simd_cast sse41 Int Short [pack (repeat (mkw 4 40000) 4)]) = Some (repeat (-25536) 4 ++ repeat 0 4).
Proof.
  intros [|]; split; [vm_compute; reflexivity|split; [discriminate|vm_compute; reflexivity]|vm_compute; reflexivity|split; [discriminate|vm_compute; reflexivity]].
Qed.

Lemma C34_uint_to_float_main :
  forall sse41 (xs : list (elt UInt)), length xs = 4%nat ->
    Forall2 (fun x (y : word 4) => nearest_int y (uval x) /\ sign_bit y = false) xs (lanes 4 (convert sse41 UInt Float (pack xs))).
Proof.
  intros sse41 xs L. destruct (casted_all sse41 UInt Float [xs] (convert sse41 UInt Float (pack xs))) as (A & _); [now repeat constructor|intros (_ & E & _); discriminate E|reflexivity|].
  cbn [concat] in A. rewrite app_nil_r in A. rewrite L in A. cbn [esize] in A. change (16 / 4)%nat with 4%nat in A. cbn [Nat.min] in A. rewrite !firstn_all2 in A by (try (unfold elt in *; rewrite L; lia); rewrite lanes_length; lia || (change (16 / 4)%nat with 4%nat; lia)).
  revert A. apply forall2_weak. intros x y (C & D). split; [exact C|]. refine (eq_trans D _). change ((uval x <? 0) = false). pose proof (uval_range x). lia.
Qed.

Lemma C34_uint_to_double_main :
  forall sse41 (xs : list (elt UInt)), length xs = 4%nat ->
    Forall2 (fun x (y : word 8) => has_value y (uval x) /\ sign_bit y = false) (firstn 2 xs) (lanes 8 (convert sse41 UInt Double (pack xs))).
Proof.
  intros sse41 xs L. change (convert sse41 UInt Double (pack xs)) with (convert_uint_double (pack xs)). rewrite uint_double_pack by exact L. rewrite lanes_pack by (rewrite map_length, firstn_length; unfold elt in L; cbn [esize] in L; rewrite L; reflexivity).
  apply forall2_map. intros x. rewrite u2d_value. pose proof (uval_range x) as U. change (modulus (esize UInt)) with (2 ^ 32) in U.
  assert (E : exact_int (w := 8) (uval x)) by (apply (exact_small fp8); change (mant_bits 8 + 1) with 53; lia).
  destruct (of_int_exact fp8 _ E) as (F & V & N & _). split; [split; [exact F|exact V]|]. rewrite (sign_bit_neg fp8). refine (eq_trans N _). change ((uval x <? 0) = false). lia.
Qed.

Lemma C46_simd_cast_partial_main :
  forall sse41 from to (xss : list (list (elt from))) r, ~ (sse41 = false /\ from = Double /\ to = UInt) ->
    Forall (fun xs => length xs = (16 / esize from)%nat) xss -> simd_cast sse41 from to (map pack xss) = Some r ->
    let n := Nat.min (length (concat xss)) (16 / esize to) in
    Forall2 (cast_ok from to) (firstn n (concat xss)) (firstn n (lanes (esize to) r)) /\
    skipn n (lanes (esize to) r) = repeat (w0 (esize to)) (16 / esize to - n).
Proof.
  intros sse41 from to xss r NB F H. exact (casted_all sse41 from to xss r F NB H).
Qed.

Lemma C46_simd_cast_offset_main :
  forall sse41 from to offset (xs : list (elt from)) r, offset <> 0%nat ->
    length xs = (16 / esize from)%nat -> simd_cast_offset sse41 from to offset (pack xs) = Some r ->
    Forall2 (cast_ok from to) (firstn (16 / esize to) (skipn (offset * (16 / esize to)) xs)) (lanes (esize to) r).
Proof.
  intros sse41 from to offset xs r NZ L H. apply (cast_offset_ok sse41); try assumption. intros (-> & -> & ->). unfold simd_cast_offset in H.
  destruct offset as [|o]; [now apply NZ|]. cbn [Nat.eqb esize] in H. change (16 / 4)%nat with 4%nat in H.
  destruct (Nat.ltb_spec (8 * Datatypes.S o * 4) 16); [lia|]. rewrite andb_false_r in H. discriminate H.
Qed.

Lemma C46_constructor_main :
  forall sse41 from to (xs : list (elt from)), is_integer from && is_integer to = false -> length xs = (16 / esize from)%nat ->
    ~ (sse41 = false /\ from = Double /\ to = UInt) ->
    let r := convert sse41 from to (pack xs) in
    let n := Nat.min (length xs) (16 / esize to) in
    Forall2 (cast_ok from to) (firstn n xs) (firstn n (lanes (esize to) r)) /\
    skipn n (lanes (esize to) r) = repeat (w0 (esize to)) (16 / esize to - n).
Proof.
  intros sse41 from to xs I L N r n. destruct (casted_all sse41 from to [xs] r) as (A & B); [now repeat constructor|exact N|unfold r; rewrite convert_cast1; [reflexivity|intros (-> & [-> | ->]); discriminate I]|].
  cbn [concat] in A, B. rewrite app_nil_r in A, B. split; [exact A|exact B].
Qed.

Lemma mask8_4 b c : pack (map (wmask 8) [b; c]) = pack (map (wmask 4) [b; b; c; c]).
Proof. destruct b, c; reflexivity. Qed.
Lemma double_uint_sse2 (x0 x1 : word 8) :
  convert false Double UInt (pack [x0; x1]) =
  let t x := wxor (cvt_int32 ToZero (fsub x (of_int 8 (2 ^ 31)))) (mkw 4 (2 ^ 31)) in
  let m0 := fle (of_int 8 (2 ^ 31)) x0 in
  pack [if m0 then t x0 else cvt_int32 ToZero x0; if m0 then t x1 else cvt_int32 ToZero x1; w0 4; w0 4].
Proof.
  unfold convert, convert_double_uint. rewrite set1_fp_pack. change (16 / 8)%nat with 2%nat. change 0x80000000 with (2 ^ 31). unfold v_fsub, fcmp. rewrite !lift2_pack by reflexivity.
  cbn [map2 repeat]. rewrite !cvttpd_pack by reflexivity. rewrite cvtsi64_pack. cbn [map app]. rewrite xor_pack by reflexivity. cbn [map2].
  change [wmask 8 (fle (of_int 8 (2 ^ 31)) x0); wmask 8 (fle (of_int 8 (2 ^ 31)) x1)] with (map (wmask 8) [fle (of_int 8 (2 ^ 31)) x0; fle (of_int 8 (2 ^ 31)) x1]).
  rewrite mask8_4. rewrite blendv_pack by reflexivity. cbn [map3]. rewrite !wxor_0_r. cbv zeta. f_equal. destruct (fle (of_int 8 (2 ^ 31)) x1); reflexivity.
Qed.

Lemma C46_double_uint_sse2_partial_main :
  forall (x0 x1 : elt Double), (2 ^ 31 * fone 8 <=? fvalue x0) = (2 ^ 31 * fone 8 <=? fvalue x1) -> is_NaN x0 = false -> is_NaN x1 = false ->
    exists y0 y1, lanes 4 (convert false Double UInt (pack [x0; x1])) = [y0; y1; w0 4; w0 4] /\ cast_ok Double UInt x0 y0 /\ cast_ok Double UInt x1 y1.
Proof.
  intros x0 x1 S N0 N1. change (is_NaN (w := 8) x0 = false) in N0. change (is_NaN (w := 8) x1 = false) in N1. change ((2 ^ 31 * fone 8 <=? fvalue (w := 8) x0) = (2 ^ 31 * fone 8 <=? fvalue (w := 8) x1)) in S. rewrite double_uint_sse2. cbv zeta. rewrite lanes_pack by reflexivity. eexists. eexists. split; [reflexivity|].
  destruct (of_int_exact fp8 _ (exact31 fp8)) as (F31 & V31 & _).
  assert (L : forall x : word 8, is_NaN x = false -> fle (of_int 8 (2 ^ 31)) x = (2 ^ 31 * fone 8 <=? fvalue x)).
  { intros x N. rewrite (fle_ok fp8). unfold float_le, ordered. rewrite (finite_not_NaN _ F31), N. cbn [negb andb]. now rewrite V31. }
  pose proof (cast_fp_uint Double x0 eq_refl) as C0. pose proof (cast_fp_uint Double x1 eq_refl) as C1. unfold f2u in C0, C1.
  change (fle (of_int (esize Double) (2 ^ 31)) x0) with (fle (of_int 8 (2 ^ 31)) x0) in C0. change (fle (of_int (esize Double) (2 ^ 31)) x1) with (fle (of_int 8 (2 ^ 31)) x1) in C1.
  rewrite (L x1 N1), <- S in C1. rewrite (L x0 N0) in *. split; [exact C0|exact C1].
Qed.

Lemma C46_double_uint_sse2_refuted_main :
  map uval (lanes 4 (convert false Double UInt (pack (map (of_int 8) [1; 3000000000])))) = [1; 2147483648; 0; 0] /\
  map uval (lanes 4 (convert false Double UInt (pack [of_int 8 3000000000; mkw 8 0x3FE0000000000000]))) = [3000000000; 1; 0; 0].
Proof.
  split; vm_compute; reflexivity.
Qed.

Lemma C23_division_main :
  forall sse41 e (xs ys : list (elt e)), is_integer e = true -> length xs = (16 / esize e)%nat -> length ys = (16 / esize e)%nat ->
    Forall2 (fun x y => int_value e y <> 0 /\ in_range e (Z.quot (int_value e x) (int_value e y))) xs ys ->
    exists r, v_idiv sse41 e (pack xs) (pack ys) = Some r /\
      map (int_value e) (lanes (esize e) r) = map2 (fun x y => Z.quot (int_value e x) (int_value e y)) xs ys.
Proof.
  intros sse41 e xs ys I Lx Ly H. eexists. split; [apply idiv_pack; assumption|]. rewrite lanes_pack by (rewrite length_map2; unfold elt in *; congruence).
  rewrite map_map2. eapply map2_F2; [exact H|]. intros x y D. now apply div_lane_fn_ok.
Qed.

Lemma C23_remainder_main :
  forall sse41 e (xs ys : list (elt e)), is_integer e = true -> length xs = (16 / esize e)%nat -> length ys = (16 / esize e)%nat ->
    Forall2 (fun x y => int_value e y <> 0 /\ in_range e (Z.quot (int_value e x) (int_value e y))) xs ys ->
    exists r, v_imod sse41 e (pack xs) (pack ys) = Some r /\
      map (int_value e) (lanes (esize e) r) = map2 (fun x y => Z.rem (int_value e x) (int_value e y)) xs ys.
Proof.
  intros sse41 e xs ys I Lx Ly H. eexists. split; [apply imod_pack; assumption|]. rewrite lanes_pack by (rewrite length_map2; unfold elt in *; congruence).
  rewrite map_map2. eapply map2_F2; [exact H|]. intros x y D. now apply rem_lane.
Qed.

Lemma C23_short_min_refuted_main :
  forall sse41, let a := pack (repeat (mkw 2 (-32768)) 8) in let b := pack (repeat (mkw 2 (-1)) 8) in
    option_map (fun r => map sval (lanes 2 r)) (v_idiv sse41 Short a b) = Some (repeat 32767 8) /\
    option_map (fun r => map sval (lanes 2 r)) (v_imod sse41 Short a b) = Some (repeat (-1) 8) /\
    Z.rem (-32768) (-1) = 0.
Proof.
  intros [|]; cbv zeta; (split; [vm_compute; reflexivity|split; [vm_compute; reflexivity|reflexivity]]).
Qed.

Lemma deint_lane (f : Z -> word 4) (g : Z -> Z) : (forall i, sval (f i) = g i) -> (forall i, Z.abs (g i) <= 2 ^ 16) ->
  Forall2 has_value (lanes 4 (cvtepi32_ps (pack (tab 4 f)))) (tab 4 g).
Proof.
  intros H B. rewrite cvtepi32_ps_pack by (unfold tab; now rewrite map_length, seq_length). rewrite lanes_pack by (rewrite map_length; unfold tab; now rewrite map_length, seq_length).
  unfold tab. rewrite map_map. generalize (seq 0 4). induction l as [|n l IH]; [constructor|]. cbn [map]. constructor; [|exact IH]. rewrite H.
  assert (E : exact_int (w := 4) (g (Z.of_nat n))) by (apply (exact_small fp4); change (mant_bits 4 + 1) with 24; specialize (B (Z.of_nat n)); lia).
  destruct (of_int_exact fp4 _ E) as (F & V & _). split; [exact F|exact V].
Qed.

Lemma C45_deinterleave_float_main :
  forall (m : memory (word 2)) mem xs, length xs = 8%nat -> holds m mem xs ->
    (exists a b, deinterleave_mem_short_float m mem = Some (a, b) /\
       Forall2 has_value (lanes 4 a) (tab 4 (fun i => sval (znth (w0 2) xs (2 * i)))) /\
       Forall2 has_value (lanes 4 b) (tab 4 (fun i => sval (znth (w0 2) xs (2 * i + 1))))) /\
    (exists a b, deinterleave_mem_ushort_float m mem = Some (a, b) /\
       Forall2 has_value (lanes 4 a) (tab 4 (fun i => uval (znth (w0 2) xs (2 * i)))) /\
       Forall2 has_value (lanes 4 b) (tab 4 (fun i => uval (znth (w0 2) xs (2 * i + 1))))).
Proof.
  intros m mem xs L H. apply load_list in H. rewrite L in H.
  assert (SB : forall x : word 2, Z.abs (sval x) <= 2 ^ 16) by (intros x; pose proof (sval_range x ltac:(lia)); change (modulus 2 / 2) with (2 ^ 15) in *; lia).
  assert (UB : forall x : word 2, Z.abs (uval x) <= 2 ^ 16) by (intros x; pose proof (uval_range x); change (modulus 2) with (2 ^ 16) in *; lia).
  split.
  - unfold deinterleave_mem_short_float. rewrite H. cbn [obind]. eexists. eexists. split; [reflexivity|].
    pose proof (short_int_ok xs L) as E. unfold deinterleave_short_int in E. pose proof (f_equal fst E) as E1. pose proof (f_equal snd E) as E2. cbn [fst snd] in E1, E2. rewrite E1, E2.
    split; apply deint_lane; intros i; auto using sval_short_wide.
  - unfold deinterleave_mem_ushort_float. rewrite H. cbn [obind]. eexists. eexists. split; [reflexivity|].
    pose proof (ushort_uint_ok xs L) as E. unfold deinterleave_ushort_uint in E. pose proof (f_equal fst E) as E1. pose proof (f_equal snd E) as E2. cbn [fst snd] in E1, E2. rewrite E1, E2.
    split; apply deint_lane; intros i; auto using sval_ushort_wide.
Qed.
