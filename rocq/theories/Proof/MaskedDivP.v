(** Division of integer vectors with zero divisors in some entries: the other entries do not depend on them. *)
From Coq Require Import ZArith List Bool Lia.
From Verif.Spec Require Import Seq FloatSpec RoundSpec CastSpec MathSpec MaskSpec NativeSpec.
From Verif.Model Require Import Word Fp FpArith SseReg SseMove SortNet SseInt SseBuild SseArith SseMask SseNative SimdArray SimdArrayOps Mem SseConvert
  AvxReg AvxMove AvxBuild AvxShuffle AvxMask AvxArith AvxConvert ScalarVec MaskedDiv.
Import ListNotations.
Local Open Scope Z_scope.
From Verif.Proof Require Import WordP SeqP SseMoveP SseIntP SseEmulP SseArithP SseMaskP FpP FpArithP FpIntP ConvertP ConvertRegP DivP SimdArrayP SimdArrayOpsP
  SseBuildP AvxMoveP AvxCastP AvxMaskP AvxShuffleP AvxArithP AvxConvertP AvxDivP AvxConvertMain.
From Verif.Proof Require ArrayMathMain.

(** ** lane functions of the AVX division, for every divisor *)
Definition int_lane (x y : word 4) : word 4 := cvt_int32 ToZero (fdiv (of_int 8 (sval x)) (of_int 8 (sval y))).
Definition uint_lane (x y : word 4) : word 4 := if uval y =? 1 then x else cvt_int32 ToZero (fdiv (u2d x) (u2d y)).
Lemma ydiv_int_any (xs ys : list (word 4)) : length xs = 8%nat -> length ys = 8%nat -> ydiv_int (ypack xs) (ypack ys) = ypack (map2 int_lane xs ys).
Proof.
  intros Hx Hy. eight xs. eight ys. cbn [map2]. rewrite !yp4. unfold ydiv_int. cbn [lo128 hi128].
  rewrite !ycvtepi32_pd_pack, !y_fdiv_pack by (try reflexivity; unfold lane_ok; auto). cbn [map2]. rewrite !ycvttpd_pack by reflexivity. reflexivity.
Qed.
Lemma ydiv_uint_any (xs ys : list (word 4)) : length xs = 8%nat -> length ys = 8%nat -> ydiv_uint (ypack xs) (ypack ys) = ypack (map2 uint_lane xs ys).
Proof.
  intros Hx Hy. eight xs. eight ys.
  cbn [map2]. rewrite !yp4. unfold ydiv_uint, y_add, yset1, ymap2. cbn [lo128 hi128 esize].
  change (set1 4 (- 2147483648)) with (pack (repeat (mkw 4 (2 ^ 31)) 4)). unfold add_epi. rewrite !lift2_pack by reflexivity. cbn [map2 repeat]. rewrite !add_msb.
  rewrite !ycvtepi32_pd_pack. change 2147483648 with (2 ^ 31). rewrite !add_pd31, !y_fdiv_pack by (try reflexivity; unfold lane_ok; auto). cbn [map2]. rewrite !ycvttpd_pack by reflexivity. cbn [app map].
  unfold y_cmpeq, y_blendv_ps, y_assign, ymap2. cbn [lo128 hi128 is_integer esize]. change (set1 4 1) with (pack (repeat (mkw 4 1) 4)). unfold cmpeq_epi. rewrite !lift2_pack by reflexivity. cbn [map2 repeat].
  change (uval (mkw 4 1)) with 1. rewrite !masks4, !(blend4 _ (or_intror eq_refl)) by reflexivity. cbn [map3].
  repeat match goal with |- context [fadd (of_int 8 (sval (wxor ?x (mkw 4 (2 ^ 31))))) (of_int 8 (2 ^ 31))] => change (fadd (of_int 8 (sval (wxor x (mkw 4 (2 ^ 31))))) (of_int 8 (2 ^ 31))) with (u2d x) end.
  reflexivity.
Qed.

(** ** relations between the operands and the result *)
Definition quot_ok (e : etype) (p : elt e * elt e) (z : elt e) : Prop := int_value e (snd p) <> 0 -> z = quot_lane e (fst p) (snd p).
Lemma forall2_map2' {A B C} (R : A * B -> C -> Prop) (f : A -> B -> C) : (forall x y, R (x, y) (f x y)) ->
  forall xs ys, Forall2 R (combine xs ys) (map2 f xs ys).
Proof. intros H. induction xs as [|x xs IH]; intros [|y ys]; cbn; constructor; auto. Qed.
Section Half.
  Context (avx2 : bool) (e : etype).
  Notation qf := (fun x y => fdiv (of_int 4 (v16 e x)) (of_int 4 (v16 e y))).
  Notation quot2 := (fun x y => mkw 2 (Z.quot (v16 e x) (v16 e y))).
  Definition ok16 (p : word 2 * word 2) (z : word 2) : Prop := v16 e (snd p) <> 0 -> z = mkw 2 (Z.quot (v16 e (fst p)) (v16 e (snd p))).
  Definition short_lane (x y : word 2) : word 2 := mkw 2 (uval (div16_lane e x y)).
  Definition ushort_lane (x y : word 2) : word 2 := mkw 2 (uval (f2u (qf x y))).
  Lemma half_short_any (xs ys : list (word 2)) : length xs = 8%nat -> length ys = 8%nat ->
    yconvert_float_short avx2 (y_fdiv 4 (conv16 avx2 e (pack xs)) (conv16 avx2 e (pack ys))) = pack (map2 short_lane xs ys).
  Proof using.
    intros Hx Hy. rewrite div_conv16 by assumption. eight xs. eight ys.
    cbn [firstn skipn map2]. unfold yconvert_float_short. rewrite ycvttps_pack by reflexivity. cbn [map]. rewrite yint_short_pack by reflexivity. reflexivity.
  Qed.
  Lemma half_ushort_any (xs ys : list (word 2)) : length xs = 8%nat -> length ys = 8%nat ->
    yconvert_float_ushort (y_fdiv 4 (conv16 avx2 e (pack xs)) (conv16 avx2 e (pack ys))) = pack (map2 ushort_lane xs ys).
  Proof using.
    intros Hx Hy. rewrite div_conv16 by assumption. eight xs. eight ys.
    cbn [firstn skipn map2]. unfold yconvert_float_ushort. rewrite yfloat_uint_pack by reflexivity. cbn [map]. rewrite yint_ushort_pack by reflexivity. reflexivity.
  Qed.
  Lemma short_lane_ok x y : ok16 (x, y) (short_lane x y).
  Proof using. intros N. now apply div16_lo. Qed.
  Lemma ushort_lane_ok x y : is_signed e = false -> ok16 (x, y) (ushort_lane x y).
  Proof using. intros S N. now apply div16_uint. Qed.
End Half.
Lemma y_idiv_any avx2 gcc e (xs ys : list (elt e)) : is_integer e = true -> length xs = (32 / esize e)%nat -> length ys = (32 / esize e)%nat ->
  exists zs, y_idiv avx2 gcc e (ypack xs) (ypack ys) = ypack zs /\ length zs = (32 / esize e)%nat /\ Forall2 (quot_ok e) (combine xs ys) zs.
Proof.
  intros I Hx Hy. destruct e; try discriminate I; unfold y_idiv.
  - destruct (split_y Short xs Hx) as (l & h & -> & Ll & Lh & ->). destruct (split_y Short ys Hy) as (l' & h' & -> & Ll' & Lh' & ->).
    unfold ydiv_short. cbn [lo128 hi128]. unfold elt in *. cbn [esize] in *. change (16 / 2)%nat with 8%nat in *.
    pose proof (half_short_any avx2 Short l l' Ll Ll') as E1. pose proof (half_short_any avx2 Short h h' Lh Lh') as E2. unfold conv16 in E1, E2. cbn [is_signed] in E1, E2. rewrite E1, E2.
    exists (map2 (short_lane Short) l l' ++ map2 (short_lane Short) h h').
    assert (M1 : length (map2 (short_lane Short) l l') = 8%nat) by (rewrite length_map2; congruence). assert (M2 : length (map2 (short_lane Short) h h') = 8%nat) by (rewrite length_map2; congruence).
    split; [symmetry; now apply (ypack_app (w := 2))|]. split; [rewrite app_length, M1, M2; reflexivity|]. rewrite ArrayMathMain.combine_app by congruence.
    apply Forall2_app; apply forall2_map2'; intros x y; exact (short_lane_ok Short x y).
  - destruct (split_y UShort xs Hx) as (l & h & -> & Ll & Lh & ->). destruct (split_y UShort ys Hy) as (l' & h' & -> & Ll' & Lh' & ->).
    unfold ydiv_ushort. cbn [lo128 hi128]. unfold elt in *. cbn [esize] in *. change (16 / 2)%nat with 8%nat in *.
    pose proof (half_short_any avx2 UShort l l' Ll Ll') as E1. pose proof (half_short_any avx2 UShort h h' Lh Lh') as E2.
    pose proof (half_ushort_any avx2 UShort l l' Ll Ll') as G1. pose proof (half_ushort_any avx2 UShort h h' Lh Lh') as G2. unfold conv16 in E1, E2, G1, G2. cbn [is_signed] in E1, E2, G1, G2. rewrite E1, E2, G1, G2.
    match goal with |- context [if ?c1 then pack ?a else pack ?b] => match goal with |- context [Ymm _ (if ?c2 then pack ?c else pack ?d)] =>
      exists ((if c1 then a else b) ++ (if c2 then c else d)); set (b1 := c1); set (b2 := c2) end end.
    assert (M : forall (f : word 2 -> word 2 -> word 2) (a b : list (word 2)), length a = 8%nat -> length b = 8%nat -> length (map2 f a b) = 8%nat) by (intros; rewrite length_map2; congruence).
    assert (P : forall (b : bool) (a c : list (word 2)), (if b then pack a else pack c) = pack (if b then a else c)) by (now destruct b). rewrite !P.
    assert (L1 : length (if b1 then map2 (ushort_lane UShort) l l' else map2 (short_lane UShort) l l') = 8%nat) by (destruct b1; now apply M).
    assert (L2 : length (if b2 then map2 (ushort_lane UShort) h h' else map2 (short_lane UShort) h h') = 8%nat) by (destruct b2; now apply M).
    split; [symmetry; now apply (ypack_app (w := 2))|]. split; [rewrite app_length, L1, L2; reflexivity|]. rewrite ArrayMathMain.combine_app by congruence.
    apply Forall2_app; [destruct b1|destruct b2]; apply forall2_map2'; intros x y; first [exact (ushort_lane_ok UShort x y eq_refl)|exact (short_lane_ok UShort x y)].
  - unfold elt in *; cbn [esize] in *. exists (map2 int_lane xs ys). split; [now apply ydiv_int_any|]. split; [rewrite length_map2; congruence|]. apply forall2_map2'. intros x y N. now apply div_int_lane.
  - unfold elt in *; cbn [esize] in *. exists (map2 uint_lane xs ys). split; [now apply ydiv_uint_any|]. split; [rewrite length_map2; congruence|]. apply forall2_map2'. intros x y N. now apply div_uint_lane.
Qed.

Lemma y_imod_any avx2 gcc e (xs ys : list (elt e)) : is_integer e = true -> length xs = (32 / esize e)%nat -> length ys = (32 / esize e)%nat ->
  exists zs, ylanes (esize e) (y_imod avx2 gcc e (ypack xs) (ypack ys)) = zs /\ length zs = (32 / esize e)%nat /\
    Forall2 (fun p z => int_value e (snd p) <> 0 -> int_value e z = Z.rem (int_value e (fst p)) (int_value e (snd p))) (combine xs ys) zs.
Proof.
  intros I Hx Hy. destruct (y_idiv_any avx2 gcc e xs ys I Hx Hy) as (qs & E & Lq & F). unfold y_imod. rewrite E, y_mul_ok by assumption.
  assert (L1 : length (map2 wmul qs ys) = (32 / esize e)%nat) by (etransitivity; [apply length_map2; etransitivity; [exact Lq|symmetry; exact Hy]|exact Lq]). rewrite y_sub_ok by assumption.
  assert (L2 : length (map2 wsub xs (map2 wmul qs ys)) = (32 / esize e)%nat) by (etransitivity; [apply length_map2; etransitivity; [exact Hx|symmetry; exact L1]|exact Hx]).
  rewrite ylanes_ypack by (auto; apply esize_ok). eexists. split; [reflexivity|]. split; [exact L2|].
  assert (LL : length ys = length xs) by congruence. clear - F LL. revert ys qs F LL. induction xs as [|x xs IH]; intros [|y ys] qs F LL; try discriminate LL; cbn in F |- *; inversion F as [|p q ps qs' H H']; subst; cbn; constructor.
  - cbn [fst snd] in *. intros N. rewrite (H N). now apply rem_lane_y.
  - apply IH; auto.
Qed.
(** 16-bit SSE vectors *)
Lemma v_div16_any sse41 e (xs ys : list (elt e)) : is_integer e = true -> esize e = 2%nat -> length xs = (16 / esize e)%nat -> length ys = (16 / esize e)%nat ->
  v_idiv sse41 e (pack xs) (pack ys) = Some (pack (map2 (div_lane_fn sse41 e) xs ys)).
Proof.
  intros I S Hx Hy. destruct e; try discriminate I; try discriminate S; unfold v_idiv; f_equal.
  - exact (div16_pack sse41 Short xs ys (or_introl eq_refl) Hx Hy).
  - exact (div16_pack sse41 UShort xs ys (or_intror eq_refl) Hx Hy).
Qed.
Lemma v_mod16_any sse41 e (xs ys : list (elt e)) : is_integer e = true -> esize e = 2%nat -> length xs = (16 / esize e)%nat -> length ys = (16 / esize e)%nat ->
  v_imod sse41 e (pack xs) (pack ys) = Some (pack (map2 (fun x y => wsub x (wmul (div_lane_fn sse41 e x y) y)) xs ys)).
Proof.
  intros He S Hx Hy. unfold v_imod. rewrite v_div16_any by assumption. cbn [obind]. f_equal.
  assert (L1 : length (map2 (div_lane_fn sse41 e) xs ys) = (16 / esize e)%nat) by (rewrite length_map2 by congruence; assumption).
  rewrite v_mul_pack by assumption. rewrite v_sub_pack; [|assumption|etransitivity; [apply length_map2; etransitivity; [exact L1|symmetry; exact Hy]|exact L1]]. f_equal.
  clear L1. revert ys Hy. clear Hx. generalize (16 / esize e)%nat. induction xs as [|x xs IH]; intros n [|y ys] Hy; cbn; auto. now rewrite (IH (length ys) ys eq_refl).
Qed.

(** ** the leaves *)
Definition div_rel (e : etype) (p : elt e * elt e) (z : elt e) : Prop := divides_ok e (fst p) (snd p) -> int_value e z = Z.quot (int_value e (fst p)) (int_value e (snd p)).
Definition mod_rel (e : etype) (p : elt e * elt e) (z : elt e) : Prop := divides_ok e (fst p) (snd p) -> int_value e z = Z.rem (int_value e (fst p)) (int_value e (snd p)).
(** a leaf of [k] entries computes without C++ division *)
Definition vector_leaf (b : div_build) (e : etype) (k : nat) : Prop :=
  k <> 1%nat /\ (esize e = 2%nat \/ (k <> (16 / esize e)%nat)).
Lemma div_leaf_cases b e k : is_integer e = true -> div_native b e k = true ->
  k = 1%nat \/ (k <> 1%nat /\ k = (16 / esize e)%nat /\ b <> DScalar) \/ (k <> 1%nat /\ k <> (16 / esize e)%nat /\ k = (32 / esize e)%nat /\ exists gcc, b = DAvx true gcc).
Proof.
  intros I N. assert (S : forall k, sse_native (esize e) k = true -> k = 1%nat \/ (k <> 1%nat /\ k = (16 / esize e)%nat)).
  { intros j H. apply orb_prop in H. destruct H as [H|H]; apply Nat.eqb_eq in H; [auto|]. right. split; [subst; destruct e; try discriminate I; discriminate|exact H]. }
  destruct b as [|s|avx2 gcc]; cbn [div_native] in N.
  - apply Nat.eqb_eq in N. auto.
  - destruct (S _ N) as [H|(H & H')]; [auto|right; left; repeat split; auto; discriminate].
  - unfold avx_widths_of, has256 in N. rewrite I in N. destruct avx2; cbn [orb negb] in N.
    + apply orb_prop in N. destruct N as [N|N].
      * destruct (S _ N) as [H|(H & H')]; [auto|right; left; repeat split; auto; discriminate].
      * apply Nat.eqb_eq in N. right; right. subst k. repeat split; [destruct e; try discriminate I; discriminate..|eauto].
    + destruct (S _ N) as [H|(H & H')]; [auto|right; left; repeat split; auto; discriminate].
Qed.
Lemma s_defined e (x y : elt e) : divides_ok e x y -> cxx_defined e x y = true.
Proof.
  intros (N & R). unfold cxx_defined. rewrite (proj2 (Z.eqb_neq _ _) N). cbn [orb]. destruct e; try reflexivity.
  destruct (Z.eqb_spec (int_value Int x) (- 2 ^ 31)) as [E|]; [|reflexivity]. destruct (Z.eqb_spec (int_value Int y) (-1)) as [E'|]; [|reflexivity]. exfalso.
  rewrite E, E' in R. unfold in_range in R. cbn [is_signed esize] in R. change (8 * Z.of_nat 4 - 1) with 31 in R. change (Z.quot (- 2 ^ 31) (-1)) with (2 ^ 31) in R. lia.
Qed.
Lemma f2_impl {A B} (P Q : A -> B -> Prop) : (forall a b, P a b -> Q a b) -> forall xs ys, Forall2 P xs ys -> Forall2 Q xs ys.
Proof. intros H xs ys F. induction F; constructor; auto. Qed.
Section Leaf.
  Context (b : div_build) (e : etype) (I : is_integer e = true).
  (** a vector leaf never fails *)
  Lemma vector_idiv (xs ys : list (elt e)) : div_native b e (length xs) = true -> vector_leaf b e (length xs) -> length ys = length xs ->
    exists zs, leaf_idiv b e xs ys = Some zs /\ length zs = length xs /\ Forall2 (div_rel e) (combine xs ys) zs.
  Proof using I.
    intros N V L. unfold leaf_idiv. destruct V as (V1 & V2). destruct (div_leaf_cases b e _ I N) as [E|[(N1 & E & B)|(N1 & N2 & E & g & B)]]; [contradiction| |].
    - rewrite (proj2 (Nat.eqb_neq _ _) N1), (proj2 (Nat.eqb_eq _ _) E). destruct V2 as [V2|V2]; [|contradiction].
      rewrite v_div16_any by (auto; congruence). cbn [option_map]. eexists. split; [reflexivity|]. assert (LM : length (map2 (div_lane_fn (div_sse41 b) e) xs ys) = length xs) by (apply length_map2; congruence).
      rewrite lanes_pack by (auto using esize_ok; exact (eq_trans LM E)). split; [exact LM|]. apply forall2_map2'. intros x y D. now apply div_lane_fn_ok.
    - rewrite (proj2 (Nat.eqb_neq _ _) N1), (proj2 (Nat.eqb_neq _ _) N2). subst b. destruct (y_idiv_any true g e xs ys I E ltac:(congruence)) as (zs & Z & Lz & F).
      rewrite Z, ylanes_ypack by (auto; apply esize_ok). eexists. split; [reflexivity|]. split; [exact (eq_trans Lz (eq_sym E))|]. eapply f2_impl; [|exact F]. intros p z Q (D & R). rewrite (Q D). now apply int_value_mkw.
  Qed.
  Lemma vector_imod (xs ys : list (elt e)) : div_native b e (length xs) = true -> vector_leaf b e (length xs) -> length ys = length xs ->
    exists zs, leaf_imod b e xs ys = Some zs /\ length zs = length xs /\ Forall2 (mod_rel e) (combine xs ys) zs.
  Proof using I.
    intros N V L. unfold leaf_imod. destruct V as (V1 & V2). destruct (div_leaf_cases b e _ I N) as [E|[(N1 & E & B)|(N1 & N2 & E & g & B)]]; [contradiction| |].
    - rewrite (proj2 (Nat.eqb_neq _ _) N1), (proj2 (Nat.eqb_eq _ _) E). destruct V2 as [V2|V2]; [|contradiction].
      rewrite v_mod16_any by (auto; congruence). cbn [option_map]. eexists. split; [reflexivity|].
      assert (LM : length (map2 (fun x y : elt e => wsub x (wmul (div_lane_fn (div_sse41 b) e x y) y)) xs ys) = length xs) by (apply length_map2; congruence).
      rewrite lanes_pack by (auto using esize_ok; exact (eq_trans LM E)). split; [exact LM|]. apply forall2_map2'. intros x y D. now apply rem_lane.
    - rewrite (proj2 (Nat.eqb_neq _ _) N1), (proj2 (Nat.eqb_neq _ _) N2). subst b. destruct (y_imod_any true g e xs ys I E ltac:(congruence)) as (zs & Z & Lz & F).
      rewrite Z. eexists. split; [reflexivity|]. split; [exact (eq_trans Lz (eq_sym E))|]. eapply f2_impl; [|exact F]. intros p z Q (D & R). exact (Q D).
  Qed.
  (** any leaf, when every division is defined *)
  Lemma any_idiv (xs ys : list (elt e)) : div_native b e (length xs) = true -> length ys = length xs -> Forall2 (divides_ok e) xs ys ->
    exists zs, leaf_idiv b e xs ys = Some zs /\ length zs = length xs /\ Forall2 (div_rel e) (combine xs ys) zs.
  Proof using I.
    intros N L D. destruct (div_leaf_cases b e _ I N) as [E|[(N1 & E & B)|(N1 & N2 & E & g & B)]].
    - unfold leaf_idiv. rewrite E. cbn [Nat.eqb]. rewrite (sequence_F2 (divides_ok e) _ (quot_lane e)); [|exact D|intros x y H; unfold s_idiv; now rewrite s_defined].
      eexists. split; [reflexivity|]. split; [rewrite length_map2; congruence|]. apply forall2_map2'. intros x y (_ & R). now apply int_value_mkw.
    - unfold leaf_idiv. rewrite (proj2 (Nat.eqb_neq _ _) N1), (proj2 (Nat.eqb_eq _ _) E). rewrite idiv_pack by (auto; congruence). cbn [option_map]. eexists. split; [reflexivity|].
      assert (LM : length (map2 (div_lane_fn (div_sse41 b) e) xs ys) = length xs) by (apply length_map2; congruence).
      rewrite lanes_pack by (auto using esize_ok; exact (eq_trans LM E)). split; [exact LM|]. apply forall2_map2'. intros x y H. now apply div_lane_fn_ok.
    - apply vector_idiv; auto. split; auto.
  Qed.
  Lemma any_imod (xs ys : list (elt e)) : div_native b e (length xs) = true -> length ys = length xs -> Forall2 (divides_ok e) xs ys ->
    exists zs, leaf_imod b e xs ys = Some zs /\ length zs = length xs /\ Forall2 (mod_rel e) (combine xs ys) zs.
  Proof using I.
    intros N L D. destruct (div_leaf_cases b e _ I N) as [E|[(N1 & E & B)|(N1 & N2 & E & g & B)]].
    - unfold leaf_imod. rewrite E. cbn [Nat.eqb]. rewrite (sequence_F2 (divides_ok e) _ (fun x y => mkw (esize e) (Z.rem (int_value e x) (int_value e y)))); [|exact D|intros x y H; unfold s_imod; now rewrite s_defined].
      eexists. split; [reflexivity|]. split; [rewrite length_map2; congruence|]. apply forall2_map2'. intros x y (R & _). cbn [fst snd] in *. apply int_value_mkw. now apply rem_in_range.
    - unfold leaf_imod. rewrite (proj2 (Nat.eqb_neq _ _) N1), (proj2 (Nat.eqb_eq _ _) E). rewrite imod_pack by (auto; congruence). cbn [option_map]. eexists. split; [reflexivity|].
      assert (LM : length (map2 (fun x y : elt e => wsub x (wmul (div_lane_fn (div_sse41 b) e x y) y)) xs ys) = length xs) by (apply length_map2; congruence).
      rewrite lanes_pack by (auto using esize_ok; exact (eq_trans LM E)). split; [exact LM|]. apply forall2_map2'. intros x y H. now apply rem_lane.
    - apply vector_imod; auto. split; auto.
  Qed.
  (** a leaf that uses C++ division fails when all divisors are zero *)
  Lemma seq_none {A B C} (f : A -> B -> option C) xs ys : (1 <= length xs)%nat -> length ys = length xs -> (forall x y, In y ys -> f x y = None) -> sequence (map2 f xs ys) = None.
  Proof using. destruct xs as [|x xs], ys as [|y ys]; cbn; intros H L F; try lia. now rewrite F by auto. Qed.
  Lemma trap_leaf (xs ys : list (elt e)) : div_native b e (length xs) = true -> ~ vector_leaf b e (length xs) -> length ys = length xs -> Forall (fun y => int_value e y = 0) ys ->
    leaf_idiv b e xs ys = None /\ leaf_imod b e xs ys = None.
  Proof using I.
    intros N V L Z. rewrite Forall_forall in Z.
    assert (S : forall x y, In y ys -> s_idiv e x y = None /\ s_imod e x y = None). { intros x y H. unfold s_idiv, s_imod, cxx_defined. now rewrite (Z y H). }
    destruct (div_leaf_cases b e _ I N) as [E|[(N1 & E & B)|(N1 & N2 & E & g & B)]].
    - unfold leaf_idiv, leaf_imod. rewrite E. cbn [Nat.eqb]. split; apply seq_none; try lia; intros x y H; apply (S x y H).
    - assert (S4 : esize e <> 2%nat) by (intros S2; apply V; split; auto).
      assert (G : v_idiv (div_sse41 b) e (pack xs) (pack ys) = None).
      { destruct e; try discriminate I; try (exfalso; apply S4; reflexivity); unfold v_idiv, div32; unfold elt in *; cbn [esize] in *; rewrite !lanes_pack by congruence; rewrite (seq_none _ xs ys); auto; try lia; try (rewrite E; cbv; lia);
        intros x y H; specialize (Z y H); unfold cxx_div; cbn in Z; rewrite Z; reflexivity. }
      unfold leaf_idiv, leaf_imod, v_imod. rewrite (proj2 (Nat.eqb_neq _ _) N1), (proj2 (Nat.eqb_eq _ _) E), G. auto.
    - exfalso. apply V. split; auto.
  Qed.
End Leaf.
