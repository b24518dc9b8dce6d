(** simd_cast between the native vectors of the SSE and AVX builds provides what simd_cast of SimdArrays relies on. *)
From Coq Require Import ZArith List Bool Lia Arith.
From Verif.Spec Require Import Seq FloatSpec RoundSpec CastSpec NativeSpec ArrayCastSpec NativeCastSpec.
From Verif.Model Require Import SplitSize SimdArray SimdArrayOps Word Fp FpArith SseReg SseMove SortNet SseInt SseBuild SseConvert AvxReg AvxMove AvxShuffle AvxBuild AvxConvert ArrayCast NativeCast.
From Verif.Proof Require Import SeqP SplitSizeP SimdArrayP SimdArrayMoveP SimdArrayOpsP WordP FpP FpArithP FpIntP SseIntP SseVecP SseBuildP ConvertP ConvertRegP ConvertMain AvxMoveP AvxVecP AvxBuildP AvxShuffleP AvxConvertP AvxConvertMain ArrayCastP.
Import ListNotations.
Local Open Scope Z_scope.

(** * static_cast *)
Lemma type_value_ok e (x : elt e) : type_value e x = int_value e x.
Proof. now destruct e. Qed.
Lemma holds_ok e z : holds e z = true <-> in_range e z.
Proof.
  unfold holds, in_range. change (is_signed_type e) with (is_signed e). change (8 * Z.of_nat (esize e)) with (bits (esize e)).
  destruct (is_signed e); rewrite andb_true_iff, Z.leb_le, Z.ltb_lt; tauto.
Qed.
Lemma int_value_mkw e z : in_range e z -> int_value e (mkw (esize e) z) = z.
Proof.
  assert (S : forall w, (0 < w)%nat -> - 2 ^ (8 * Z.of_nat w - 1) <= z < 2 ^ (8 * Z.of_nat w - 1) -> sval (mkw w z) = z).
  { intros w Hw H. apply sval_small; [exact Hw|]. unfold modulus, bits. replace (8 * Z.of_nat w) with ((8 * Z.of_nat w - 1) + 1) at 1 2 by lia.
    rewrite Z.pow_add_r by lia. change (2 ^ 1) with 2. rewrite Z.div_mul by lia. exact H. }
  assert (U : forall w, 0 <= z < 2 ^ (8 * Z.of_nat w) -> uval (mkw w z) = z) by (intros w H; rewrite uval_mkw; now apply Z.mod_small).
  unfold in_range, int_value. intros H. destruct (is_signed e); [apply S; [destruct e; cbn; lia|exact H]|now apply U].
Qed.
Lemma finite_class {w} (Hw : fp_width w) (x : word w) : is_Finite x = true -> is_nan x = false /\ is_inf x = false.
Proof.
  intros F. rewrite <- (nan_ok Hw), <- (inf_ok Hw). unfold is_Finite in F. unfold is_NaN, is_Inf.
  destruct (all_ones_exponent x); [discriminate F|]. now rewrite ?andb_false_l.
Qed.
Lemma static_fp_int undef from to (x : elt from) : is_integer from = false -> is_integer to = true -> cast_ok from to x (static_cast undef from to x).
Proof.
  intros I J. unfold cast_ok, static_cast. rewrite I, J, (trunc_units (fpw from I)). intros F R.
  destruct (finite_class (fpw from I) x F) as (-> & ->). rewrite (proj2 (holds_ok to _) R). cbn [negb andb]. now apply int_value_mkw.
Qed.
Lemma static_ok undef from to (x : elt from) : cast_ok from to x (static_cast undef from to x).
Proof.
  destruct (is_integer from) eqn:I, (is_integer to) eqn:J.
  - unfold static_cast. rewrite I, J. rewrite type_value_ok. apply cast_int_int; auto. rewrite Z.sub_diag. apply Z.mod_0_l. pose proof (modulus_pos (esize to)). lia.
  - unfold static_cast. rewrite I, J. rewrite type_value_ok. now apply cast_int_fp.
  - now apply static_fp_int.
  - destruct from, to; try discriminate I; try discriminate J.
    + exact (cast_fp_same Float x eq_refl).
    + exact (cast_float_double x).
    + exact (cast_double_float x).
    + exact (cast_fp_same Double x eq_refl).
Qed.
Lemma entry_weak from to (x : elt from) (y : elt to) : cast_ok from to x y -> array_cast_entry from to x y.
Proof.
  intros H. unfold array_cast_entry. destruct (is_integer from) eqn:I; [now destruct to|]. destruct to; try exact H. intros F R. unfold cast_ok in H. rewrite I in H. cbn [is_integer] in H.
  apply H; [exact F|]. unfold in_range. cbn [is_signed esize]. change (8 * Z.of_nat 2) with 16. lia.
Qed.
Lemma static_entry undef from to (x : elt from) : array_cast_entry from to x (static_cast undef from to x).
Proof. apply entry_weak, static_ok. Qed.
Lemma argument_ok undef from to (x : elt from) : array_cast_entry from to x (setr_argument undef from to x).
Proof.
  destruct to; try apply (static_entry undef from). change (setr_argument undef from UShort x) with (static_cast undef from Short x).
  unfold array_cast_entry. destruct (is_integer from) eqn:I.
  - unfold static_cast. rewrite I. cbn [is_integer]. change (cast_ok from UShort x (mkw (esize UShort) (type_value from x))). rewrite type_value_ok. apply cast_int_int; auto.
    rewrite Z.sub_diag. reflexivity.
  - rewrite (trunc_units (fpw from I)). intros F R. unfold static_cast. rewrite I. cbn [is_integer]. destruct (finite_class (fpw from I) x F) as (-> & ->).
    assert (RS : in_range Short (round_int ToZero x)) by (unfold in_range; cbn [is_signed esize]; change (8 * Z.of_nat 2 - 1) with 15; lia).
    rewrite (proj2 (holds_ok Short _) RS). cbn [negb andb]. apply (int_value_mkw UShort). unfold in_range; cbn [is_signed esize]; change (8 * Z.of_nat 2) with 16; lia.
Qed.

(** zero stays zero *)
Lemma w0_finite w : fp_width w -> is_Finite (w0 w) = true /\ fvalue (w0 w) = 0 /\ sign_bit (w0 w) = false /\ fabs_value (w0 w) = 0.
Proof. intros [->| ->]; now vm_compute. Qed.
Lemma zero_unique {w} (Hw : fp_width w) (y : word w) : is_Finite y = true -> fvalue y = 0 -> sign_bit y = false -> y = w0 w.
Proof.
  intros F V S. destruct (w0_finite w Hw) as (_ & _ & S0 & A0). apply (same_value Hw).
  - rewrite A0. rewrite (fvalue_abs Hw) in V. destruct (negative y); lia.
  - now rewrite <- !(sign_bit_neg Hw), S, S0.
Qed.
Lemma nearest_zero {w} (Hw : fp_width w) (y : word w) d : 0 < d -> nearest y 0 d -> sign_bit y = false -> y = w0 w.
Proof.
  intros D (F & H) S. destruct (w0_finite w Hw) as (F0 & V0 & _ & _). apply (zero_unique Hw); auto.
  destruct (H (w0 w) F0) as (L & _). rewrite V0 in L. nia.
Qed.
Lemma cast_zero from to (y : elt to) : cast_ok from to (w0 (esize from)) y -> y = w0 (esize to).
Proof.
  unfold cast_ok. destruct (is_integer from) eqn:I, (is_integer to) eqn:J.
  - intros H. assert (Z0 : int_value from (w0 (esize from)) = 0) by (now destruct from). rewrite Z0, Z.sub_0_r in H.
    apply word_ext. rewrite uval_w0. pose proof (uval_range y) as R. assert (E : uval y mod modulus (esize to) = 0).
    { rewrite <- H, bits_mod. unfold int_value. destruct (is_signed to); [now rewrite sval_mod, Z.mod_small by exact R|reflexivity]. }
    now rewrite Z.mod_small in E.
  - intros (N & S). assert (Z0 : int_value from (w0 (esize from)) = 0) by (now destruct from). rewrite Z0 in *. apply (nearest_zero (fpw to J) y 1); [lia|exact N|exact S].
  - intros H. destruct (w0_finite _ (fpw from I)) as (F0 & V0 & _ & _). rewrite V0 in H. rewrite Z.quot_0_l in H.
    + assert (Y : int_value to y = 0) by (apply H; auto; unfold in_range; destruct to; try discriminate J; cbn; lia).
      apply word_ext. rewrite uval_w0. unfold int_value in Y. destruct (is_signed to); [|exact Y]. rewrite <- (sval_w0 (esize to)) in Y by (destruct to; cbn; lia). apply sval_inj in Y. now rewrite Y, uval_w0.
    + rewrite (fone_units (fpw from I)). pose proof (one_units_pos (fpw from I)). lia.
  - intros (_ & _ & H). destruct (w0_finite _ (fpw from I)) as (F0 & _ & S0 & A0). specialize (H F0). rewrite S0, A0 in H. destruct H as (S & H & _).
    apply (nearest_zero (fpw to J) y (fone (esize from))); auto.
    + rewrite (fone_units (fpw from I)). apply (one_units_pos (fpw from I)).
    + apply H. cbn [Z.mul]. rewrite (fone_units (fpw from I)). pose proof (one_units_pos (fpw from I)). apply Z.mul_pos_pos; auto. destruct to; try discriminate J; reflexivity.
Qed.
Lemma entry_zero from to (y : elt to) : array_cast_entry from to (w0 (esize from)) y -> y = w0 (esize to).
Proof.
  unfold array_cast_entry. destruct (is_integer from) eqn:I; [intros H; apply (cast_zero from to); now destruct to|].
  destruct to; try apply cast_zero. intros H. destruct (w0_finite _ (fpw from I)) as (F0 & V0 & _ & _). rewrite V0 in H. rewrite Z.quot_0_l in H.
  - apply word_ext. rewrite uval_w0. apply H; [exact F0|lia].
  - rewrite (fone_units (fpw from I)). pose proof (one_units_pos (fpw from I)). lia.
Qed.

(** * lists *)
Lemma weak {A B} (Q R : A -> B -> Prop) pad m off xs ys : (forall x y, Q x y -> R x y) -> converts Q pad m off xs ys -> converts R pad m off xs ys.
Proof. intros W. unfold converts. induction 1 as [|x y xs' ys' H _ IH]; constructor; [|exact IH]. destruct x; [now apply W|exact H]. Qed.
Lemma part_firstn {A} m off (xs : list A) : (off + m <= length xs)%nat -> part m off xs = map Some (firstn m (skipn off xs)).
Proof.
  revert off. induction m as [|m IH]; intros off H; [reflexivity|]. unfold part in *. cbn [seq map].
  assert (L : (off < length xs)%nat) by lia. destruct (nth_error xs off) as [a|] eqn:E; [|apply nth_error_None in E; lia].
  destruct (nth_error_split _ _ E) as (l1 & l2 & -> & L1). rewrite IH by lia.
  rewrite <- L1. replace (skipn (length l1) (l1 ++ a :: l2)) with (a :: l2) by (rewrite skipn_app, skipn_all, Nat.sub_diag; reflexivity).
  replace (skipn (S (length l1)) (l1 ++ a :: l2)) with l2 by (rewrite skipn_app, skipn_all2 by lia; replace (S (length l1) - length l1)%nat with 1%nat by lia; reflexivity).
  reflexivity.
Qed.
Lemma forall2_some {A B} (R : A -> B -> Prop) pad xs ys : Forall2 R xs ys -> Forall2 (becomes R pad) (map Some xs) ys.
Proof. induction 1; constructor; auto. Qed.
Lemma converts_casted {A B} (R : A -> B -> Prop) (pad : B -> Prop) z m xs ys : pad z -> let n := Nat.min (length xs) m in
  Forall2 R (firstn n xs) (firstn n ys) -> skipn n ys = repeat z (m - n) -> converts R pad m 0 xs ys.
Proof.
  intros P n H1 H2. unfold converts. replace m with (n + (m - n))%nat at 1 by lia. rewrite part_app.
  rewrite <- (firstn_skipn n ys). apply Forall2_app.
  - rewrite part_firstn by lia. cbn [skipn]. now apply forall2_some.
  - rewrite H2. destruct (Nat.le_ge_cases (length xs) m) as [L|L].
    + rewrite part_out by lia. generalize (m - n)%nat. intros j. induction j; constructor; auto.
    + replace (m - n)%nat with 0%nat by lia. constructor.
Qed.
Lemma converts_offset {A B} (R : A -> B -> Prop) (pad : B -> Prop) m off xs ys : (off + m <= length xs)%nat ->
  Forall2 R (firstn m (skipn off xs)) ys -> converts R pad m off xs ys.
Proof. intros L H. unfold converts. rewrite part_firstn by exact L. now apply forall2_some. Qed.
Lemma converts_map {A B} (R : A -> B -> Prop) (pad : B -> Prop) z (f : A -> B) m xs : pad z -> (forall a, R a (f a)) -> (length xs <= m)%nat ->
  converts R pad m 0 xs (map f xs ++ repeat z (m - length xs)).
Proof.
  intros P F L. apply (converts_casted _ _ z); auto; rewrite Nat.min_l by exact L.
  - rewrite firstn_all. rewrite firstn_app, map_length, Nat.sub_diag. cbn [firstn]. rewrite app_nil_r. rewrite <- (map_length f xs) at 1. rewrite firstn_all.
    clear - F. induction xs; constructor; auto.
  - rewrite skipn_app, map_length, Nat.sub_diag. cbn [skipn]. rewrite skipn_all2 by (rewrite map_length; lia). reflexivity.
Qed.
Lemma converts_one {A B} (R : A -> B -> Prop) (pad : B -> Prop) d k xs y : (k < length xs)%nat -> R (nth k xs d) y -> converts R pad 1 k xs [y].
Proof.
  intros L H. unfold converts, part. cbn [seq map]. rewrite (nth_error_nth' xs d L). repeat constructor. exact H.
Qed.
Lemma concat_ones {A} (xs : list (list A)) : (forall x, In x xs -> length x = 1%nat) -> length (concat xs) = length xs.
Proof.
  induction xs as [|x xs IH]; intros H; [reflexivity|]. cbn [concat length]. rewrite app_length, IH by (intros; apply H; now right). rewrite (H x (or_introl eq_refl)). reflexivity.
Qed.
Lemma concat_widths {A} w (xs : list (list A)) : (forall x, In x xs -> length x = w) -> length (concat xs) = (length xs * w)%nat.
Proof.
  induction xs as [|x xs IH]; intros H; [reflexivity|]. cbn [concat length]. rewrite app_length, IH by (intros; apply H; now right). rewrite (H x (or_introl eq_refl)). lia.
Qed.
Lemma hd_width {A} w (xs : list (list A)) : xs <> [] -> (forall x, In x xs -> length x = w) -> length (hd [] xs) = w.
Proof. destruct xs as [|x xs]; [now intros []|]. intros _ H. apply H. now left. Qed.
Lemma in_forall {A} w (xs : list (list A)) : (forall x, In x xs -> length x = w) -> Forall (fun x => length x = w) xs.
Proof. intros H. now apply Forall_forall. Qed.

(** * SSE *)
Lemma sse_width e n : sse_native (esize e) n = true -> n = 1%nat \/ n = (16 / esize e)%nat /\ n <> 1%nat.
Proof.
  unfold sse_native. rewrite orb_true_iff, !Nat.eqb_eq. intros [H|H]; [now left|]. right. split; [exact H|]. rewrite H. destruct e; cbn; lia.
Qed.
Lemma scalar_native e : sse_native (esize e) 1 = true.
Proof. reflexivity. Qed.

Lemma same_types from to : same_type from to = true -> from = to.
Proof. destruct from, to; cbn; congruence. Qed.
Section Sse.
  Context (undef : Z) (sse41 : bool) (from to : etype) (argument : elt from -> elt to) (R : elt from -> elt to -> Prop).
  Hypothesis HW : forall x y, cast_ok from to x y -> R x y.
  Hypothesis HA : forall x, R x (argument x).
  Hypothesis HZ : forall y, R (w0 (esize from)) y -> y = w0 (esize to).
  Hypothesis ND : ~ (sse41 = false /\ from = Double /\ to = UInt).
  Notation pad := (fun y => y = w0 (esize to)).

  Lemma few w m n : sse_native (esize from) w = true -> sse_native (esize to) m = true -> w <> 1%nat -> m <> 1%nat -> (n <> 0)%nat -> ((n - 1) * w < m)%nat ->
    n = 1%nat \/ esize from <> esize to /\ (n * w <= m)%nat.
  Proof.
    intros Nw Nm W1 M1 N0 H. destruct (sse_width from w Nw) as [E|(E & _)]; [contradiction|]. destruct (sse_width to m Nm) as [E'|(E' & _)]; [contradiction|].
    subst w m. destruct (Nat.eq_dec n 1) as [->|N1]; [now left|]. right.
    destruct from, to; cbn [esize] in *; change (16 / 2)%nat with 8%nat in *; change (16 / 4)%nat with 4%nat in *; change (16 / 8)%nat with 2%nat in *; lia.
  Qed.
  Lemma sse_many_ok w m xs : sse_native (esize from) w = true -> sse_native (esize to) m = true -> xs <> [] -> (forall x, In x xs -> length x = w) ->
    ((length xs - 1) * w < m)%nat -> exists r, sse_cast_many_with undef sse41 from to argument m xs = Some r /\ converts R pad m 0 (concat xs) r.
  Proof.
    intros Nw Nm X L C. unfold sse_cast_many_with. assert (W0 : (1 <= w)%nat) by (destruct (sse_width _ _ Nw) as [->|(-> & _)]; [lia|destruct from; cbn; lia]).
    destruct (Nat.eqb_spec m 1) as [->|M1].
    - destruct xs as [|x [|x' xs]]; [now destruct X| |cbn [length] in C; nia]. eexists. split; [reflexivity|]. cbn [concat]. rewrite app_nil_r.
      apply (converts_one (A := elt from) _ _ (w0 (esize from)) 0); [rewrite (L x (or_introl eq_refl)); exact W0|apply HW, static_ok].
    - rewrite (hd_width w) by assumption. destruct (Nat.eqb_spec w 1) as [->|W1].
      + destruct (Nat.leb_spec (length xs) m); [|lia]. eexists. split; [reflexivity|]. rewrite <- (concat_ones xs L). apply converts_map; [reflexivity|intros; apply HA|].
        now rewrite (concat_ones xs L).
      + destruct (sse_width from w Nw) as [E|(E & _)]; [contradiction|]. destruct (sse_width to m Nm) as [E'|(E' & _)]; [contradiction|].
        destruct (C33_simd_cast_defined_main sse41 from to xs) as (r & Hr).
        * destruct xs; [now destruct X|cbn; lia].
        * destruct (few w m (length xs) Nw Nm W1 M1 ltac:(destruct xs; [now destruct X|discriminate]) C) as [|(_ & F)]; [now left|right]. now rewrite <- E, <- E'.
        * destruct (few w m (length xs) Nw Nm W1 M1 ltac:(destruct xs; [now destruct X|discriminate]) C) as [->|(F & _)]; [left; lia|now right].
        * rewrite Hr. eexists. split; [reflexivity|]. rewrite E'. destruct (casted_all sse41 from to xs r) as (A & B); auto; [rewrite <- E; now apply in_forall|].
          apply (weak (cast_ok from to) R); [exact HW|]; now apply (converts_casted _ _ (w0 (esize to))).
  Qed.
  Lemma sse_offset_ok w m k x : sse_native (esize from) w = true -> sse_native (esize to) m = true -> length x = w -> (k * m < w)%nat ->
    exists r, sse_cast_offset undef sse41 from to m k x = Some r /\ converts R pad m (k * m) x r.
  Proof.
    intros Nw Nm L C. unfold sse_cast_offset. assert (W0 : (1 <= w)%nat) by (destruct (sse_width _ _ Nw) as [->|(-> & _)]; [lia|destruct from; cbn; lia]).
    destruct (Nat.eqb_spec m 1) as [->|M1].
    - eexists. split; [reflexivity|]. rewrite Nat.mul_1_r in *. apply (converts_one (A := elt from) _ _ (w0 (esize from))); [lia|apply HW, static_ok].
    - rewrite L. assert (M0 : (1 <= m)%nat) by (destruct (sse_width _ _ Nm) as [->|(-> & _)]; [lia|destruct to; cbn; lia]). destruct (Nat.eqb_spec w 1) as [->|W1].
      + destruct (Nat.eqb_spec k 0) as [->|K0]; [|nia]. destruct x as [|a [|b x]]; try discriminate L. eexists. split; [reflexivity|].
        change (static_cast undef from to (first_entry [a]) :: repeat (w0 (esize to)) (m - 1)) with (map (static_cast undef from to) [a] ++ repeat (w0 (esize to)) (m - length [a])).
        apply converts_map; [reflexivity|intros; apply HW, static_ok|exact M0].
      + destruct (sse_width from w Nw) as [E|(E & _)]; [contradiction|]. destruct (sse_width to m Nm) as [E'|(E' & _)]; [contradiction|].
        destruct (Nat.eq_dec k 0) as [->|K0].
        * eexists. split; [reflexivity|]. cbn [Nat.mul]. destruct (casted_all sse41 from to [x] (simd_cast1 sse41 from to (pack x))) as (A & B); auto; [constructor; [lia|constructor]|].
          cbn [concat] in A, B. rewrite app_nil_r in A, B. rewrite E'. apply (weak (cast_ok from to) R); [exact HW|]; now apply (converts_casted _ _ (w0 (esize to))).
        * assert (D : exists r, simd_cast_offset sse41 from to k (pack x) = Some r /\ (k * m + m <= length x)%nat).
          { unfold simd_cast_offset. destruct (Nat.eqb_spec k 0); [contradiction|]. cbv zeta. subst m w.
            destruct (Nat.ltb_spec 0 (esize from * k * (16 / esize to))); [destruct (Nat.ltb_spec (esize from * k * (16 / esize to)) 16)|].
            - eexists. split; [reflexivity|]. destruct from, to; cbn [esize] in *; change (16 / 2)%nat with 8%nat in *; change (16 / 4)%nat with 4%nat in *; change (16 / 8)%nat with 2%nat in *; lia.
            - exfalso. destruct from, to; cbn [esize] in *; change (16 / 2)%nat with 8%nat in *; change (16 / 4)%nat with 4%nat in *; change (16 / 8)%nat with 2%nat in *; lia.
            - exfalso. destruct from, to; cbn [esize] in *; change (16 / 2)%nat with 8%nat in *; change (16 / 4)%nat with 4%nat in *; change (16 / 8)%nat with 2%nat in *; lia. }
          destruct D as (r & Hr & D). rewrite Hr. eexists. split; [reflexivity|]. apply (weak (cast_ok from to) R); [exact HW|]; apply converts_offset; [exact D|].
          pose proof (cast_offset_ok sse41 from to k x r K0 ND ltac:(lia) Hr) as Q. now rewrite <- E' in Q.
  Qed.
  Lemma sse_casts_with_ok : native_casts_ok (sse_native (esize from)) (sse_native (esize to)) (w0 (esize from)) (w0 (esize to)) R pad (sse_casts_with undef sse41 from to argument).
  Proof.
    constructor; cbn [sse_casts_with c_many c_offset c_entry c_same].
    - apply sse_many_ok. - apply sse_offset_ok. - intros; apply HW, static_ok. - intros H n. now rewrite (same_types from to H). - reflexivity. - apply HZ.
  Qed.
End Sse.

(** * AVX *)
Lemma avx_width avx2 e n : avx_widths_of avx2 e n = true -> n = 1%nat \/ (n = 16 / esize e /\ n <> 1 /\ is256 e n = false)%nat \/
  (n = 32 / esize e /\ n <> 1 /\ is256 e n = true)%nat /\ has256 avx2 e = true.
Proof.
  unfold avx_widths_of, avx_native, is256. destruct (has256 avx2 e).
  - rewrite orb_true_iff, Nat.eqb_eq. intros [H|H].
    + destruct (sse_width e n H) as [->|(-> & N)]; [now left|]. right. left. split; [reflexivity|]. split; [exact N|]. now destruct e.
    + right. right. split; [|reflexivity]. split; [exact H|]. rewrite H. now destruct e.
  - intros H. destruct (sse_width e n H) as [->|(-> & N)]; [now left|]. right. left. split; [reflexivity|]. split; [exact N|]. now destruct e.
Qed.
Lemma avx_width_pos avx2 e n : avx_widths_of avx2 e n = true -> (1 <= n)%nat.
Proof. intros H. destruct (avx_width _ _ _ H) as [->|[(-> & _)|((-> & _) & _)]]; [lia|destruct e; cbn; lia|destruct e; cbn; lia]. Qed.
Ltac widths := cbn [esize] in *; change (16 / 2)%nat with 8%nat in *; change (16 / 4)%nat with 4%nat in *; change (16 / 8)%nat with 2%nat in *;
  change (32 / 2)%nat with 16%nat in *; change (32 / 4)%nat with 8%nat in *; change (32 / 8)%nat with 4%nat in *.

Section Avx.
  Context (undef : Z) (avx2 : bool) (from to : etype) (argument : elt from -> elt to) (R : elt from -> elt to -> Prop).
  Hypothesis HW : forall x y, cast_ok from to x y -> R x y.
  Hypothesis HA : forall x, R x (argument x).
  Hypothesis HZ : forall y, R (w0 (esize from)) y -> y = w0 (esize to).
  Notation upper := (repeat 0 16).
  Notation pad := (fun y => y = w0 (esize to)).

  Lemma scalars_ok xs : (forall x, In x xs -> length x = 1%nat) -> (length xs <= 32 / esize to)%nat ->
    exists r, scalars_to_avx upper from to argument xs = Some r /\ converts R pad (32 / esize to) 0 (concat xs) r.
  Proof.
    intros L C. unfold scalars_to_avx. cbv zeta. destruct (Nat.leb_spec (length xs) (32 / esize to)); [|lia].
    pose proof (converts_map R pad (w0 (esize to)) argument (32 / esize to) (concat xs) eq_refl HA) as Q.
    rewrite (concat_ones xs L) in Q. specialize (Q C).
    destruct (is_integer to) eqn:J; cbn [negb andb]; [eexists; split; [reflexivity|exact Q]|]. destruct (Nat.leb_spec (2 * length xs) (32 / esize to)); [|eexists; split; [reflexivity|exact Q]].
    eexists. split; [reflexivity|].
    set (es := map argument (concat xs) ++ repeat (w0 (esize to)) (32 / esize to - length xs)) in *.
    assert (LE : length es = (32 / esize to)%nat) by (unfold es; rewrite app_length, map_length, repeat_length, (concat_ones xs L); lia).
    assert (P0 : upper = pack (repeat (w0 (esize to)) (16 / esize to))) by (destruct to; reflexivity). unfold zeroExtend, cast256. rewrite P0.
    assert (L2 : (32 / esize to = 16 / esize to + 16 / esize to /\ length xs <= 16 / esize to)%nat) by (destruct to; try discriminate J; widths; lia).
    rewrite ylanes_pack2; [|rewrite firstn_length; lia|apply repeat_length].
    refine (eq_rect es (fun z => converts R pad (32 / esize to) 0 (concat xs) z) Q _ _).
    rewrite <- (firstn_skipn (16 / esize to) es) at 1. f_equal. unfold es.
    replace (32 / esize to - length xs)%nat with ((16 / esize to - length xs) + 16 / esize to)%nat by lia. rewrite repeat_app, app_assoc.
    rewrite skipn_app, skipn_all2; rewrite app_length, map_length, repeat_length, (concat_ones xs L); [|lia].
    replace (16 / esize to - (length xs + (16 / esize to - length xs)))%nat with 0%nat by lia. reflexivity.
  Qed.
  Lemma avx_few w m n : avx_widths_of avx2 from w = true -> avx_widths_of avx2 to m = true -> w <> 1%nat -> m <> 1%nat -> (n <> 0)%nat -> ((n - 1) * w < m)%nat ->
    n = 1%nat \/ w <> m /\ (n * w <= m)%nat.
  Proof.
    intros Nw Nm W1 M1 N0 H. destruct (Nat.eq_dec n 1) as [->|N1]; [now left|]. right. split; [nia|].
    destruct (proj2 (abuild_widths avx2 from) w Nw) as (i & ->). destruct (proj2 (abuild_widths avx2 to) m Nm) as (j & ->).
    destruct (Nat.le_gt_cases i j) as [I|I].
    - replace j with (i + (j - i))%nat in * by lia. rewrite Nat.pow_add_r in *. set (a := (2 ^ i)%nat) in *. set (b := (2 ^ (j - i))%nat) in *. assert (n - 1 < b)%nat by nia. nia.
    - exfalso. assert (2 ^ j < 2 ^ i)%nat by (apply Nat.pow_lt_mono_r; lia). nia.
  Qed.
  Lemma avx_many_ok w m xs : avx_widths_of avx2 from w = true -> avx_widths_of avx2 to m = true -> xs <> [] -> (forall x, In x xs -> length x = w) ->
    ((length xs - 1) * w < m)%nat -> exists r, avx_cast_many_with undef upper avx2 from to argument m xs = Some r /\ converts R pad m 0 (concat xs) r.
  Proof.
    intros Nw Nm X L C. pose proof (avx_width_pos _ _ _ Nw) as W0. unfold avx_cast_many_with. rewrite (hd_width w) by assumption. cbv zeta.
    assert (X0 : (1 <= length xs)%nat) by (destruct xs; [now destruct X|cbn; lia]).
    destruct (Nat.eqb_spec m 1) as [->|M1].
    - destruct xs as [|x [|x' xs]]; [now destruct X| |cbn [length] in C; nia]. eexists. split; [reflexivity|]. cbn [concat]. rewrite app_nil_r.
      apply (converts_one (A := elt from) _ _ (w0 (esize from)) 0); [rewrite (L x (or_introl eq_refl)); exact W0|apply HW, static_ok].
    - destruct (Nat.eqb_spec w 1) as [->|W1].
      + destruct (avx_width _ _ _ Nm) as [E'|[(E' & _ & I')|((E' & _ & I') & H')]]; [contradiction| |]; rewrite I'.
        * apply (sse_many_ok undef true from to argument R HW HA HZ ltac:(intros (D & _); discriminate D) 1 m xs eq_refl); auto. unfold sse_native. rewrite E', Nat.eqb_refl. apply orb_true_r.
        * rewrite E'. apply scalars_ok; [exact L|]. rewrite <- E'. lia.
      + pose proof (avx_few w m (length xs) Nw Nm W1 M1 ltac:(lia) C) as F.
        destruct (avx_width _ _ _ Nw) as [E|[(E & _ & I)|((E & _ & I) & H)]]; [contradiction| |]; rewrite I;
          (destruct (avx_width _ _ _ Nm) as [E'|[(E' & _ & I')|((E' & _ & I') & H')]]; [contradiction| |]); rewrite I'.
        * destruct (proj2 (proj2 C46_avx_sse_simd_cast_defined_main) from to xs X0) as (r & Hr); [destruct F as [F|(F & F')]; [now left|right]; rewrite <- E, <- E'; split; [congruence|exact F']|].
          rewrite Hr. eexists. split; [reflexivity|]. rewrite E'. destruct (proj2 (proj2 C46_avx_sse_simd_cast_main) from to xs r) as (A & B); [rewrite <- E; now apply in_forall|exact Hr|].
          apply (weak (cast_ok from to) R); [exact HW|]; now apply (converts_casted _ _ (w0 (esize to))).
        * destruct (proj1 C46_avx_sse_simd_cast_defined_main upper avx2 from to xs X0) as (r & Hr).
          { unfold has256 in H'. destruct avx2; [now left|right]. now destruct (is_integer to). }
          { destruct F as [F|(_ & F)]; [now left|right]. now rewrite <- E, <- E'. }
          rewrite Hr. eexists. split; [reflexivity|]. rewrite E'. destruct (proj1 C46_avx_sse_simd_cast_main upper avx2 from to xs r) as (A & B); [reflexivity|repeat constructor; lia|rewrite <- E; now apply in_forall|exact Hr|].
          apply (weak (cast_ok from to) R); [exact HW|]; apply (converts_casted _ _ (w0 (esize to))); [reflexivity|exact A|exact (B eq_refl)].
        * destruct (proj1 (proj2 C46_avx_sse_simd_cast_defined_main) upper avx2 from to xs X0) as (r & Hr).
          { unfold has256 in H. destruct avx2; [now left|right]. now destruct (is_integer from). }
          { destruct F as [F|(_ & F)]; [now left|right]. now rewrite <- E, <- E'. }
          rewrite Hr. eexists. split; [reflexivity|]. rewrite E'. destruct (proj1 (proj2 C46_avx_sse_simd_cast_main) upper avx2 from to xs r) as (A & B); [rewrite <- E; now apply in_forall|exact Hr|].
          apply (weak (cast_ok from to) R); [exact HW|]; now apply (converts_casted _ _ (w0 (esize to))).
        * destruct (C46_avx_simd_cast_defined_main upper avx2 from to xs X0) as (r & Hr).
          { unfold has256 in H, H'. destruct avx2; [now left|right]. now destruct (is_integer from), (is_integer to). }
          { destruct F as [F|(F & F')]; [now left|right]. rewrite <- E, <- E'. split; [congruence|exact F']. }
          rewrite Hr. eexists. split; [reflexivity|]. rewrite E'. destruct (C46_avx_simd_cast_main upper avx2 from to xs r) as (A & B); [rewrite <- E; now apply in_forall|exact Hr|].
          apply (weak (cast_ok from to) R); [exact HW|]; apply (converts_casted _ _ (w0 (esize to))); [reflexivity|exact A|exact (B eq_refl)].
  Qed.
  Lemma avx_offset_ok w m k x : avx_widths_of avx2 from w = true -> avx_widths_of avx2 to m = true -> length x = w -> (k * m < w)%nat ->
    exists r, avx_cast_offset undef upper avx2 from to argument m k x = Some r /\ converts R pad m (k * m) x r.
  Proof.
    intros Nw Nm L C. pose proof (avx_width_pos _ _ _ Nw) as W0. pose proof (avx_width_pos _ _ _ Nm) as M0. unfold avx_cast_offset. cbv zeta. rewrite L.
    destruct (Nat.eqb_spec m 1) as [->|M1].
    - eexists. split; [reflexivity|]. rewrite Nat.mul_1_r in *. apply (converts_one (A := elt from) _ _ (w0 (esize from))); [lia|apply HW, static_ok].
    - destruct (Nat.eqb_spec w 1) as [->|W1].
      + destruct (Nat.eqb_spec k 0) as [->|K0]; [|nia]. destruct x as [|a [|b x]]; try discriminate L. eexists. split; [reflexivity|].
        change (static_cast undef from to (first_entry [a]) :: repeat (w0 (esize to)) (m - 1)) with (map (static_cast undef from to) [a] ++ repeat (w0 (esize to)) (m - length [a])).
        apply converts_map; [reflexivity|intros; apply HW, static_ok|exact M0].
      + destruct (Nat.eqb_spec k 0) as [->|K0].
        { destruct (avx_many_ok w m [x] Nw Nm) as (r & Hr & Q); [discriminate|intros y [<-|[]]; exact L|cbn; lia|]. exists r. split; [exact Hr|]. cbn [concat] in Q. now rewrite app_nil_r in Q. }
        assert (KM : (k * m + m <= w)%nat).
        { destruct (proj2 (abuild_widths avx2 from) w Nw) as (i & ->). destruct (proj2 (abuild_widths avx2 to) m Nm) as (j & ->).
          destruct (Nat.le_gt_cases j i) as [I|I].
          - replace i with (j + (i - j))%nat in * by lia. rewrite Nat.pow_add_r in *. set (a := (2 ^ j)%nat) in *. set (b := (2 ^ (i - j))%nat) in *. assert (k < b)%nat by nia. nia.
          - exfalso. assert (2 ^ i < 2 ^ j)%nat by (apply Nat.pow_lt_mono_r; lia). nia. }
        destruct (avx_width _ _ _ Nw) as [E|[(E & _ & I)|((E & _ & I) & H)]]; [contradiction| |]; rewrite I;
          (destruct (avx_width _ _ _ Nm) as [E'|[(E' & _ & I')|((E' & _ & I') & H')]]; [contradiction| |]); rewrite I'.
        * assert (Q := sse_offset_ok undef true from to argument R HW HA HZ ltac:(intros (D & _); discriminate D) w m k x). 
          unfold sse_cast_offset in Q. rewrite L in Q. destruct (Nat.eqb_spec m 1); [contradiction|]. destruct (Nat.eqb_spec w 1); [contradiction|].
          apply Q; auto; unfold sse_native; rewrite ?E, ?E', Nat.eqb_refl; apply orb_true_r.
        * assert (D : exists r, xycast_offset upper avx2 from to k (pack x) = Some r).
          { rewrite E, E' in *. destruct from, to; widths; try lia; assert (k = 1%nat) by lia; subst k; eexists; reflexivity. }
          destruct D as (r & Hr). rewrite Hr. eexists. split; [reflexivity|]. apply (weak (cast_ok from to) R); [exact HW|]; apply converts_offset; [lia|].
          pose proof (proj2 (proj2 C46_avx_simd_cast_offset_main) upper avx2 from to k x r ltac:(lia) Hr) as Q. now rewrite <- E' in Q.
        * assert (D : exists r, yxcast_offset avx2 from to k (ypack x) = Some r).
          { unfold yxcast_offset. cbv zeta. rewrite H. destruct (Nat.ltb_spec 0 (esize from * k * (16 / esize to))); [destruct (Nat.ltb_spec (esize from * k * (16 / esize to)) 32)|].
            - cbn [andb]. destruct (_ =? 16)%nat; eexists; reflexivity.
            - exfalso. subst w m. destruct from, to; widths; lia.
            - exfalso. subst w m. destruct from, to; widths; lia. }
          destruct D as (r & Hr). rewrite Hr. eexists. split; [reflexivity|]. apply (weak (cast_ok from to) R); [exact HW|]; apply converts_offset; [lia|].
          pose proof (proj1 (proj2 C46_avx_simd_cast_offset_main) avx2 from to k x r ltac:(lia) Hr) as Q. now rewrite <- E' in Q.
        * assert (D : exists r, ycast_offset upper avx2 from to k (ypack x) = Some r).
          { unfold ycast_offset. cbv zeta. destruct (Nat.ltb_spec 0 (esize from * k * (32 / esize to))); [destruct (Nat.ltb_spec (esize from * k * (32 / esize to)) 32)|].
            - cbn [andb]. assert (Y : forall v, exists r, ycast upper avx2 from to [v] = Some r) by (intros v; unfold ycast; rewrite H, H'; eexists; reflexivity).
              destruct (_ <? 16)%nat; [apply Y|]. destruct (_ =? 16)%nat; apply Y.
            - exfalso. subst w m. destruct from, to; widths; lia.
            - exfalso. subst w m. destruct from, to; widths; lia. }
          destruct D as (r & Hr). rewrite Hr. eexists. split; [reflexivity|]. apply (weak (cast_ok from to) R); [exact HW|]; apply converts_offset; [lia|].
          pose proof (proj1 C46_avx_simd_cast_offset_main upper avx2 from to k x r ltac:(lia) Hr) as Q. now rewrite <- E' in Q.
  Qed.
  Lemma avx_casts_with_ok : native_casts_ok (avx_widths_of avx2 from) (avx_widths_of avx2 to) (w0 (esize from)) (w0 (esize to)) R pad (avx_casts_with undef upper avx2 from to argument).
  Proof.
    constructor; cbn [avx_casts_with c_many c_offset c_entry c_same].
    - apply avx_many_ok. - apply avx_offset_ok. - intros; apply HW, static_ok. - intros H n. now rewrite (same_types from to H). - reflexivity. - apply HZ.
  Qed.
End Avx.

Lemma sse_casts_ok undef sse41 from to : ~ (sse41 = false /\ from = Double /\ to = UInt) ->
  native_casts_ok (sse_native (esize from)) (sse_native (esize to)) (w0 (esize from)) (w0 (esize to)) (array_cast_entry from to) (fun y => y = w0 (esize to)) (sse_casts undef sse41 from to).
Proof. intros ND. apply sse_casts_with_ok; auto. - apply entry_weak. - apply argument_ok. - apply entry_zero. Qed.
Lemma avx_casts_ok undef avx2 from to :
  native_casts_ok (avx_widths_of avx2 from) (avx_widths_of avx2 to) (w0 (esize from)) (w0 (esize to)) (array_cast_entry from to) (fun y => y = w0 (esize to)) (avx_casts undef (repeat 0 16) avx2 from to).
Proof. apply avx_casts_with_ok. - apply entry_weak. - apply argument_ok. - apply entry_zero. Qed.
Lemma sse_static_ok undef sse41 from to : ~ (sse41 = false /\ from = Double /\ to = UInt) ->
  native_casts_ok (sse_native (esize from)) (sse_native (esize to)) (w0 (esize from)) (w0 (esize to)) (cast_ok from to) (fun y => y = w0 (esize to)) (sse_casts_with undef sse41 from to (static_cast undef from to)).
Proof. intros ND. apply sse_casts_with_ok; auto. - intros; apply static_ok. - apply cast_zero. Qed.
Lemma avx_static_ok undef avx2 from to :
  native_casts_ok (avx_widths_of avx2 from) (avx_widths_of avx2 to) (w0 (esize from)) (w0 (esize to)) (cast_ok from to) (fun y => y = w0 (esize to)) (avx_casts_with undef (repeat 0 16) avx2 from to (static_cast undef from to)).
Proof. apply avx_casts_with_ok; auto. - intros; apply static_ok. - apply cast_zero. Qed.

(** * sizes *)
Lemma sse_sizes from to m : sse_native (esize to) m = true ->
  sse_native (esize from) m = true \/ (exists w, m = (2 * w)%nat /\ sse_native (esize from) w = true) \/ (exists w, m = (4 * w)%nat /\ sse_native (esize from) w = true).
Proof.
  intros H. destruct (sse_width to m H) as [->|(-> & _)]; [now left|].
  destruct from, to; (now left) || (right; left; now exists 1%nat) || (right; left; now exists 2%nat) || (right; left; now exists 4%nat) || (right; right; now exists 1%nat) || (right; right; now exists 2%nat).
Qed.
Lemma avx_sizes avx2 from to m : avx_widths_of avx2 to m = true ->
  avx_widths_of avx2 from m = true \/ (exists w, m = (2 * w)%nat /\ avx_widths_of avx2 from w = true) \/ (exists w, m = (4 * w)%nat /\ avx_widths_of avx2 from w = true).
Proof.
  intros H. destruct (avx_width avx2 to m H) as [->|[(-> & _)|((-> & _) & H')]]; [left; unfold avx_widths_of; now destruct (has256 avx2 from)| |];
  destruct avx2, from, to; try discriminate H'; (now left) || (right; left; now exists 1%nat) || (right; left; now exists 2%nat) || (right; left; now exists 4%nat) || (right; left; now exists 8%nat) || (right; right; now exists 1%nat) || (right; right; now exists 2%nat) || (right; right; now exists 4%nat).
Qed.
Lemma whole_part {A B} (R : A -> B -> Prop) pad n xs ys : length xs = n -> converts R pad n 0 xs ys -> Forall2 R xs ys.
Proof.
  intros L H. unfold converts in H. rewrite part_firstn in H by lia. cbn [skipn] in H. rewrite firstn_all2 in H by lia. remember (map Some xs) as zs eqn:E. revert xs E L.
  clear - H. revert n. induction H as [|z y zs ys H _ IH]; intros n [|x xs] E L; try discriminate E; [constructor|]. injection E as -> ->. constructor; [exact H|]. now apply (IH (length xs)).
Qed.
Lemma int_round_trip from to (a : elt from) (b : elt to) (c : elt from) : is_integer from = true -> is_integer to = true -> (esize from <= esize to)%nat ->
  cast_ok from to a b -> cast_ok to from b c -> c = a.
Proof.
  intros I J S H1 H2.
  assert (H1' : (int_value to b - int_value from a) mod modulus (esize to) = 0) by (unfold cast_ok in H1; rewrite I, J in H1; exact H1).
  assert (H2' : (int_value from c - int_value to b) mod modulus (esize from) = 0) by (unfold cast_ok in H2; rewrite I, J in H2; exact H2).
  clear H1 H2. pose proof (modulus_pos (esize from)) as P1. pose proof (modulus_pos (esize to)) as P2.
  assert (D : exists q, modulus (esize to) = q * modulus (esize from)).
  { exists (2 ^ (8 * Z.of_nat (esize to - esize from))). unfold modulus, bits. rewrite <- Z.pow_add_r by lia. f_equal. lia. }
  destruct D as (q & D). apply Z.div_exact in H1'; [|lia]. apply Z.div_exact in H2'; [|lia].
  set (u := (int_value to b - int_value from a) / modulus (esize to)) in *. set (v := (int_value from c - int_value to b) / modulus (esize from)) in *.
  assert (E : int_value from c = int_value from a + (v + u * q) * modulus (esize from)) by nia.
  assert (V : forall x : elt from, int_value from x mod modulus (esize from) = uval x) by (intros x; unfold int_value; destruct (is_signed from); [apply sval_mod|apply Z.mod_small, uval_range]).
  apply word_ext. rewrite <- (V c), <- (V a), E. apply Z.mod_add. lia.
Qed.

(** * The conversion operator agrees with the constructor, and both never combine Scalar vectors into an ushort_v *)
Section Same.
  Context {A B : Type} (native_from native_to : nat -> bool) (moves : native_ops A) (ops ops' : cast_ops A B) (zeroA : A) (zeroB : B).
  Hypothesis Wf : widths_ok native_from.
  Hypothesis Wt : widths_ok native_to.
  Hypothesis D : forall m, native_to m = true -> native_from m = true \/ (exists w, m = (2 * w)%nat /\ native_from w = true) \/ (exists w, m = (4 * w)%nat /\ native_from w = true).

  Lemma segment_ext : (forall m k x, c_offset ops m k x = c_offset ops' m k x) -> forall fuel m k x, from_segment native_to ops fuel m k x = from_segment native_to ops' fuel m k x.
  Proof. intros H. induction fuel as [|fuel IH]; intros m k x; [reflexivity|]. cbn [from_segment]. now rewrite H, !IH. Qed.
  Lemma construct_ext : (forall m k x, c_offset ops m k x = c_offset ops' m k x) ->
    (forall m w xs, native_to m = true -> native_from w = true -> xs <> [] -> (forall x, In x xs -> length x = w) -> m = (length xs * w)%nat -> (length xs <= 4)%nat -> c_many ops m xs = c_many ops' m xs) ->
    forall fuel m x, wf native_from m x -> construct native_to ops fuel m x = construct native_to ops' fuel m x.
  Proof.
    intros HO HM. induction fuel as [|fuel IH]; intros m x W; [reflexivity|]. cbn [construct]. destruct (wf_size native_from Wf m x W) as (_ & _ & M1). destruct (native_to m) eqn:Nm.
    - destruct x as [l|[a|a1 a2] [b|b1 b2]]; try reflexivity.
      + apply leaf_wf in W as (N0 & L0). f_equal. apply (HM m m _ Nm); [exact N0|discriminate|intros y [<-|[]]; exact L0|cbn [length]; lia|cbn; lia].
      + apply node_wf in W as (N0 & Wl & Wh). apply leaf_wf in Wl as (Na & La), Wh as (Nb & Lb). pose proof (not_native_ge2 native_from Wf m M1 N0) as M2. destruct (pow2_half m M2 (native_pow2 _ Wt m Nm)) as (E & E' & _).
        f_equal. apply (HM m (left_size m) _ Nm); [exact Na|discriminate|intros y [<-|[<-|[]]]; congruence|cbn [length]; lia|cbn; lia].
      + destruct a1 as [a1|], a2 as [a2|]; try reflexivity. destruct b1 as [b1|]; try reflexivity. destruct b2 as [b2|]; try reflexivity.
        apply node_wf in W as (N0 & Wl & Wh). apply node_wf in Wl as (Na & Wa & Wb), Wh as (Nb & Wc & Wd). apply leaf_wf in Wa as (Na1 & La1), Wb as (Na2 & La2), Wc as (Nb1 & Lb1), Wd as (Nb2 & Lb2).
        pose proof (not_native_ge2 native_from Wf m M1 N0) as M2. destruct (pow2_half m M2 (native_pow2 _ Wt m Nm)) as (E & E' & P). rewrite <- E in *. pose proof (left_size_pos m M2) as LP.
        pose proof (not_native_ge2 native_from Wf _ LP Na) as M4. destruct (pow2_half _ M4 P) as (Q & Q' & _).
        f_equal. apply (HM m (left_size (left_size m)) _ Nm); [exact Na1|discriminate|intros y [<-|[<-|[<-|[<-|[]]]]]; congruence|cbn [length]; lia|cbn; lia].
    - destruct x as [l|l h]; [now rewrite !(segment_ext HO)|]. apply node_wf in W as (N0 & Wl & Wh). now rewrite (IH _ l), (IH _ h).
  Qed.

  Lemma to_native_converted m x : native_to m = true -> wf native_from m x -> to_native native_from native_to moves ops zeroA zeroB m x = converted native_to ops m x.
  Proof.
    intros Nm W. destruct (wf_size native_from Wf m x W) as (_ & _ & M1). unfold converted. cbn [construct]. rewrite Nm. destruct x as [l|l h]; [reflexivity|]. cbn [to_native].
    apply node_wf in W as (N0 & Wl & Wh). pose proof (not_native_ge2 native_from Wf m M1 N0) as M2. destruct (pow2_half m M2 (native_pow2 _ Wt m Nm)) as (E & E' & P). rewrite <- E in *. pose proof (left_size_pos m M2) as LP.
    assert (F : exists f, cast_fuel (ToVector m) [l; h] = S (S (S f))).
    { exists (10 * (size l + (size h + 0) + m) + 7)%nat. unfold cast_fuel. cbn [fold_right target_size]. lia. }
    destruct F as (f & F). unfold array_cast. rewrite F.
    destruct (native_from (left_size m)) eqn:N2.
    - destruct l as [a|]; [apply leaf_wf in Wl as (Na & La)|apply node_wf in Wl as (? & _); congruence]. destruct h as [b|]; [apply leaf_wf in Wh as (Nb & Lb)|apply node_wf in Wh as (? & _); congruence].
      cbn [cast_many size_of_first length target_size size Nat.eqb orb map leaf_of to_list]. rewrite !andb_false_r. rewrite La. change (2 - 1)%nat with 1%nat. rewrite Nat.mul_1_r.
      destruct (Nat.ltb_spec (left_size m) m); [reflexivity|lia].
    - pose proof (not_native_ge2 native_from Wf _ LP N2) as M4. destruct (pow2_half _ M4 P) as (Q & Q' & P'). pose proof (left_size_pos _ M4) as LP4.
      assert (N4 : native_from (left_size (left_size m)) = true).
      { destruct (D m Nm) as [K|[(w & K & Kw)|(w & K & Kw)]]; [congruence| |].
        - assert (w = left_size m) by lia. subst w. congruence.
        - assert (w = left_size (left_size m)) by lia. now subst w. }
      pose proof (wf_sz native_from Wf _ _ Wl) as Sl.
      destruct l as [|a b]; [apply leaf_wf in Wl as (? & _); congruence|apply node_wf in Wl as (Na & Wa & Wb)]. destruct h as [|c d]; [apply leaf_wf in Wh as (? & _); congruence|apply node_wf in Wh as (Nc & Wc & Wd)]. rewrite <- Q in *.
      destruct a as [a'|]; [apply leaf_wf in Wa as (Na' & La)|apply node_wf in Wa as (? & _); congruence]. destruct b as [b'|]; [apply leaf_wf in Wb as (Nb' & Lb)|apply node_wf in Wb as (? & _); congruence]. destruct c as [c'|]; [apply leaf_wf in Wc as (Nc' & Lc)|apply node_wf in Wc as (? & _); congruence]. destruct d as [d'|]; [apply leaf_wf in Wd as (Nd' & Ld)|apply node_wf in Wd as (? & _); congruence].
      cbn [cast_many size_of_first length target_size Nat.eqb andb]. rewrite !andb_false_r. rewrite Sl. rewrite (proj2 (power_of_2_ok (left_size m) LP)) by exact P. cbv zeta.
      change (2 - 1)%nat with 1%nat. rewrite Nat.mul_1_r. destruct (Nat.ltb_spec (left_size m) m); [|lia]. cbn [interleaved_halves fold_right].
      cbn [cast_many size_of_first length target_size Nat.eqb orb map leaf_of to_list size andb]. rewrite !andb_false_r. rewrite La. change (4 - 1)%nat with 3%nat. destruct (Nat.ltb_spec (left_size (left_size m) * 3) m); [|lia]. reflexivity.
  Qed.
End Same.

Lemma argument_static undef from to (x : elt from) : ~ (is_integer from = false /\ to = UShort) -> setr_argument undef from to x = static_cast undef from to x.
Proof. intros H. destruct to; try reflexivity. destruct from; try reflexivity; exfalso; apply H; auto. Qed.
Lemma sse_construct_static undef sse41 from to n x : wf (sse_native (esize from)) n x ->
  converted (sse_native (esize to)) (sse_casts undef sse41 from to) n x = converted (sse_native (esize to)) (sse_casts_with undef sse41 from to (static_cast undef from to)) n x.
Proof.
  intros W. apply (construct_ext (sse_native (esize from))); [apply build_widths|apply build_widths|reflexivity| |exact W].
  intros m w xs Nm Nw X L M4 L4. cbn [sse_casts sse_casts_with c_many]. unfold sse_cast_many_with. destruct (Nat.eqb_spec m 1) as [|M1]; [reflexivity|].
  rewrite (hd_width w) by assumption. destruct (Nat.eqb_spec w 1) as [->|]; [|reflexivity]. destruct (Nat.leb (length xs) m); [|reflexivity]. do 2 f_equal. apply map_ext. intros a. apply argument_static. intros (_ & ->).
  destruct (sse_width UShort m Nm) as [|(E & _)]; [contradiction|]. change (16 / esize UShort)%nat with 8%nat in E. lia.
Qed.
Lemma avx_construct_static undef avx2 from to n x : wf (avx_widths_of avx2 from) n x ->
  converted (avx_widths_of avx2 to) (avx_casts undef (repeat 0 16) avx2 from to) n x = converted (avx_widths_of avx2 to) (avx_casts_with undef (repeat 0 16) avx2 from to (static_cast undef from to)) n x.
Proof.
  intros W.
  assert (Q : forall m w xs, avx_widths_of avx2 to m = true -> avx_widths_of avx2 from w = true -> xs <> [] -> (forall x, In x xs -> length x = w) -> m = (length xs * w)%nat -> (length xs <= 4)%nat ->
    avx_cast_many_with undef (repeat 0 16) avx2 from to (setr_argument undef from to) m xs = avx_cast_many_with undef (repeat 0 16) avx2 from to (static_cast undef from to) m xs).
  { intros m w xs Nm Nw X L M4 L4. unfold avx_cast_many_with. destruct (Nat.eqb_spec m 1) as [|M1]; [reflexivity|].
    rewrite (hd_width w) by assumption. cbv zeta. destruct (Nat.eqb_spec w 1) as [->|]; [|reflexivity].
    assert (E : map (setr_argument undef from to) (concat xs) = map (static_cast undef from to) (concat xs)).
    { apply map_ext. intros a. apply argument_static. intros (_ & ->). destruct (avx_width _ _ _ Nm) as [|[(E & _)|((E & _) & _)]]; [contradiction| |];
        change (16 / esize UShort)%nat with 8%nat in E; change (32 / esize UShort)%nat with 16%nat in E; lia. }
    unfold scalars_to_avx, sse_cast_many_with. rewrite E. reflexivity. }
  apply (construct_ext (avx_widths_of avx2 from)); [apply abuild_widths|apply abuild_widths| |exact Q|exact W].
  intros m k y. cbn [avx_casts avx_casts_with c_offset]. unfold avx_cast_offset. cbv zeta. destruct (Nat.eqb_spec m 1); [reflexivity|]. destruct (Nat.eqb_spec (length y) 1) as [|Y1]; [reflexivity|]. destruct (Nat.eqb_spec k 0); [|reflexivity].
  unfold avx_cast_many_with. cbn [hd]. destruct (Nat.eqb_spec (length y) 1); [contradiction|]. reflexivity.
Qed.
