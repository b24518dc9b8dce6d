(** Floating-point programs in every build: lemmas. *)
From Coq Require Import ZArith List Bool Lia.
From Verif.Spec Require Import Seq CastSpec FloatSpec MaskSpec VectorSpec NativeSpec PortableSpec PortableFpSpec.
From Verif.Model Require Import SplitSize Word Fp FpArith SseReg SseMove SortNet SseInt SseBuild SseArith SseMask SseNative SimdArray SimdArrayOps Mem
  AvxReg AvxMove AvxBuild AvxShuffle AvxMask AvxArith ScalarVec MaskedDiv ScalarMath SseMath AvxMath Transcend Roots Program Portable PortableFp.
From Verif.Proof Require Import WordP FpP SeqP SimdArrayP SimdArrayOpsP SimdArrayMain ScalarVecP SseIntP SseArithP SseFloatRedP SseVecMain AvxMaskP AvxArithP
  AvxVecMain MaskedDivMain SseBuildP AvxBuildP PortableP PortableOpsP.
From Verif.Proof Require MathP AvxMathP MathMain ScalarMathMain.
Import ListNotations.
Local Open Scope Z_scope.

(** * Entries *)
Section Entry.
  Context {w : nat} (Hw : fp_width w).
  Lemma lt_val (a b : word w) : ordered a b = true -> flt a b = (fvalue a <? fvalue b).
  Proof using Hw. intros O. rewrite (flt_ok Hw). unfold float_lt. now rewrite O. Qed.
  Lemma ordered_sym (a b : word w) : ordered a b = ordered b a.
  Proof using. unfold ordered. apply andb_comm. Qed.
  Lemma two_zeros_eq (a b : word w) : two_zeros a b = false -> fvalue a = fvalue b -> a = b.
  Proof using.
    unfold two_zeros. intros T E. rewrite E, Z.eqb_refl in T. cbn in T. apply negb_false_iff, Z.eqb_eq in T. now apply word_ext.
  Qed.
  (** the operation of the entries of SSE and AVX vectors *)
  Definition flane (op : arith_op) (a b : word w) : word w :=
    match op with OAdd => fadd a b | OSub => fsub a b | OMul => fmul a b | ODiv => fdiv a b | OMin => mm_fmin a b | OMax => mm_fmax a b | _ => a end.
  Lemma f_smin (a b r : word w) : f_arith OMin a b = Some r -> r = smaller a b /\ (if flt b a then b else a) = r /\ mm_fmin a b = r.
  Proof using Hw.
    cbn [f_arith]. destruct (ordered a b) eqn:O; cbn [andb]; [|discriminate]. destruct (two_zeros a b) eqn:T; cbn [negb]; [discriminate|]. intros [= <-]. split; [reflexivity|].
    unfold smaller, mm_fmin. rewrite !lt_val by (auto; now rewrite ordered_sym). split; [reflexivity|].
    destruct (Z.ltb_spec (fvalue a) (fvalue b)), (Z.ltb_spec (fvalue b) (fvalue a)); try reflexivity; try lia. symmetry. apply two_zeros_eq; auto. lia.
  Qed.
  Lemma f_smax (a b r : word w) : f_arith OMax a b = Some r -> r = larger a b /\ (if flt a b then b else a) = r /\ mm_fmax a b = r.
  Proof using Hw.
    cbn [f_arith]. destruct (ordered a b) eqn:O; cbn [andb]; [|discriminate]. destruct (two_zeros a b) eqn:T; cbn [negb]; [discriminate|]. intros [= <-]. split; [reflexivity|].
    unfold larger, mm_fmax. rewrite !lt_val by (auto; now rewrite ordered_sym). split; [reflexivity|].
    destruct (Z.ltb_spec (fvalue a) (fvalue b)), (Z.ltb_spec (fvalue b) (fvalue a)); try reflexivity; try lia. symmetry. apply two_zeros_eq; auto. lia.
  Qed.
  Lemma one_nan_of (a b r s : word w) : one_nan a b s = Some r -> s = r.
  Proof using. unfold one_nan. destruct (_ && _); [discriminate|]. now intros [= <-]. Qed.
  Lemma f_lane op (a b r : word w) : f_arith op a b = Some r -> flane op a b = r.
  Proof using Hw. intros H. destruct op; cbn [flane]; try discriminate H; try exact (one_nan_of a b r _ H); [exact (proj2 (proj2 (f_smin _ _ _ H)))|exact (proj2 (proj2 (f_smax _ _ _ H)))]. Qed.
  Lemma f_scalar op (a b r : word w) : f_arith op a b = Some r -> s_farith op a b = Some r.
  Proof using Hw.
    intros H. destruct op; cbn [s_farith]; try discriminate H; try (f_equal; exact (one_nan_of a b r _ H)); f_equal; [exact (proj1 (proj2 (f_smin _ _ _ H)))|exact (proj1 (proj2 (f_smax _ _ _ H)))].
  Qed.
  Lemma negate_xor (a : word w) : wxor a (mkw w (sign_weight w)) = f_negate a.
  Proof using Hw.
    apply word_ext. pose proof (uval_range a) as R. rewrite (wxor_sign w a Hw). unfold f_negate. rewrite uval_mkw, (sign_bit_neg Hw).
    assert (S : 2 ^ (frac_bits w + expo_bits w) = sign_weight w) by (destruct Hw as [-> | ->]; reflexivity). rewrite S.
    symmetry. apply Z.mod_small. assert (M : modulus w = 2 * sign_weight w) by (destruct Hw as [-> | ->]; reflexivity). unfold negative.
    destruct (Z.leb_spec (sign_weight w) (uval a)); lia.
  Qed.
  Lemma negate_scalar (a : word w) : fneg a = f_negate a.
  Proof using Hw.
    apply word_ext. pose proof (uval_range a) as R. unfold fneg, f_negate, with_sign. rewrite !uval_mkw, (sign_bit_neg Hw). f_equal.
    assert (S : 2 ^ (frac_bits w + expo_bits w) = sign_weight w) by (destruct Hw as [-> | ->]; reflexivity). rewrite S.
    assert (M : modulus w = 2 * sign_weight w) by (destruct Hw as [-> | ->]; reflexivity). unfold magnitude, negative.
    assert (P : 0 < sign_weight w) by (destruct Hw as [-> | ->]; reflexivity). destruct (Z.leb_spec (sign_weight w) (uval a)); cbn [negb].
    - replace (uval a) with (uval a - sign_weight w + 1 * sign_weight w) at 1 by lia. rewrite Z.mod_add, Z.mod_small by lia. lia.
    - rewrite Z.mod_small by lia. lia.
  Qed.
End Entry.

(** * Leaves *)
Section Leaf.
  Context (b : build) (e : etype) (F : is_integer e = false).
  Let Hw : fp_width (esize e) := float_fp e F.
  Lemma fsse op (xs ys : list (elt e)) zs : length xs = (16 / esize e)%nat -> length ys = (16 / esize e)%nat -> all_defined (map2 (f_arith op) xs ys) = Some zs ->
    option_map (lanes (esize e)) (v_farith e op (pack xs) (pack ys)) = Some zs.
  Proof using F.
    intros L L' D. pose proof (ad_map2 _ _ (f_lane Hw op) _ _ _ D) as E.
    assert (P : (16 / esize e > 0)%nat) by (destruct e; cbn; lia). destruct xs as [|x xs]; [cbn in L; lia|]. destruct ys as [|y ys]; [cbn in L'; lia|].
    assert (LM : length (map2 (flane op) (x :: xs) (y :: ys)) = (16 / esize e)%nat) by (rewrite SeqP.map2_length; unfold elt in *; lia).
    assert (G : v_farith e op (pack (x :: xs)) (pack (y :: ys)) = Some (pack (map2 (flane op) (x :: xs) (y :: ys)))).
    { destruct op; try (cbn in D; discriminate D); cbn [v_farith]; f_equal; try (apply lift2_pack; assumption).
      - rewrite v_min_pack by assumption. f_equal. apply map2_ext. intros. now destruct e.
      - rewrite v_max_pack by assumption. f_equal. apply map2_ext. intros. now destruct e. }
    rewrite G. cbn [option_map]. rewrite lanes_pack by assumption. now f_equal.
  Qed.
  Lemma favx op (xs ys : list (elt e)) zs : length xs = (32 / esize e)%nat -> length ys = (32 / esize e)%nat -> all_defined (map2 (f_arith op) xs ys) = Some zs ->
    option_map (ylanes (esize e)) (y_farith e op (ypack xs) (ypack ys)) = Some zs.
  Proof using F.
    intros L L' D. pose proof (ad_map2 _ _ (f_lane Hw op) _ _ _ D) as E.
    assert (P : (32 / esize e > 0)%nat) by (destruct e; cbn; lia). destruct xs as [|x xs]; [cbn in L; lia|]. destruct ys as [|y ys]; [cbn in L'; lia|].
    assert (LM : length (map2 (flane op) (x :: xs) (y :: ys)) = (32 / esize e)%nat) by (rewrite SeqP.map2_length; unfold elt in *; lia).
    assert (Y : forall f : word (esize e) -> word (esize e) -> word (esize e), ymap2 (lift2 (esize e) f) (ypack (x :: xs)) (ypack (y :: ys)) = ypack (map2 f (x :: xs) (y :: ys)))
      by (intros f; apply (ymap2_pack (esize_ok e)); [reflexivity|intros l l' Hl Hl'; now apply lift2_pack|exact L|exact L']).
    assert (G : y_farith e op (ypack (x :: xs)) (ypack (y :: ys)) = Some (ypack (map2 (flane op) (x :: xs) (y :: ys)))).
    { destruct op; try (cbn in D; discriminate D); cbn [y_farith]; f_equal; try apply Y.
      - refine (eq_trans (y_min_ok e (x :: xs) (y :: ys) L L') _). f_equal. apply map2_ext. intros. now destruct e.
      - refine (eq_trans (y_max_ok e (x :: xs) (y :: ys) L L') _). f_equal. apply map2_ext. intros. now destruct e. }
    rewrite G. cbn [option_map]. rewrite ylanes_ypack by (assumption || apply esize_ok). now f_equal.
  Qed.
  Lemma leaf_farith_ok op xs ys zs : b_native b e (length xs) = true -> length ys = length xs -> all_defined (map2 (f_arith op) xs ys) = Some zs -> leaf_farith b e op xs ys = Some zs.
  Proof using F.
    intros N L D. unfold leaf_farith. apply by_width_ind; auto; intros L1.
    - eapply ad_sequence2; [|exact D]. intros. now apply (f_scalar Hw).
    - apply fsse; [exact L1|exact (eq_trans L L1)|exact D].
    - apply favx; [exact L1|exact (eq_trans L L1)|exact D].
  Qed.
  Lemma leaf_fnegate_ok xs zs : b_native b e (length xs) = true -> all_defined (map (fun x => Some (f_negate x)) xs) = Some zs -> leaf_fnegate b e xs = Some zs.
  Proof using F.
    intros N D. rewrite ad_some in D. injection D as <-. unfold leaf_fnegate.
    assert (X : forall l : list (elt e), length l = (16 / esize e)%nat -> mm_xor (pack l) (set1 (esize e) (sign_weight (esize e))) = pack (map f_negate l)).
    { intros l Hl. rewrite set1_pack, xor_pack by (rewrite repeat_length; exact Hl). f_equal. rewrite <- Hl. clear -Hw. induction l as [|x l IH]; cbn; [reflexivity|]. f_equal; [apply (negate_xor Hw)|exact IH]. }
    apply by_width_ind; auto; intros L1.
    - f_equal. apply map_ext. intros. apply (negate_scalar Hw).
    - replace (v_neg (b_has_ssse3 b) e (pack xs)) with (pack (map f_negate xs)) by (rewrite <- X by exact L1; unfold v_neg; now destruct e). rewrite lanes_pack by (rewrite map_length; exact L1). reflexivity.
    - replace (y_neg e (ypack xs)) with (ypack (map f_negate xs)). { rewrite ylanes_ypack by (apply esize_ok || (rewrite map_length; exact L1)). reflexivity. }
      rewrite <- (ymap1_pack (esize_ok e) (fun r => mm_xor r (set1 (esize e) (sign_weight (esize e)))) f_negate xs X L1). unfold y_neg. now destruct e.
  Qed.
  Lemma fabs_spec (x : word (esize e)) : with_sign (esize e) false (magnitude x) = mkw (esize e) (uval x mod 2 ^ (frac_bits (esize e) + expo_bits (esize e))).
  Proof using F. unfold with_sign, magnitude. replace (2 ^ (frac_bits (esize e) + expo_bits (esize e))) with (sign_weight (esize e)) by (destruct Hw as [E|E]; rewrite E; reflexivity). reflexivity. Qed.
  Lemma leaf_funary_ok op xs zs : b_native b e (length xs) = true -> all_defined (map (f_unary op) xs) = Some zs -> leaf_funary b e op xs = Some zs.
  Proof using F.
    intros N D. destruct op; cbn [leaf_funary].
    - exfalso. assert (P : (1 <= length xs)%nat) by (pose proof (leaf_pos b e _ N); lia).
      destruct xs; [cbn in P; lia|]. discriminate D.
    - assert (E : map (fun x => with_sign (esize e) false (magnitude x)) xs = zs) by (eapply ad_map; [|exact D]; intros a r [= <-]; apply fabs_spec).
      apply by_width_ind; auto; intros L1.
      + f_equal. exact E.
      + rewrite (MathP.fabs_pack (esize e) xs Hw L1), lanes_pack by (rewrite map_length; exact L1). now f_equal.
      + rewrite (AvxMathP.y_fabs_ok Hw xs L1), ylanes_ypack by (apply esize_ok || (rewrite map_length; exact L1)). now f_equal.
    - assert (E : map (fun x : elt e => fsqrt x) xs = zs) by (eapply ad_map; [|exact D]; now intros a r [= <-]).
      apply by_width_ind; auto; intros L1.
      + f_equal. exact E.
      + unfold v_sqrt. rewrite lift1_pack, lanes_pack by (rewrite ?map_length; exact L1). now f_equal.
      + unfold y_sqrt. rewrite (ymap1_pack (w := esize e) (esize_ok e) _ (fun x => fsqrt x) xs) by (exact L1 || (intros; now apply lift1_pack)). rewrite ylanes_ypack by (apply esize_ok || (rewrite map_length; exact L1)). now f_equal.
  Qed.
  (** the comparisons of vectors: > and >= differ with NaN *)
  Lemma cmp_ordered op g (xs ys : list (elt e)) zs : all_defined (map2 (f_compare op) xs ys) = Some zs ->
    (forall x y r, f_compare op x y = Some r -> g x y = r) -> map2 g xs ys = zs.
  Proof using. intros D G. exact (ad_map2 _ _ G _ _ _ D). Qed.
  Lemma fge_val (x y : elt e) r : f_compare OGe x y = Some r -> negb (float_lt x y) = r /\ float_le y x = r.
  Proof using.
    cbn [f_compare]. destruct (ordered x y) eqn:O; [|discriminate]. intros [= <-]. unfold float_lt, float_le. rewrite O, ordered_sym, O. cbn [andb]. split; [|reflexivity]. now rewrite Z.leb_antisym.
  Qed.
  Lemma fgt_val (x y : elt e) r : f_compare OGt x y = Some r -> negb (float_le x y) = r /\ float_lt y x = r.
  Proof using.
    cbn [f_compare]. destruct (ordered x y) eqn:O; [|discriminate]. intros [= <-]. unfold float_lt, float_le. rewrite O, ordered_sym, O. cbn [andb]. split; [|reflexivity]. now rewrite Z.leb_antisym, negb_involutive.
  Qed.
  Lemma copysign_spec (x y : word (esize e)) : with_sign (esize e) (negative y) (magnitude x) = f_copysign x y.
  Proof using F.
    unfold f_copysign. rewrite (FpP.sign_bit_neg Hw). unfold with_sign, magnitude. replace (2 ^ (frac_bits (esize e) + expo_bits (esize e))) with (sign_weight (esize e)) by (destruct Hw as [E|E]; rewrite E; reflexivity).
    f_equal. destruct (negative y); lia.
  Qed.
  Lemma leaf_fcopysign_ok xs ys zs : b_native b e (length xs) = true -> length ys = length xs -> all_defined (map2 (fun x y => Some (f_copysign x y)) xs ys) = Some zs -> leaf_fcopysign b e xs ys = Some zs.
  Proof using F.
    intros N L D. rewrite ad_some2 in D. injection D as <-.
    assert (E : map2 (fun m s : word (esize e) => with_sign (esize e) (negative s) (magnitude m)) xs ys = map2 f_copysign xs ys).
    { clear N L. revert ys. induction xs as [|x xs IH]; intros [|y ys]; cbn; auto. f_equal; [apply copysign_spec|apply IH]. }
    assert (L' : length (map2 f_copysign xs ys) = length xs) by (rewrite SeqP.map2_length, L; apply Nat.min_id).
    unfold leaf_fcopysign. cbv zeta. apply by_width_ind; auto; intros L1.
    - f_equal. rewrite <- E. clear -Hw. revert ys. induction xs as [|x xs IH]; intros [|y ys]; cbn; auto. f_equal; [apply (ScalarMathMain.s_copysign_eq Hw)|apply IH].
    - rewrite (MathP.copysign_pack (esize e) xs ys Hw L1 (eq_trans L L1)), E, lanes_pack by exact (eq_trans L' L1). reflexivity.
    - rewrite (AvxMathP.y_copysign_ok Hw xs L1 ys (eq_trans L L1)), E, ylanes_ypack by (apply esize_ok || exact (eq_trans L' L1)). reflexivity.
  Qed.
  Lemma leaf_ftest_ok op xs zs : b_native b e (length xs) = true -> all_defined (map (fun x => Some (f_test op x)) xs) = Some zs -> leaf_ftest b e op xs = Some zs.
  Proof using F.
    intros N D. rewrite ad_some in D. injection D as <-. unfold leaf_ftest. cbv zeta. apply by_width_ind; auto; intros L1.
    - f_equal. apply map_ext. intros x. destruct (ScalarMathMain.C38_scalar_main (esize e) x x Hw) as (A & B & C & _). destruct op; cbn [s_ftest f_test]; auto. now apply MathMain.C38_scalar_isnegative_main.
    - rewrite <- (m_entries_ok e (map (f_test op) xs)) by (rewrite map_length; exact L1). do 2 f_equal.
      destruct op; cbn [v_ftest]; [apply MathP.isnan_pack|apply MathP.isinf_pack|apply MathP.isfinite_pack|apply MathP.isnegative_pack]; auto.
    - rewrite <- (ym_entries_ok e (map (f_test op) xs)) by (rewrite map_length; exact L1). do 2 f_equal.
      destruct op; cbn [y_ftest]; [apply AvxMathP.y_isnan_ok|apply AvxMathP.y_isinf_ok|apply AvxMathP.y_isfinite_ok|apply AvxMathP.y_isnegative_ok]; auto.
  Qed.
  Lemma leaf_fcompare_ok op xs ys zs : b_native b e (length xs) = true -> length ys = length xs -> all_defined (map2 (f_compare op) xs ys) = Some zs -> leaf_fcompare b e op xs ys = Some zs.
  Proof using F.
    intros N L D. pose proof (ad_length _ _ D) as LZ. rewrite SeqP.map2_length, L, Nat.min_id in LZ.
    assert (GE := ad_map2 (@f_compare (esize e) OGe)). unfold leaf_fcompare. apply by_width_ind; auto; intros L1.
    - f_equal. apply (cmp_ordered op _ _ _ _ D). intros x y r H.
      destruct op; cbn [s_fcompare]; rewrite ?(feq_ok Hw), ?(flt_ok Hw), ?(fle_ok Hw); try (now injection H); [exact (proj2 (fgt_val _ _ _ H))|exact (proj2 (fge_val _ _ _ H))].
    - assert (L2 : length ys = (16 / esize e)%nat) by exact (eq_trans L L1). destruct (C39_sse_float_compare_main e xs ys F L1 L2) as (A1 & A2 & A3 & A4 & A5).
      rewrite <- (m_entries_ok e zs) by exact (eq_trans LZ L1). do 2 f_equal.
      destruct op; cbn [v_compare]; [rewrite A1|rewrite A2|rewrite A3|rewrite A4|rewrite A5|rewrite v_ge_fp by assumption]; f_equal; apply (cmp_ordered _ _ _ _ _ D); intros x y r H; try (now injection H).
      + exact (proj2 (fgt_val _ _ _ H)).
      + exact (proj1 (fge_val _ _ _ H)).
    - assert (L2 : length ys = (32 / esize e)%nat) by exact (eq_trans L L1). pose proof (y_compare_fp e xs ys L1 L2 (b_gcc b) F) as H. cbv zeta in H. destruct H as (A1 & A2 & A3 & A4 & A5 & A6).
      rewrite <- (ym_entries_ok e zs) by exact (eq_trans LZ L1). do 2 f_equal.
      destruct op; cbn [y_compare]; [rewrite A1|rewrite A2|rewrite A3|rewrite A4|rewrite A5|rewrite A6]; try destruct (b_gcc b); f_equal; apply (cmp_ordered _ _ _ _ _ D); intros x y r H; try (now injection H).
      all: first [exact (proj2 (fgt_val _ _ _ H))|exact (proj1 (fgt_val _ _ _ H))|exact (proj2 (fge_val _ _ _ H))|exact (proj1 (fge_val _ _ _ H))].
  Qed.
End Leaf.

(** * min() and max() *)
Section Best.
  Context {w : nat} (key : word w -> Z).
  Definition best (xs : list (word w)) r := In r xs /\ (forall x, In x xs -> nn x /\ key r <= key x).
  Lemma best_app xs ys a c r : best xs a -> best ys c -> best [a; c] r -> best (xs ++ ys) r.
  Proof using.
    intros (A1 & A2) (B1 & B2) (C1 & C2). assert (Ka := C2 a (or_introl eq_refl)). assert (Kc := C2 c (or_intror (or_introl eq_refl))). split.
    - apply in_or_app. destruct C1 as [<-|[<-|[]]]; auto.
    - intros x Hx. apply in_app_or in Hx. destruct Hx as [Hx|Hx]; [destruct (A2 x Hx)|destruct (B2 x Hx)]; split; auto; lia.
  Qed.
  Definition better (p : word w * word w) (r : word w) : Prop := nn (fst p) -> nn (snd p) -> best [fst p; snd p] r.
  Lemma best_zip : forall xs ys zs v, length xs = length ys -> Forall2 better (combine xs ys) zs -> (forall x, In x (xs ++ ys) -> nn x) -> best zs v -> best (xs ++ ys) v.
  Proof using.
    intros xs ys zs v L F N (V1 & V2).
    assert (A : forall x, In x (xs ++ ys) -> exists z, In z zs /\ key z <= key x).
    { clear V1 V2. revert ys zs L F N. induction xs as [|p xs IH]; intros [|q ys] zs L F N; cbn in L; try discriminate L; cbn [combine] in F; inversion F as [|? z ? zs' R1 R2]; subst; [intros a []|].
      assert (Nx : nn p) by (apply N; now left). assert (Ny : nn q) by (apply N; cbn; right; apply in_or_app; right; now left). destruct (R1 Nx Ny) as (_ & K). cbn [fst snd] in K.
      assert (N' : forall x, In x (xs ++ ys) -> nn x) by (intros a Ha; apply N; cbn; right; apply in_app_or in Ha; apply in_or_app; cbn; tauto).
      injection L as L. specialize (IH ys zs' L R2 N'). intros a Ha. cbn in Ha. destruct Ha as [<-|Ha]; [exists z; split; [now left|]; apply (K p); now left|].
      apply in_app_or in Ha. destruct Ha as [Ha|[<-|Ha]]; [|exists z; split; [now left|]; apply (K q); right; now left|].
      all: destruct (IH a) as (u & E1 & E2); [apply in_or_app; auto|]; exists u; split; [now right|exact E2]. }
    split.
    - clear - F V1 N L. revert ys zs L F N V1. induction xs as [|x xs IH]; intros [|y ys] zs L F N V1; cbn in L; try discriminate L; cbn [combine] in F; inversion F as [|? z ? zs' R1 R2]; subst; [destruct V1|].
      assert (Nx : nn x) by (apply N; now left). assert (Ny : nn y) by (apply N; cbn; right; apply in_or_app; right; now left). destruct (R1 Nx Ny) as (K & _). cbn [fst snd] in K.
      destruct V1 as [<-|V1].
      + destruct K as [<-|[<-|[]]]; [now left|]. cbn. right. apply in_or_app. right. now left.
      + assert (N' : forall x, In x (xs ++ ys) -> nn x) by (intros q Hq; apply N; cbn; right; apply in_app_or in Hq; apply in_or_app; cbn; tauto).
        injection L as L. specialize (IH ys zs' L R2 N' V1). apply in_app_or in IH. cbn. right. apply in_or_app. cbn. tauto.
    - intros x Hx. split; [now apply N|]. destruct (A x Hx) as (z & Z1 & Z2). destruct (V2 z Z1). lia.
  Qed.
End Best.

Lemma in_f2 {A B} (R : A -> B -> Prop) l l' x : Forall2 R l l' -> In x l' -> exists p, In p l /\ R p x.
Proof.
  induction 1 as [|p z l l' R1 R2 IH]; intros Hx; [destruct Hx|]. destruct Hx as [<-|Hx]; [exists p; split; [now left|exact R1]|]. destruct (IH Hx) as (q & Q1 & Q2). exists q. split; [now right|exact Q2].
Qed.
Section Red.
  Context (b : build) (e : etype) (F : is_integer e = false) (op : red_op) (key : elt e -> Z).
  Let Hw : fp_width (esize e) := float_fp e F.
  Let W := b_native b e.
  Hypothesis (Hs : forall x y : elt e, exists r, s_farith (red_arith op) x y = Some r /\ better key (x, y) r).
  Hypothesis (Hl : forall x y : elt e, better key (x, y) (flane (red_arith op) x y)).
  Hypothesis (HL : forall xs, W (length xs) = true -> (forall x, In x xs -> nn x) -> exists v, leaf_freduce b e op xs = Some v /\ best key xs v).
  Hypothesis (HS : forall xs ys : list (elt e), length xs = (16 / esize e)%nat -> length ys = (16 / esize e)%nat ->
    v_farith e (red_arith op) (pack xs) (pack ys) = Some (pack (map2 (flane (red_arith op)) xs ys))).
  Hypothesis (HA : forall xs ys : list (elt e), length xs = (32 / esize e)%nat -> length ys = (32 / esize e)%nat ->
    y_farith e (red_arith op) (ypack xs) (ypack ys) = Some (ypack (map2 (flane (red_arith op)) xs ys))).
  Lemma leaf_better xs ys : W (length xs) = true -> length ys = length xs ->
    exists zs, leaf_farith b e (red_arith op) xs ys = Some zs /\ length zs = length xs /\ Forall2 (better key) (combine xs ys) zs.
  Proof using Hs Hl HS HA.
    intros N L. unfold leaf_farith.
    assert (M : forall l l' : list (elt e), length l' = length l -> Forall2 (better key) (combine l l') (map2 (flane (red_arith op)) l l')).
    { induction l as [|x l IH]; intros [|y l'] E; try discriminate E; cbn; [constructor|]. constructor; [apply Hl|]. apply IH. now injection E. }
    assert (LM : length (map2 (flane (red_arith op)) xs ys) = length xs) by (rewrite SeqP.map2_length; unfold elt in *; lia).
    apply by_width_ind; auto; intros L1.
    - clear N L1 LM M HL HS HA. revert ys L. induction xs as [|x xs IH]; intros [|y ys] E; try discriminate E; cbn [map2 sequence combine length].
      + exists []. auto.
      + injection E as E. destruct (IH ys E) as (zs & Z1 & Z2 & Z3). destruct (Hs x y) as (r & R1 & R2). rewrite R1, Z1. exists (r :: zs). split; [reflexivity|]. split; [cbn; now rewrite Z2|now constructor].
    - rewrite HS by (exact L1 || exact (eq_trans L L1)). cbn [option_map]. rewrite lanes_pack by exact (eq_trans LM L1). eexists. split; [reflexivity|]. split; [exact LM|now apply M].
    - rewrite HA by (exact L1 || exact (eq_trans L L1)). cbn [option_map]. rewrite ylanes_ypack by (apply esize_ok || exact (eq_trans LM L1)). eexists. split; [reflexivity|]. split; [exact LM|now apply M].
  Qed.
  Lemma leaves_true {A} (t : sa A) : leaves (fun _ => True) t.
  Proof using. induction t; cbn; auto. Qed.
  Lemma freduce_best : forall fuel n t, wf W n t -> (n <= fuel)%nat -> (forall x, In x (to_list t) -> nn x) -> exists v, freduce_f b e op fuel t = Some v /\ best key (to_list t) v.
  Proof using Hs Hl HS HA HL.
    pose proof (Ww b e) as WW.
    induction fuel as [|fuel IH]; intros n t Wt HF N; pose proof (wf_size W WW _ _ Wt) as (S1 & S2 & S3); [lia|].
    destruct t as [xs|d0 d1]; cbn [freduce_f to_list] in *.
    - inversion Wt as [n' xs' Nn L|]; subst n' xs' n. now apply HL.
    - inversion Wt as [|n' l r E W0 W1]; subst n' l r.
      pose proof (not_native_ge2 W WW n S3 E) as H2. destruct (right_left n H2) as [R1 R2].
      pose proof (wf_len W WW _ _ W0) as L0. pose proof (wf_len W WW _ _ W1) as L1.
      assert (Z0 := wf_sz W WW _ _ W0). assert (Z1 := wf_sz W WW _ _ W1). unfold elt in Z0, Z1 |- *. rewrite Z0, Z1.
      destruct (Nat.eqb_spec (left_size n) (right_size n)) as [EH|EH].
      + rewrite <- EH in W1. destruct (op2o_leaves W (leaf_farith b e (red_arith op)) (better key) (fun _ => True) (fun xs ys H _ => leaf_better xs ys H) _ d0 d1 W0 W1 (leaves_true d0)) as (z & OZ & Wz & Fz). unfold elt in OZ. rewrite OZ.
        cbn [obind]. assert (LE : length (to_list d0) = length (to_list d1)) by congruence.
        assert (Nz : forall x, In x (to_list z) -> nn x).
        { intros x Hx. assert (Q : exists p, In p (combine (to_list d0) (to_list d1)) /\ better key p x).
          { exact (in_f2 _ _ _ x Fz Hx). }
          destruct Q as ((p & q) & Q1 & Q2). pose proof (in_combine_l _ _ _ _ Q1) as P1. pose proof (in_combine_r _ _ _ _ Q1) as P2.
          destruct (Q2 (N p ltac:(apply in_or_app; auto)) (N q ltac:(apply in_or_app; auto))) as (B1 & B2). exact (proj1 (B2 x B1)). }
        destruct (IH _ z Wz ltac:(lia) Nz) as (v & V1 & V2). exists v. split; [exact V1|]. exact (best_zip key _ _ _ v LE Fz N V2).
      + destruct (IH _ d0 W0 ltac:(lia) ltac:(intros; apply N, in_or_app; auto)) as (x & X0 & X). destruct (IH _ d1 W1 ltac:(lia) ltac:(intros; apply N, in_or_app; auto)) as (y & Y0 & Y). unfold elt in X0, Y0. rewrite X0, Y0. cbn [obind].
        destruct (Hs x y) as (r & R0 & R). unfold elt in R0. rewrite R0. exists r. split; [reflexivity|]. apply (best_app key _ _ x y r X Y). apply R; [exact (proj1 (proj2 X x (proj1 X)))|exact (proj1 (proj2 Y y (proj1 Y)))].
  Qed.
End Red.

Section Choose.
  Context {w : nat} (Hw : fp_width w).
  Lemma lt_key (a b : word w) : nn a -> nn b -> flt a b = (fkey a <? fkey b).
  Proof using. unfold nn, flt. intros -> ->. reflexivity. Qed.
  Lemma best2 key (a b r : word w) : (nn a -> nn b -> (r = a /\ key a <= key b) \/ (r = b /\ key b <= key a)) -> better key (a, b) r.
  Proof using.
    intros H Na Nb. cbn [fst snd] in *. destruct (H Na Nb) as [(-> & K)|(-> & K)]; (split; [cbn; auto|]); intros x [<-|[<-|[]]]; split; auto; lia.
  Qed.
  Definition up (a : word w) : Z := fkey a.
  Definition down (a : word w) : Z := - fkey a.
  Lemma smaller_best (a b : word w) : better up (a, b) (smaller a b).
  Proof using Hw. apply best2. intros Na Nb. unfold smaller. rewrite (value_key_lt Hw). unfold up. destruct (Z.ltb_spec (fkey b) (fkey a)); [right|left]; split; auto; lia. Qed.
  Lemma larger_best (a b : word w) : better down (a, b) (larger a b).
  Proof using Hw. apply best2. intros Na Nb. unfold larger. rewrite (value_key_lt Hw). unfold down. destruct (Z.ltb_spec (fkey a) (fkey b)); [right|left]; split; auto; lia. Qed.
  Lemma smin_best (a b : word w) : better up (a, b) (if flt b a then b else a).
  Proof using. apply best2. intros Na Nb. rewrite lt_key by auto. unfold up. destruct (Z.ltb_spec (fkey b) (fkey a)); [right|left]; split; auto; lia. Qed.
  Lemma smax_best (a b : word w) : better down (a, b) (if flt a b then b else a).
  Proof using. apply best2. intros Na Nb. rewrite lt_key by auto. unfold down. destruct (Z.ltb_spec (fkey a) (fkey b)); [right|left]; split; auto; lia. Qed.
  Lemma mmin_best (a b : word w) : better up (a, b) (mm_fmin a b).
  Proof using. apply best2. intros Na Nb. unfold mm_fmin. rewrite lt_key by auto. unfold up. destruct (Z.ltb_spec (fkey a) (fkey b)); [left|right]; split; auto; lia. Qed.
  Lemma mmax_best (a b : word w) : better down (a, b) (mm_fmax a b).
  Proof using. apply best2. intros Na Nb. unfold mm_fmax. rewrite lt_key by auto. unfold down. destruct (Z.ltb_spec (fkey b) (fkey a)); [left|right]; split; auto; lia. Qed.
  Lemma lst_best xs (r : word w) : lst xs r -> best up xs r.
  Proof using. intros H. exact H. Qed.
  Lemma grt_best xs (r : word w) : grt xs r -> best down xs r.
  Proof using. intros (H1 & H2). split; [exact H1|]. intros x Hx. destruct (H2 x Hx). unfold down. split; auto; lia. Qed.
  Lemma best_lst xs (r : word w) : best up xs r -> lst xs r.
  Proof using. intros H. exact H. Qed.
  Lemma best_grt xs (r : word w) : best down xs r -> grt xs r.
  Proof using. intros (H1 & H2). split; [exact H1|]. intros x Hx. destruct (H2 x Hx). unfold down in *. split; auto; lia. Qed.
  Lemma best1 key (x : word w) : nn x -> best key [x] x.
  Proof using. intros N. split; [now left|]. intros y [<-|[]]. split; auto; lia. Qed.
  Lemma fold_best key (f : word w -> word w -> word w) : (forall a b, better key (a, b) (f a b)) -> forall xs pre x, (forall y, In y xs -> nn y) -> best key pre x -> best key (pre ++ xs) (fold_left f xs x).
  Proof using.
    intros Hf. induction xs as [|y xs IH]; intros pre x N B; cbn [fold_left]; [now rewrite app_nil_r|]. replace (pre ++ y :: xs) with ((pre ++ [y]) ++ xs) by now rewrite <- app_assoc.
    apply IH; [intros; apply N; now right|]. assert (Ny : nn y) by (apply N; now left). apply (best_app key _ _ x y); auto; [now apply best1|]. apply (Hf x y); cbn [fst snd]; auto. exact (proj1 (proj2 B x (proj1 B))).
  Qed.
  Lemma spec_best key f xs v : (forall a b, better key (a, b) (f a b)) -> (forall y : word w, In y xs -> nn y) -> reduce_spec f xs = Some v -> best key xs v.
  Proof using.
    intros Hf N. destruct xs as [|x xs]; cbn [reduce_spec]; [discriminate|]. intros [= <-]. apply (fold_best key f Hf xs [x] x); [intros; apply N; now right|]. apply best1, N. now left.
  Qed.
  Lemma best_unique key xs (v v' : word w) : (forall a b, key a = key b -> fkey a = fkey b) -> existsb (fun a => existsb (two_zeros a) xs) xs = false -> best key xs v -> best key xs v' -> v = v'.
  Proof using Hw.
    intros K T (A1 & A2) (B1 & B2). destruct (A2 v' B1) as (_ & L1). destruct (B2 v A1) as (_ & L2). apply two_zeros_eq.
    - destruct (two_zeros v v') eqn:E; [|reflexivity]. exfalso. rewrite <- not_true_iff_false in T. apply T. apply existsb_exists. exists v. split; [exact A1|]. apply existsb_exists. exists v'. auto.
    - apply Z.eqb_eq. rewrite (value_key_eq Hw). apply Z.eqb_eq, K. lia.
  Qed.
End Choose.

Section FBuild.
  Context (b : build) (e : etype) (F : is_integer e = false).
  Let Hw : fp_width (esize e) := float_fp e F.
  Let W := b_native b e.
  Lemma leaf_min xs : W (length xs) = true -> (forall x, In x xs -> nn x) -> exists v, leaf_freduce b e RMin xs = Some v /\ best up xs v.
  Proof using F.
    intros N H. unfold leaf_freduce. apply by_width_ind; auto; intros L1.
    - destruct xs as [|x [|y xs]]; try discriminate L1. exists x. split; [reflexivity|]. apply best1, H. now left.
    - eexists. split; [reflexivity|]. apply lst_best. replace (v_freduce e RMin (pack xs)) with (v_min_all true e (pack xs)) by (destruct e; try discriminate F; reflexivity). now apply fmin_lst.
    - eexists. split; [reflexivity|]. apply lst_best. replace (y_freduce e RMin (ypack xs)) with (y_min_all e (ypack xs)) by (destruct e; try discriminate F; reflexivity). now apply y_fmin_lst.
  Qed.
  Lemma leaf_max xs : W (length xs) = true -> (forall x, In x xs -> nn x) -> exists v, leaf_freduce b e RMax xs = Some v /\ best down xs v.
  Proof using F.
    intros N H. unfold leaf_freduce. apply by_width_ind; auto; intros L1.
    - destruct xs as [|x [|y xs]]; try discriminate L1. exists x. split; [reflexivity|]. apply best1, H. now left.
    - eexists. split; [reflexivity|]. apply grt_best. replace (v_freduce e RMax (pack xs)) with (v_max_all true e (pack xs)) by (destruct e; try discriminate F; reflexivity). now apply fmax_grt.
    - eexists. split; [reflexivity|]. apply grt_best. replace (y_freduce e RMax (ypack xs)) with (y_max_all e (ypack xs)) by (destruct e; try discriminate F; reflexivity). now apply y_fmax_grt.
  Qed.
  Lemma sse_minmax (xs ys : list (elt e)) : length xs = (16 / esize e)%nat -> length ys = (16 / esize e)%nat ->
    v_farith e OMin (pack xs) (pack ys) = Some (pack (map2 (flane OMin) xs ys)) /\ v_farith e OMax (pack xs) (pack ys) = Some (pack (map2 (flane OMax) xs ys)).
  Proof using F b.
    intros L L'. cbn [v_farith]. rewrite v_min_pack, v_max_pack by assumption. split; do 2 f_equal; apply map2_ext; intros; destruct e; try discriminate F; reflexivity.
  Qed.
  Lemma avx_minmax (xs ys : list (elt e)) : length xs = (32 / esize e)%nat -> length ys = (32 / esize e)%nat ->
    y_farith e OMin (ypack xs) (ypack ys) = Some (ypack (map2 (flane OMin) xs ys)) /\ y_farith e OMax (ypack xs) (ypack ys) = Some (ypack (map2 (flane OMax) xs ys)).
  Proof using F b.
    intros L L'. cbn [y_farith]. split; f_equal; [refine (eq_trans (y_min_ok e xs ys L L') _)|refine (eq_trans (y_max_ok e xs ys L L') _)]; f_equal; apply map2_ext; intros; destruct e; try discriminate F; reflexivity.
  Qed.
  Lemma min_ok n t : wf W n t -> (forall x, In x (to_list t) -> nn x) -> exists v, b_freduce b e RMin t = Some v /\ best up (to_list t) v.
  Proof using F.
    intros Wt N. unfold b_freduce. apply (freduce_best b e RMin up) with (n := n); auto.
    - intros x y. cbn. eexists. split; [reflexivity|apply smin_best].
    - intros x y. apply mmin_best.
    - apply leaf_min.
    - intros. now apply sse_minmax.
    - intros. now apply avx_minmax.
    - apply Nat.eq_le_incl. symmetry. exact (wf_sz W (Ww b e) _ _ Wt).
  Qed.
  Lemma max_ok n t : wf W n t -> (forall x, In x (to_list t) -> nn x) -> exists v, b_freduce b e RMax t = Some v /\ best down (to_list t) v.
  Proof using F.
    intros Wt N. unfold b_freduce. apply (freduce_best b e RMax down) with (n := n); auto.
    - intros x y. cbn. eexists. split; [reflexivity|apply smax_best].
    - intros x y. apply mmax_best.
    - apply leaf_max.
    - intros. now apply sse_minmax.
    - intros. now apply avx_minmax.
    - apply Nat.eq_le_incl. symmetry. exact (wf_sz W (Ww b e) _ _ Wt).
  Qed.
End FBuild.
