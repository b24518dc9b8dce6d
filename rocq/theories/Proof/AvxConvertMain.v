(** conversions of the AVX vectors and masks, and their integer division (proofs). *)
From Coq Require Import ZArith List Bool Lia.
From Verif.Spec Require Import Seq FloatSpec RoundSpec CastSpec VectorSpec.
From Verif.Model Require Import Word Fp FpArith SseReg SseMove SortNet SseInt SseBuild SseArith SseMask SseConvert SimdArray AvxReg AvxMove AvxBuild AvxShuffle AvxMask AvxArith AvxConvert.
Import ListNotations.
Local Open Scope Z_scope.
From Verif.Proof Require Import SeqP WordP FpP FpArithP FpIntP SseIntP SseBuildP SseEmulP SseArithP SseMaskP ConvertP ConvertRegP DivP InterleaveMain ConvertMain AvxMoveP AvxVecP AvxShuffleP AvxMaskP AvxArithP AvxConvertP AvxCastP AvxCast2P AvxMaskCastP AvxDivP.

Lemma C46_avx_simd_cast_main :
  forall undef avx2 from to (xss : list (list (elt from))) r,
    Forall (fun xs => length xs = (32 / esize from)%nat) xss -> ycast undef avx2 from to (map ypack xss) = Some r ->
    let n := Nat.min (length (concat xss)) (32 / esize to) in
    Forall2 (cast_ok from to) (firstn n (concat xss)) (firstn n (ylanes (esize to) r)) /\
    (undef = repeat 0 16 -> skipn n (ylanes (esize to) r) = repeat (w0 (esize to)) (32 / esize to - n)).
Proof.
  intros undef avx2 from to xss r F H. exact (ycast_casted undef avx2 from to xss r F H).
Qed.

Lemma C46_avx_simd_cast_defined_main :
  forall undef avx2 from to (xss : list (list (elt from))), (1 <= length xss)%nat ->
    (avx2 = true \/ is_integer from = false /\ is_integer to = false) ->
    (length xss = 1 \/ esize from <> esize to /\ length xss * (32 / esize from) <= 32 / esize to)%nat ->
    exists r, ycast undef avx2 from to (map ypack xss) = Some r.
Proof.
  intros undef avx2 from to xss L1 A L2. unfold ycast.
  assert (E : has256 avx2 from && has256 avx2 to = true). { unfold has256. destruct A as [->|[-> ->]]; [reflexivity|]. cbn. now rewrite orb_true_r. } rewrite E.
  destruct xss as [|x0 [|x1 [|x2 [|x3 [|x4 xss]]]]]; [cbn in L1; lia|eexists; reflexivity|..]; cbn [length] in L2;
    destruct L2 as [L2|(L2 & L3)]; try discriminate L2; destruct from, to; cbn in L2, L3; try lia; eexists; reflexivity.
Qed.

Lemma C46_avx_simd_cast_undefined_refuted_main :
  forall undef avx2 (xs : list (word 8)), length xs = 4%nat -> length undef = 16%nat ->
    exists r, ycast undef avx2 Double Float [ypack xs] = Some r /\ hi128 r = undef.
Proof.
  intros undef avx2 xs L LU. eexists. split; [unfold ycast; destruct avx2; reflexivity|]. reflexivity.
Qed.

Lemma C46_avx_sse_simd_cast_main :
  (forall undef avx2 from to (xss : list (list (elt from))) r, length undef = 16%nat -> Forall (fun b => 0 <= b < 256) undef ->
    Forall (fun xs => length xs = (16 / esize from)%nat) xss -> xycast undef avx2 from to (map pack xss) = Some r ->
    let n := Nat.min (length (concat xss)) (32 / esize to) in
    Forall2 (cast_ok from to) (firstn n (concat xss)) (firstn n (ylanes (esize to) r)) /\
    (undef = repeat 0 16 -> skipn n (ylanes (esize to) r) = repeat (w0 (esize to)) (32 / esize to - n))) /\
  (forall undef avx2 from to (xss : list (list (elt from))) r,
    Forall (fun xs => length xs = (32 / esize from)%nat) xss -> yxcast undef avx2 from to (map ypack xss) = Some r ->
    let n := Nat.min (length (concat xss)) (16 / esize to) in
    Forall2 (cast_ok from to) (firstn n (concat xss)) (firstn n (lanes (esize to) r)) /\
    skipn n (lanes (esize to) r) = repeat (w0 (esize to)) (16 / esize to - n)) /\
  (forall from to (xss : list (list (elt from))) r,
    Forall (fun xs => length xs = (16 / esize from)%nat) xss -> xcast from to (map pack xss) = Some r ->
    let n := Nat.min (length (concat xss)) (16 / esize to) in
    Forall2 (cast_ok from to) (firstn n (concat xss)) (firstn n (lanes (esize to) r)) /\
    skipn n (lanes (esize to) r) = repeat (w0 (esize to)) (16 / esize to - n)).
Proof.
  split; [|split].
  - intros undef avx2 from to xss r LU BU F H. exact (xycast_casted undef avx2 from to xss r (conj LU BU) F H).
  - intros undef avx2 from to xss r F H. exact (yxcast_casted undef avx2 from to xss r F H).
  - intros from to xss r F H. exact (xcast_casted from to xss r F H).
Qed.

Lemma C46_avx_sse_simd_cast_defined_main :
  (forall undef avx2 from to (xss : list (list (elt from))), (1 <= length xss)%nat -> avx2 = true \/ is_integer to = false ->
    (length xss = 1 \/ length xss * (16 / esize from) <= 32 / esize to)%nat ->
    exists r, xycast undef avx2 from to (map pack xss) = Some r) /\
  (forall undef avx2 from to (xss : list (list (elt from))), (1 <= length xss)%nat -> avx2 = true \/ is_integer from = false ->
    (length xss = 1 \/ length xss * (32 / esize from) <= 16 / esize to)%nat ->
    exists r, yxcast undef avx2 from to (map ypack xss) = Some r) /\
  (forall from to (xss : list (list (elt from))), (1 <= length xss)%nat ->
    (length xss = 1 \/ esize from <> esize to /\ length xss * (16 / esize from) <= 16 / esize to)%nat ->
    exists r, xcast from to (map pack xss) = Some r).
Proof.
  split; [|split].
  - intros undef avx2 from to xss L1 A L2. unfold xycast.
    assert (E : has256 avx2 to = true) by (unfold has256; destruct A as [->| ->]; [reflexivity|apply orb_true_r]). rewrite E.
    destruct xss as [|x0 [|x1 [|x2 [|x3 [|x4 [|x5 [|x6 [|x7 [|x8 xss]]]]]]]]]; [cbn in L1; lia|eexists; reflexivity|..]; cbn [length] in L2;
      destruct L2 as [L2|L2]; try discriminate L2; destruct from, to; cbn in L2; try lia; eexists; reflexivity.
  - intros undef avx2 from to xss L1 A L2. unfold yxcast.
    assert (E : has256 avx2 from = true) by (unfold has256; destruct A as [->| ->]; [reflexivity|apply orb_true_r]). rewrite E.
    destruct xss as [|x0 [|x1 [|x2 xss]]]; [cbn in L1; lia|eexists; reflexivity|..]; cbn [length] in L2;
      destruct L2 as [L2|L2]; try discriminate L2; destruct from, to; cbn in L2; try lia; eexists; reflexivity.
  - intros from to xss L1 L2. unfold xcast.
    destruct xss as [|x0 [|x1 [|x2 [|x3 [|x4 xss]]]]]; [cbn in L1; lia|eexists; reflexivity|..]; cbn [length] in L2;
      destruct L2 as [L2|(L2 & L3)]; try discriminate L2; destruct from, to; cbn in L2, L3; try lia; eexists; reflexivity.
Qed.

Lemma C46_avx_simd_cast_offset_main :
  (forall undef avx2 from to offset (xs : list (elt from)) r, length xs = (32 / esize from)%nat ->
    ycast_offset undef avx2 from to offset (ypack xs) = Some r ->
    Forall2 (cast_ok from to) (firstn (32 / esize to) (skipn (offset * (32 / esize to)) xs)) (ylanes (esize to) r)) /\
  (forall avx2 from to offset (xs : list (elt from)) r, length xs = (32 / esize from)%nat ->
    yxcast_offset avx2 from to offset (ypack xs) = Some r ->
    Forall2 (cast_ok from to) (firstn (16 / esize to) (skipn (offset * (16 / esize to)) xs)) (lanes (esize to) r)) /\
  (forall undef avx2 from to offset (xs : list (elt from)) r, length xs = (16 / esize from)%nat ->
    xycast_offset undef avx2 from to offset (pack xs) = Some r ->
    Forall2 (cast_ok from to) (firstn (32 / esize to) (skipn (offset * (32 / esize to)) xs)) (ylanes (esize to) r)).
Proof.
  split; [|split].
  - exact ycast_offset_ok.
  - exact yxcast_offset_ok.
  - exact xycast_offset_ok.
Qed.

Lemma C46_avx_constructor_main :
  forall undef avx2 from to (xs : list (elt from)), length xs = (32 / esize from)%nat ->
    let r := avx_construct undef avx2 from to (ypack xs) in
    let n := Nat.min (length xs) (32 / esize to) in
    Forall2 (cast_ok from to) (firstn n xs) (firstn n (ylanes (esize to) r)) /\
    (undef = repeat 0 16 -> skipn n (ylanes (esize to) r) = repeat (w0 (esize to)) (32 / esize to - n)).
Proof.
  intros undef avx2 from to xs L. exact (ypacked_casted undef from to xs _ (construct_pack undef avx2 from to xs L)).
Qed.

Lemma C33_avx_integers_main :
  (forall undef avx2 from to (xss : list (list (elt from))) r, is_integer from = true -> is_integer to = true ->
    Forall (fun xs => length xs = (32 / esize from)%nat) xss -> ycast undef avx2 from to (map ypack xss) = Some r ->
    let n := Nat.min (length (concat xss)) (32 / esize to) in
    Forall2 (fun x y => (int_value to y - int_value from x) mod 2 ^ (8 * Z.of_nat (esize to)) = 0)
            (firstn n (concat xss)) (firstn n (ylanes (esize to) r))) /\
  (forall undef avx2 from to (xs : list (elt from)), is_integer from = true -> is_integer to = true -> length xs = (32 / esize from)%nat ->
    let n := Nat.min (length xs) (32 / esize to) in
    Forall2 (fun x y => (int_value to y - int_value from x) mod 2 ^ (8 * Z.of_nat (esize to)) = 0)
            (firstn n xs) (firstn n (ylanes (esize to) (avx_construct undef avx2 from to (ypack xs))))).
Proof.
  split.
  - intros undef avx2 from to xss r I1 I2 F H n. pose proof (proj1 (ycast_casted undef avx2 from to xss r F H)) as A. fold n in A. unfold cast_ok in A. rewrite I1, I2 in A. exact A.
  - intros undef avx2 from to xs I1 I2 L n. pose proof (proj1 (ypacked_casted undef from to xs _ (construct_pack undef avx2 from to xs L))) as A. fold n in A. unfold cast_ok in A. rewrite I1, I2 in A. exact A.
Qed.

Lemma forall2_uint to (xs : list (word 4)) (ys : list (elt to)) : is_integer to = false -> Forall2 (cast_ok UInt to) xs ys -> Forall2 (fun x y => nearest_int y (uval x)) xs ys.
Proof. intros I H. induction H as [|x y xs ys H0 H IH]; constructor; auto. unfold cast_ok in H0. rewrite I in H0. cbn in H0. exact (proj1 H0). Qed.

Lemma C34_avx_uint_to_fp_main :
  (forall undef avx2 to (xs : list (word 4)), is_integer to = false -> length xs = 8%nat ->
    let n := (32 / esize to)%nat in
    Forall2 (fun x y => nearest_int y (uval x)) (firstn n xs) (ylanes (esize to) (avx_construct undef avx2 UInt to (ypack xs)))) /\
  (forall undef avx2 (xs : list (word 4)) r, length undef = 16%nat -> Forall (fun b => 0 <= b < 256) undef -> length xs = 4%nat ->
    xycast undef avx2 UInt Double [pack xs] = Some r -> Forall2 (fun x y => nearest_int y (uval x)) xs (ylanes 8 r)).
Proof.
  split.
  - intros undef avx2 to xs I L n. pose proof (proj1 (ypacked_casted undef UInt to xs _ (construct_pack undef avx2 UInt to xs L))) as A. cbv zeta in A.
    apply forall2_uint; auto. unfold elt in *. cbn [esize] in A. rewrite L in A. assert (E : Nat.min 8 (32 / esize to) = n) by (unfold n; destruct to; try discriminate I; reflexivity). rewrite E in A.
    rewrite (firstn_all2 (ylanes _ _)) in A by (unfold n; rewrite ylanes_length; lia). exact A.
  - intros undef avx2 xs r LU BU L H. pose proof (proj1 (xycast_casted undef avx2 UInt Double [xs] r (conj LU BU) ltac:(constructor; auto) H)) as A. cbv zeta in A.
    apply (forall2_uint Double); auto. cbn [concat] in A. rewrite app_nil_r in A. unfold elt in *. cbn [esize] in A. rewrite L in A. change (Nat.min 4 (32 / 8)) with 4%nat in A.
    rewrite firstn_all2 in A by lia. rewrite (firstn_all2 (ylanes _ _)) in A by (rewrite (ylanes_length Double); cbn; lia). exact A.
Qed.

Lemma nth_firstn_lt {A} (d : A) : forall n i l, (i < n)%nat -> nth i (firstn n l) d = nth i l d.
Proof. induction n as [|n IH]; intros i l H; [lia|]. destruct l as [|x l]; [now destruct i|]. destruct i as [|i]; [reflexivity|]. cbn [firstn nth]. apply IH. lia. Qed.
Lemma cast_split n ks : exists z, cast_spec n ks = firstn n ks ++ z.
Proof.
  exists (repeat false (n - length ks)). unfold cast_spec. apply nth_ext with (d := false) (d' := false).
  - rewrite tab_length, app_length, firstn_length, repeat_length. lia.
  - intros i Hi. rewrite tab_length in Hi. rewrite nth_tab by lia. destruct (Nat.lt_ge_cases i (length ks)).
    + rewrite app_nth1 by (rewrite firstn_length; lia). rewrite znth_nth_in by lia. rewrite nth_firstn_lt by lia. now rewrite Nat2Z.id.
    + rewrite app_nth2 by (rewrite firstn_length; lia). rewrite nth_repeat. apply znth_out. lia.
Qed.
Lemma ymasked_ok undef to ks r : ymasked undef to ks r ->
  let n := Nat.min (length ks) (32 / esize to) in
  firstn n (ylanes (esize to) r) = map (wmask (esize to)) (firstn n ks) /\ (undef = repeat 0 16 -> r = ymask_reg (esize to) (cast_spec (32 / esize to) ks)).
Proof.
  intros [->|(L & ->)] n.
  - split; [|auto]. unfold ymask_reg. rewrite ylanes_ypack by (try apply esize_ok; rewrite map_length; apply tab_length). destruct (cast_split (32 / esize to) ks) as (z & ->).
    rewrite firstn_map. f_equal. rewrite firstn_app, firstn_firstn. unfold n. rewrite firstn_length. replace (Nat.min (length ks) (32 / esize to) - Nat.min (32 / esize to) (length ks))%nat with 0%nat by lia.
    cbn [firstn]. rewrite app_nil_r. f_equal. lia.
  - pose proof (half32 to) as H32. assert (N : n = length ks) by (unfold n; lia). destruct (cast_split (16 / esize to) ks) as (z & E). split.
    + rewrite ylanes_halves. cbn [lo128 hi128]. unfold mask_reg. rewrite lanes_pack by (rewrite map_length; apply tab_length).
      rewrite firstn_app, map_length. replace (n - length (cast_spec (16 / esize to) ks))%nat with 0%nat by (unfold cast_spec; rewrite tab_length; lia). cbn [firstn]. rewrite app_nil_r, firstn_map. f_equal.
      rewrite E, firstn_app, firstn_length. replace (n - Nat.min (16 / esize to) (length ks))%nat with 0%nat by lia. cbn [firstn]. rewrite app_nil_r, firstn_firstn. f_equal. lia.
    + intros ->. unfold ymask_reg. assert (E2 : cast_spec (32 / esize to) ks = cast_spec (16 / esize to) ks ++ repeat false (16 / esize to)).
      { unfold cast_spec. apply nth_ext with (d := false) (d' := false); [rewrite tab_length, app_length, tab_length, repeat_length; lia|].
        intros i Hi. rewrite tab_length in Hi. rewrite nth_tab by lia. destruct (Nat.lt_ge_cases i (16 / esize to)).
        - rewrite app_nth1 by (rewrite tab_length; lia). now rewrite nth_tab.
        - rewrite app_nth2 by (rewrite tab_length; lia). rewrite nth_repeat. apply znth_out. lia. }
      rewrite E2, map_app, ypack_app by (rewrite map_length; apply tab_length). f_equal. destruct to; reflexivity.
Qed.

Lemma C19_avx_mask_simd_cast_main :
  (forall undef avx2 from to (kss : list (list bool)) r, Forall (fun ks => length ks = (32 / esize from)%nat) kss ->
    ymasks_cast undef avx2 from to (map (ymask_reg (esize from)) kss) = Some r ->
    let n := Nat.min (length (concat kss)) (32 / esize to) in
    firstn n (ylanes (esize to) r) = map (wmask (esize to)) (firstn n (concat kss)) /\
    (undef = repeat 0 16 -> r = ymask_reg (esize to) (cast_spec (32 / esize to) (concat kss)))) /\
  (forall undef avx2 from to (kss : list (list bool)) r, length undef = 16%nat -> Forall (fun ks => length ks = (16 / esize from)%nat) kss ->
    xymasks_cast undef avx2 from to (map (mask_reg (esize from)) kss) = Some r ->
    let n := Nat.min (length (concat kss)) (32 / esize to) in
    firstn n (ylanes (esize to) r) = map (wmask (esize to)) (firstn n (concat kss)) /\
    (undef = repeat 0 16 -> r = ymask_reg (esize to) (cast_spec (32 / esize to) (concat kss)))) /\
  (forall avx2 from to (kss : list (list bool)) r, Forall (fun ks => length ks = (32 / esize from)%nat) kss ->
    yxmasks_cast avx2 from to (map (ymask_reg (esize from)) kss) = Some r -> r = mask_reg (esize to) (cast_spec (16 / esize to) (concat kss))) /\
  (forall from to (kss : list (list bool)) r, Forall (fun ks => length ks = (16 / esize from)%nat) kss ->
    xmask_cast (16 / esize from) (16 / esize to) (map (mask_reg (esize from)) kss) = Some r -> r = mask_reg (esize to) (cast_spec (16 / esize to) (concat kss))).
Proof.
  split; [|split; [|split]].
  - intros undef avx2 from to kss r F H. apply ymasked_ok. exact (ymasks_cast_ok undef avx2 from to kss r F H).
  - intros undef avx2 from to kss r U F H. apply ymasked_ok. exact (xymasks_cast_ok undef avx2 from to kss r U F H).
  - exact yxmasks_cast_ok.
  - exact xmask_cast_ok.
Qed.

Lemma C19_avx_mask_simd_cast_defined_main :
  (forall undef avx2 from to (kss : list (list bool)), (avx2 = true \/ is_integer from = false /\ is_integer to = false) ->
    (length kss = 1 \/ esize from <> esize to /\ (length kss = 2 \/ length kss = 4) /\ length kss * (32 / esize from) <= 32 / esize to)%nat ->
    exists r, ymasks_cast undef avx2 from to (map (ymask_reg (esize from)) kss) = Some r) /\
  (forall undef avx2 from to (kss : list (list bool)), avx2 = true \/ is_integer to = false ->
    (length kss = 1 \/ (length kss = 2 \/ length kss = 4) /\ length kss * (16 / esize from) <= 32 / esize to)%nat ->
    exists r, xymasks_cast undef avx2 from to (map (mask_reg (esize from)) kss) = Some r) /\
  (forall avx2 from to (kss : list (list bool)), avx2 = true \/ is_integer from = false ->
    (length kss = 1 \/ length kss = 2 /\ length kss * (32 / esize from) <= 16 / esize to)%nat ->
    exists r, yxmasks_cast avx2 from to (map (ymask_reg (esize from)) kss) = Some r).
Proof.
  split; [|split].
  - intros undef avx2 from to kss A L2. unfold ymasks_cast.
    assert (E : has256 avx2 from && has256 avx2 to = true). { unfold has256. destruct A as [->|[-> ->]]; [reflexivity|]. cbn. now rewrite orb_true_r. } rewrite E.
    destruct kss as [|x0 [|x1 [|x2 [|x3 [|x4 xss]]]]]; cbn [length] in L2;
      destruct L2 as [L2|(L2 & L3 & L4)]; try discriminate L2; try lia; destruct from, to; cbn in L2; try lia; try (cbn in L4; lia); eexists; reflexivity.
  - intros undef avx2 from to kss A L2. unfold xymasks_cast.
    assert (E : has256 avx2 to = true) by (unfold has256; destruct A as [->| ->]; [reflexivity|apply orb_true_r]). rewrite E.
    destruct kss as [|x0 [|x1 [|x2 [|x3 [|x4 xss]]]]]; cbn [length] in L2;
      destruct L2 as [L2|(L3 & L4)]; try discriminate L2; try lia; destruct from, to; try (cbn in L4; lia); eexists; reflexivity.
  - intros avx2 from to kss A L2. unfold yxmasks_cast.
    assert (E : has256 avx2 from = true) by (unfold has256; destruct A as [->| ->]; [reflexivity|apply orb_true_r]). rewrite E.
    destruct kss as [|x0 [|x1 [|x2 xss]]]; cbn [length] in L2;
      destruct L2 as [L2|(L3 & L4)]; try discriminate L2; try lia; destruct from, to; try (cbn in L4; lia); eexists; reflexivity.
Qed.

Lemma C19_avx_mask_simd_cast_offset_main :
  (forall from to offset ks r, length ks = (16 / esize from)%nat -> xmask_cast_offset from to offset (mask_reg (esize from) ks) = Some r ->
    r = mask_reg (esize to) (firstn (16 / esize to) (skipn (offset * (16 / esize to)) ks))) /\
  (forall avx2 from to offset ks r, length ks = (32 / esize from)%nat -> ymask_cast_offset avx2 from to offset (ymask_reg (esize from) ks) = Some r ->
    r = ymask_reg (esize to) (firstn (32 / esize to) (skipn (offset * (32 / esize to)) ks))) /\
  (forall from to offset ks r, length ks = (16 / esize from)%nat -> xymask_cast_offset from to offset (mask_reg (esize from) ks) = Some r ->
    r = ymask_reg (esize to) (firstn (32 / esize to) (skipn (offset * (32 / esize to)) ks))) /\
  (forall avx2 from to offset ks r, length ks = (32 / esize from)%nat -> yxmask_cast_offset avx2 from to offset (ymask_reg (esize from) ks) = Some r ->
    r = mask_reg (esize to) (firstn (16 / esize to) (skipn (offset * (16 / esize to)) ks))).
Proof.
  split; [|split; [|split]].
  - exact xmask_cast_offset_ok.
  - exact ymask_cast_offset_ok.
  - exact xymask_cast_offset_ok.
  - exact yxmask_cast_offset_ok.
Qed.

Lemma C23_avx_division_main :
  forall avx2 gcc e (xs ys : list (elt e)), is_integer e = true -> length xs = (32 / esize e)%nat -> length ys = (32 / esize e)%nat ->
    Forall (fun y => int_value e y <> 0) ys ->
    y_idiv avx2 gcc e (ypack xs) (ypack ys) = ypack (map2 (fun x y => mkw (esize e) (Z.quot (int_value e x) (int_value e y))) xs ys).
Proof.
  intros avx2 gcc e xs ys I Hx Hy F. exact (y_idiv_pack avx2 gcc e xs ys I Hx Hy F).
Qed.

Lemma rem_lane_y e (x y : elt e) : int_value e y <> 0 -> int_value e (wsub x (wmul (quot_lane e x y) y)) = Z.rem (int_value e x) (int_value e y).
Proof.
  intros N. rewrite <- (int_value_mkw e (Z.rem (int_value e x) (int_value e y))) by now apply rem_in_range. f_equal. unfold wsub, wmul, quot_lane. apply mkw_eq.
  rewrite !uval_mkw, <- (int_value_mod e x), <- (int_value_mod e y).
  pose proof (modulus_pos (esize e)). rewrite <- Z.mul_mod by lia. rewrite <- Zminus_mod. f_equal. pose proof (Z.quot_rem' (int_value e x) (int_value e y)). lia.
Qed.

Lemma C23_avx_remainder_main :
  forall avx2 gcc e (xs ys : list (elt e)), is_integer e = true -> length xs = (32 / esize e)%nat -> length ys = (32 / esize e)%nat ->
    Forall (fun y => int_value e y <> 0) ys ->
    map (int_value e) (ylanes (esize e) (y_imod avx2 gcc e (ypack xs) (ypack ys))) = map2 (fun x y => Z.rem (int_value e x) (int_value e y)) xs ys.
Proof.
  intros avx2 gcc e xs ys I Hx Hy F. unfold y_imod. rewrite y_idiv_pack by assumption.
  assert (L1 : length (map2 (quot_lane e) xs ys) = (32 / esize e)%nat) by (rewrite length_map2 by congruence; assumption).
  rewrite y_mul_ok by assumption. rewrite y_sub_ok; [|assumption|etransitivity; [apply length_map2; etransitivity; [exact L1|symmetry; exact Hy]|exact L1]].
  rewrite ylanes_ypack.
  - clear L1. clear Hx. revert ys Hy F. generalize (32 / esize e)%nat. induction xs as [|x xs IH]; intros n [|y ys] Hy F; cbn [map2 map]; auto. inversion F; subst. f_equal; [now apply rem_lane_y|]. now apply (IH (length ys)).
  - apply esize_ok.
  - rewrite length_map2; [exact Hx|]. etransitivity; [exact Hx|]. symmetry. etransitivity; [apply length_map2; etransitivity; [exact L1|symmetry; exact Hy]|exact L1].
Qed.
