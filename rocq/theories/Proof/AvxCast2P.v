(** simd_cast from AVX to SSE vectors, with an offset, and of masks. *)
From Coq Require Import ZArith List Bool Lia.
From Verif.Spec Require Import Seq FloatSpec RoundSpec CastSpec.
From Verif.Model Require Import Word Fp FpArith SseReg SseMove SortNet SseInt SseBuild SseArith SseMask SseConvert SimdArray
  AvxReg AvxMove AvxBuild AvxShuffle AvxMask AvxArith AvxConvert.
From Verif.Proof Require Import SeqP WordP FpP FpArithP FpIntP SseIntP SseEmulP ConvertP ConvertRegP SseArithP SseMaskP
  AvxMoveP AvxVecP AvxShuffleP AvxMaskP AvxArithP SseBuildP SortNetP AvxConvertP AvxCastP ConvertMain.
Import ListNotations.
Local Open Scope Z_scope.

(** ** AVX to SSE *)
Ltac xroute from to :=
  let fin := unfold packed_as; cbn [esize]; sizes; cbn [map app firstn length Nat.sub repeat lane_fn]; rewrite ?us_zero, ?sat_zero, ?zero_lo; reflexivity in
  first [ exists (lane_fn from to); split; [exact (lane_fn_ok from to)|]; solve [fin]
        | exists (fun x : elt from => mkw 2 (uval (@cvt_int32 (esize from) ToZero x))); split; [intros x; exact (cast_fp_short' from x eq_refl)|]; solve [fin]
        | exists (fun x : elt from => @ushort_sat (esize from) x); split; [intros x; exact (cast_fp_ushort_sat from x eq_refl)|]; solve [fin]
        | exists (fun x : elt from => mkw 2 (uval (@f2u (esize from) x))); split; [intros x; exact (cast_fp_ushort_u from x eq_refl)|]; solve [fin]
        | exists (fun x : elt Double => mkw 2 (uval (d2u x))); split; [intros x; exact (cast_double_ushort_u x)|]; solve [fin] ].
Ltac xgo2 := match goal with |- xpacked ?from ?to _ _ => xroute from to end.
Lemma yxcast1_pack undef avx2 from to (xs : list (elt from)) : length xs = (32 / esize from)%nat -> xpacked from to xs (yxcast1 undef avx2 from to (ypack xs)).
Proof.
  intros L. halves. unfold elt in *. destruct from; cbn [esize] in *; sizes; explicit; destruct to;
   unfold yxcast1, yconvert_float_short, yconvert_double_short, yconvert_float_ushort, yconvert_double_ushort, simd_cast1, convert, zeroExtend, cast256; steps. all: xgo2.
Qed.
Lemma yxcast_casted undef avx2 from to (xss : list (list (elt from))) r : Forall (fun xs => length xs = (32 / esize from)%nat) xss ->
  yxcast undef avx2 from to (map ypack xss) = Some r -> casted from to (concat xss) r.
Proof.
  intros F H. apply xpacked_casted. unfold yxcast in H. destruct (has256 avx2 from); [|discriminate H].
  destruct xss as [|xs [|ys [|zs xss]]]; try discriminate H; cbn [map] in H;
    repeat match goal with H : Forall _ (_ :: _) |- _ => inversion H; clear H; subst end; cbn [concat]; rewrite app_nil_r.
  - some_eq1 H. now apply yxcast1_pack.
  - halves. unfold elt in *. destruct from, to; try discriminate H; cbn [esize] in *; some_eq1 H; sizes; explicit; steps. all: xgo2.
Qed.

(** ** with an offset *)
Lemma ycast1_lo undef avx2 from to a b b' : (esize from < esize to)%nat -> ycast1 undef avx2 from to (Ymm a b) = ycast1 undef avx2 from to (Ymm a b').
Proof. destruct from, to; cbn [esize]; intros H; try lia; reflexivity. Qed.
Lemma ylanes_length e r : length (ylanes (esize e) r) = (32 / esize e)%nat.
Proof. rewrite ylanes_halves, app_length, !lanes_length. symmetry. apply half32. Qed.
Lemma lo_only undef avx2 from to (l : list (elt from)) b : (esize from < esize to)%nat -> length l = (16 / esize from)%nat ->
  Forall2 (cast_ok from to) (firstn (32 / esize to) l) (ylanes (esize to) (ycast1 undef avx2 from to (Ymm (pack l) b))).
Proof.
  intros S L. rewrite (ycast1_lo undef avx2 from to (pack l) b (pack (repeat (w0 (esize from)) (16 / esize from)))) by exact S.
  set (Z := repeat (w0 (esize from)) (16 / esize from)).
  assert (E : Ymm (pack l) (pack Z) = ypack (l ++ Z)) by (unfold elt in *; now rewrite ypack_app). rewrite E.
  assert (LL : length (l ++ Z) = (32 / esize from)%nat) by (apply len_app2; [exact L|apply repeat_length]).
  assert (LE : (32 / esize to <= 16 / esize from)%nat) by (clear - S; destruct from, to; cbn [esize] in *; try lia; vm_compute; lia).
  destruct (ypacked_casted undef from to _ _ (ycast1_pack undef avx2 from to (l ++ Z) LL)) as (C & _). cbv zeta in C. rewrite LL in C. pose proof (half32 from).
  rewrite Nat.min_r in C by lia. rewrite firstn_app in C. replace (32 / esize to - length l)%nat with 0%nat in C by lia. rewrite firstn_O, app_nil_r in C.
  rewrite (firstn_all2 (ylanes _ _)) in C by (rewrite ylanes_length; lia). exact C.
Qed.
Lemma xlo_only from to (l : list (elt from)) : (esize from <= esize to)%nat -> length l = (16 / esize from)%nat ->
  Forall2 (cast_ok from to) (firstn (16 / esize to) l) (lanes (esize to) (simd_cast1 true from to (pack l))).
Proof.
  intros S L. assert (LE : (16 / esize to <= 16 / esize from)%nat) by (clear - S; destruct from, to; cbn [esize] in *; try lia; vm_compute; lia).
  destruct (xpacked_casted from to _ _ (xcast1_pack from to l L)) as (C & _). rewrite L, Nat.min_r in C by lia.
  rewrite (firstn_all2 (lanes _ _)) in C by (rewrite lanes_length; lia). exact C.
Qed.
Lemma permute_x1 (a b : list Z) : length b = 16%nat -> exists z, ymem_permute128 8 0 1 Const0 (Ymm a b) = Ymm b z.
Proof. intros _. eexists. reflexivity. Qed.
Lemma firstn_skip_l {A} (l h : list A) k n : (k + n <= length l)%nat -> firstn n (skipn k (l ++ h)) = firstn n (skipn k l).
Proof. intros H. rewrite skipn_app. apply firstn_skip_ok. exact H. Qed.
Lemma skip_r {A} (l h : list A) k : (length l <= k)%nat -> skipn k (l ++ h) = skipn (k - length l) h.
Proof. intros H. rewrite skipn_app, skipn_all2 by exact H. reflexivity. Qed.
Lemma ycast_offset_ok undef avx2 from to offset (xs : list (elt from)) r : length xs = (32 / esize from)%nat ->
  ycast_offset undef avx2 from to offset (ypack xs) = Some r ->
  Forall2 (cast_ok from to) (firstn (32 / esize to) (skipn (offset * (32 / esize to)) xs)) (ylanes (esize to) r).
Proof.
  intros L H. unfold ycast_offset in H. cbv zeta in H. set (N := (32 / esize to)%nat) in *. set (k := (offset * N)%nat) in *.
  replace (esize from * offset * N)%nat with (k * esize from)%nat in H by (unfold k; lia).
  destruct (Nat.ltb_spec 0 (k * esize from)) as [K0|]; [|discriminate H]. destruct (Nat.ltb_spec (k * esize from) 32) as [K32|]; [|discriminate H]. cbn [andb] in H.
  assert (S : (esize from < esize to)%nat) by (unfold k, N in *; clear - K0 K32; destruct from, to; cbn [esize] in *; sizes; lia).
  destruct (split_y from xs L) as (l & h & -> & Ll & Lh & E). rewrite E in H. cbn [lo128 hi128] in H. clear E. unfold ycast in H.
  destruct (has256 avx2 from && has256 avx2 to); [|destruct (k * esize from <? 16)%nat, (k * esize from =? 16)%nat; discriminate H].
  assert (C : exists l' b, r = ycast1 undef avx2 from to (Ymm (pack l') b) /\ length l' = (16 / esize from)%nat /\ firstn N (skipn k (l ++ h)) = firstn N l').
  { destruct (Nat.ltb_spec (k * esize from) 16) as [K16|K16].
    - some_eq H. rewrite srli_pack by exact K16. exists (skipn k l ++ repeat (w0 (esize from)) k), undef. split; [reflexivity|].
      assert (KN : (k + N <= length l)%nat) by (rewrite Ll; unfold k, N in *; clear - K16 K0; destruct from, to; cbn [esize] in *; sizes; lia).
      split; [rewrite app_length, skipn_length, repeat_length; lia|]. rewrite firstn_skip_l by exact KN. symmetry. apply firstn_skip_ok. exact KN.
    - assert (KL : (16 / esize from <= k)%nat) by (unfold k, N in *; clear - K16; destruct from, to; cbn [esize] in *; sizes; lia).
      destruct (Nat.eqb_spec (k * esize from) 16) as [E16|E16].
      + assert (KE : k = (16 / esize from)%nat) by (clear - E16; destruct from; cbn [esize] in *; sizes; lia).
        destruct (permute_x1 (pack l) (pack h)) as (z & EZ); [unfold elt in *; rewrite pack_length, Lh; clear; destruct from; reflexivity|]. rewrite EZ in H. some_eq H.
        exists h, z. split; [reflexivity|]. split; [exact Lh|]. rewrite skip_r by lia. replace (k - length l)%nat with 0%nat by lia. reflexivity.
      + assert (KS : (k * esize from - 16 = (k - length l) * esize from)%nat) by (rewrite Ll; clear; destruct from; cbn [esize]; sizes; lia).
        rewrite KS in H. some_eq H. assert (KN : (k - length l + N <= length h)%nat) by (rewrite Ll, Lh; unfold k, N in *; clear - K32 K16; destruct from, to; cbn [esize] in *; sizes; lia).
        rewrite srli_pack by lia. exists (skipn (k - length l) h ++ repeat (w0 (esize from)) (k - length l)), undef. split; [reflexivity|].
        split; [rewrite app_length, skipn_length, repeat_length; lia|]. rewrite skip_r by lia. symmetry. apply firstn_skip_ok. exact KN. }
  destruct C as (l' & b & -> & Ll' & ->). apply lo_only; auto.
Qed.
Lemma alignr_pack {w} (l h : list (word w)) k : lane_ok w -> length l = (16 / w)%nat -> length h = (16 / w)%nat -> (k <= 16 / w + 16 / w)%nat ->
  mm_alignr_epi8 8 0 (pack h) (pack l) (k * w) = pack (firstn (16 / w) (skipn k (l ++ h ++ repeat (w0 w) (16 / w + 16 / w)))).
Proof.
  intros Hw Ll Lh K. unfold mm_alignr_epi8. rewrite Nat.div_mul by lia. change (2 * 8)%nat with 16%nat. change (4 * 8)%nat with 32%nat.
  assert (Z : repeat 0 32 = pack (repeat (w0 w) (16 / w + 16 / w))) by (destruct Hw as [->|[->|[->| ->]]]; reflexivity). rewrite Z, <- !pack_app.
  set (xs := l ++ h ++ repeat (w0 w) (16 / w + 16 / w)).
  assert (LX : length xs = (16 / w * 4)%nat) by (unfold xs; rewrite !app_length, repeat_length, Ll, Lh; lia). clearbody xs.
  rewrite <- (firstn_skipn k xs) at 1. rewrite pack_app. rewrite skipn_app, skipn_all2, pack_length, firstn_length by (rewrite pack_length, firstn_length; nia).
  replace (k * w - w * Nat.min k (length xs))%nat with 0%nat by nia. cbn [skipn app].
  rewrite <- (firstn_skipn (16 / w) (skipn k xs)) at 1. rewrite pack_app. rewrite firstn_app, firstn_all2, pack_length, firstn_length, skipn_length.
  - replace (16 - w * Nat.min (16 / w) (length xs - k))%nat with 0%nat; [cbn [firstn]; apply app_nil_r|]. rewrite Nat.min_l by lia. destruct Hw as [->|[->|[->| ->]]]; reflexivity.
  - rewrite pack_length, firstn_length, skipn_length, Nat.min_l by lia. destruct Hw as [->|[->|[->| ->]]]; vm_compute; lia.
Qed.
Lemma yxcast_offset_ok avx2 from to offset (xs : list (elt from)) r : length xs = (32 / esize from)%nat ->
  yxcast_offset avx2 from to offset (ypack xs) = Some r ->
  Forall2 (cast_ok from to) (firstn (16 / esize to) (skipn (offset * (16 / esize to)) xs)) (lanes (esize to) r).
Proof.
  intros L H. unfold yxcast_offset in H. cbv zeta in H. set (N := (16 / esize to)%nat) in *. set (k := (offset * N)%nat) in *.
  replace (esize from * offset * N)%nat with (k * esize from)%nat in H by (unfold k; lia). destruct (has256 avx2 from); [|discriminate H]. cbn [andb] in H.
  destruct (Nat.ltb_spec 0 (k * esize from)) as [K0|]; [|discriminate H]. destruct (Nat.ltb_spec (k * esize from) 32) as [K32|]; [|discriminate H]. cbn [andb] in H.
  assert (S : (esize from <= esize to)%nat) by (unfold k, N in *; clear - K0 K32; destruct from, to; cbn [esize] in *; sizes; lia).
  destruct (split_y from xs L) as (l & h & -> & Ll & Lh & E). rewrite E in H. cbn [lo128 hi128] in H. clear E.
  assert (KB : (k <= 16 / esize from + 16 / esize from)%nat) by (clear - K32; destruct from; cbn [esize] in *; sizes; lia).
  assert (KN : (k + N <= length (l ++ h))%nat) by (rewrite L; unfold k, N in *; clear - K0 K32; destruct from, to; cbn [esize] in *; sizes; lia).
  assert (NL : (N <= 16 / esize from)%nat) by (unfold N; clear - S; destruct from, to; cbn [esize] in *; try lia; vm_compute; lia).
  assert (C : exists l', r = simd_cast1 true from to (pack l') /\ length l' = (16 / esize from)%nat /\ firstn N (skipn k (l ++ h)) = firstn N l').
  { destruct (Nat.eqb_spec (k * esize from) 16) as [E16|E16].
    - assert (KE : k = (16 / esize from)%nat) by (clear - E16; destruct from; cbn [esize] in *; sizes; lia). some_eq1 H.
      exists h. split; [reflexivity|]. split; [exact Lh|]. rewrite skip_r by lia. replace (k - length l)%nat with 0%nat by lia. reflexivity.
    - some_eq1 H. rewrite alignr_pack by (auto; apply lane_ok_e). set (Z := repeat (w0 (esize from)) (16 / esize from + 16 / esize from)).
      assert (LZ : length Z = (16 / esize from + 16 / esize from)%nat) by apply repeat_length.
      eexists. split; [reflexivity|]. split; [unfold elt in *; rewrite firstn_length, skipn_length, !app_length, LZ, Ll, Lh; lia|].
      rewrite firstn_firstn, Nat.min_l by exact NL. rewrite app_assoc. symmetry. apply firstn_skip_l. exact KN. }
  destruct C as (l' & -> & Ll' & ->). apply xlo_only; auto.
Qed.
Lemma xycast_offset_ok undef avx2 from to offset (xs : list (elt from)) r : length xs = (16 / esize from)%nat ->
  xycast_offset undef avx2 from to offset (pack xs) = Some r ->
  Forall2 (cast_ok from to) (firstn (32 / esize to) (skipn (offset * (32 / esize to)) xs)) (ylanes (esize to) r).
Proof.
  intros L H. unfold elt in *. destruct from, to, offset as [|[|offset]]; try discriminate H; cbn [esize] in *; sizes; explicit; unfold xycast_offset, simd_cast_offset in H;
    cbn [Nat.eqb esize] in H; change (4 * 1 * (16 / 4))%nat with 16%nat in H; change (2 * 1 * (16 / 4))%nat with (4 * 2)%nat in H; rewrite (srli_pack _ 4) in H by lia; cbn [skipn app repeat] in H;
    cbn [andb Nat.ltb Nat.leb Nat.mul Nat.add option_map] in H; some_eq H; unfold xycast1, simd_cast1, convert; steps; rewrite ylanes_pack2 by reflexivity; cbn [Nat.mul Nat.add firstn skipn app];
    match goal with |- Forall2 (cast_ok ?f ?t) [?a; ?b; ?c; ?d] _ =>
      exact (forall2_map (cast_ok f t) (lane_fn f t) (lane_fn_ok f t) [a; b; c; d]) end.
Qed.
