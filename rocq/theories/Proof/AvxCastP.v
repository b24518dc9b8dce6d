(** simd_cast and the converting constructors of AVX builds. *)
From Coq Require Import ZArith List Bool Lia.
From Verif.Spec Require Import Seq FloatSpec RoundSpec CastSpec.
From Verif.Model Require Import Word Fp FpArith SseReg SseMove SortNet SseInt SseBuild SseArith SseMask SseConvert SimdArray
  AvxReg AvxMove AvxBuild AvxShuffle AvxMask AvxArith AvxConvert.
From Verif.Proof Require Import SeqP WordP FpP FpArithP FpIntP SseIntP SseEmulP ConvertP ConvertRegP SseArithP SseMaskP
  AvxMoveP AvxVecP AvxShuffleP AvxMaskP AvxArithP SseBuildP SortNetP AvxConvertP.
Import ListNotations.
Local Open Scope Z_scope.

(** the entries of the result: a full register, or a register whose upper half is [undef] *)
Definition ypacked (undef : reg) (from to : etype) (xs : list (elt from)) (r : yreg) : Prop :=
  exists f : elt from -> elt to, (forall x, cast_ok from to x (f x)) /\
  ((exists A B, r = Ymm (pack A) (pack B) /\ length A = (16 / esize to)%nat /\ length B = (16 / esize to)%nat /\
      A ++ B = firstn (32 / esize to) (map f xs) ++ repeat (w0 (esize to)) (32 / esize to - length xs)) \/
   (exists A, r = Ymm (pack A) undef /\ (length xs <= 16 / esize to)%nat /\ A = map f xs ++ repeat (w0 (esize to)) (16 / esize to - length xs)) \/
   (exists U A B, undef = pack U /\ length U = (16 / esize from)%nat /\ r = Ymm (pack A) (pack B) /\ length A = (16 / esize to)%nat /\ length B = (16 / esize to)%nat /\
      (length xs <= 32 / esize to)%nat /\ f (w0 (esize from)) = w0 (esize to) /\ (length (xs ++ U) <= 32 / esize to)%nat /\
      A ++ B = map f (xs ++ U) ++ repeat (w0 (esize to)) (32 / esize to - length (xs ++ U)))).
Definition ycasted (undef : reg) (from to : etype) (xs : list (elt from)) (r : yreg) : Prop :=
  let n := Nat.min (length xs) (32 / esize to) in
  Forall2 (cast_ok from to) (firstn n xs) (firstn n (ylanes (esize to) r)) /\
  (undef = mm_setzero -> skipn n (ylanes (esize to) r) = repeat (w0 (esize to)) (32 / esize to - n)).
Lemma half32 e : (32 / esize e = 16 / esize e + 16 / esize e)%nat.
Proof. destruct e; reflexivity. Qed.
Lemma lane_ok_e e : lane_ok (esize e).
Proof. destruct e; [right; left|right; left|right; right; left|right; right; left|right; right; left|right; right; right]; reflexivity. Qed.
Lemma lanes_length e r : length (lanes (esize e) r) = (16 / esize e)%nat.
Proof. unfold lanes, of_reg. rewrite map_length. apply chunks_length. Qed.
Lemma ypacked_casted undef from to xs r : ypacked undef from to xs r -> ycasted undef from to xs r.
Proof.
  intros (f & F & [(A & B & -> & LA & LB & E)|[(A & -> & Le & ->)|(U & A & B & EU & LU & -> & LA & LB & Le & F0 & LXU & E)]]); unfold ycasted; cbv zeta.
  - rewrite ylanes_pack2 by auto. rewrite E. set (N := (32 / esize to)%nat). destruct (Nat.le_gt_cases (length xs) N) as [Q|Q].
    + rewrite Nat.min_l by exact Q. rewrite (firstn_all2 xs), (firstn_all2 (map f xs)) by (rewrite ?map_length; lia).
      rewrite firstn_app, firstn_all2, map_length, Nat.sub_diag, firstn_O, app_nil_r by (rewrite map_length; lia). split; [now apply forall2_map|].
      intros _. rewrite skipn_app, skipn_all2, map_length, Nat.sub_diag, skipn_O by (rewrite map_length; lia). reflexivity.
    + rewrite Nat.min_r by lia. replace (N - length xs)%nat with 0%nat by lia. cbn [repeat]. rewrite app_nil_r, firstn_firstn, Nat.min_id, firstn_map.
      rewrite Nat.sub_diag. split; [now apply forall2_map|]. intros _. apply skipn_all2. rewrite map_length, firstn_length. lia.
  - pose proof (half32 to) as H32. rewrite Nat.min_l by lia. rewrite ylanes_halves. cbn [lo128 hi128].
    rewrite lanes_pack by (rewrite app_length, map_length, repeat_length; lia). rewrite <- app_assoc. rewrite (firstn_all2 xs) by lia.
    rewrite firstn_app, firstn_all2, map_length, Nat.sub_diag, firstn_O, app_nil_r by (rewrite map_length; lia). split; [now apply forall2_map|].
    intros ->. rewrite skipn_app, skipn_all2, map_length, Nat.sub_diag, skipn_O by (rewrite map_length; lia). cbn [app].
    rewrite (setzero_pack (esize to)) by apply lane_ok_e. rewrite lanes_pack by apply repeat_length. rewrite <- repeat_app. f_equal. lia.
  - rewrite ylanes_pack2 by auto. rewrite E, map_app, <- app_assoc, Nat.min_l by exact Le. rewrite (firstn_all2 xs) by lia.
    rewrite firstn_app, firstn_all2, map_length, Nat.sub_diag, firstn_O, app_nil_r by (rewrite map_length; lia). split; [now apply forall2_map|].
    intros ->. rewrite skipn_app, skipn_all2, map_length, Nat.sub_diag, skipn_O by (rewrite map_length; lia). cbn [app].
    assert (EZ : U = repeat (w0 (esize from)) (16 / esize from)).
    { rewrite (setzero_pack (esize from)) in EU by apply lane_ok_e. apply (f_equal (lanes (esize from))) in EU. rewrite !lanes_pack in EU by (auto; apply repeat_length). now symmetry. }
    rewrite EZ in LXU |- *. rewrite app_length, repeat_length in *. rewrite map_repeat, F0, <- repeat_app. f_equal. lia.
Qed.

Ltac some_eq H := apply (f_equal (fun o => match o with Some v => v | None => Ymm [] [] end)) in H; subst.
Ltac some_eq1 H := apply (f_equal (fun o => match o with Some v => v | None => [] end)) in H; subst.
Ltac sizes := try (change (16 / 2)%nat with 8%nat in *); try (change (16 / 4)%nat with 4%nat in *); try (change (16 / 8)%nat with 2%nat in *);
  try (change (32 / 2)%nat with 16%nat in *); try (change (32 / 4)%nat with 8%nat in *); try (change (32 / 8)%nat with 4%nat in *).
Ltac ystep :=
  first [rewrite yshort_int_pack by reflexivity | rewrite yushort_int_pack by reflexivity | rewrite ycvtepi16_pack by reflexivity | rewrite ycvtepu16_pack by reflexivity
       | rewrite ycvttps_pack by reflexivity | rewrite ycvttpd_pack by reflexivity
       | rewrite ycvtepi32_ps_pack by reflexivity | rewrite ycvtepi32_pd_pack | rewrite yfloat_uint_pack by reflexivity | rewrite ycast_float_uint_pack by reflexivity
       | rewrite ydouble_uint_pack by reflexivity | rewrite yuint_float_pack by reflexivity | rewrite yuint_double_pack | rewrite xyuint_double_pack
       | rewrite ycvtpd_ps_pack by reflexivity | rewrite ycvtps_pd_pack
       | rewrite yint_ushort_pack by reflexivity | rewrite yint_short_pack by reflexivity | rewrite int_ushort_pack by reflexivity
       | rewrite ynarrow_short_pack by reflexivity | rewrite ynarrow_ushort_pack by reflexivity
       | rewrite packus_pack by reflexivity | rewrite packs_pack by reflexivity | rewrite i16_pack by reflexivity
       | conv_step];
  cbn [map app firstn skipn repeat lo128 hi128].
Lemma us_zero : mkw 2 (Z.max 0 (Z.min (2 ^ 16 - 1) (sval (w0 4)))) = w0 2.
Proof. reflexivity. Qed.
(* the shapes *)
Ltac full := left; eexists _, _; split; [reflexivity|]; split; [reflexivity|]; split; [reflexivity|]; sizes; cbn [map app firstn length Nat.sub repeat lane_fn]; reflexivity.
Ltac half := right; left; eexists; split; [unfold zeroExtend, cast256; reflexivity|]; cbn [esize]; sizes; cbn [map app length Nat.sub repeat lane_fn];
  split; [lia|]; rewrite ?us_zero, ?sat_zero, ?zero_lo; reflexivity.
Ltac quarter := right; right; match goal with H : _ = pack ?U |- _ => eexists U, _, _; split; [exact H|]; split; [reflexivity|]; split; [reflexivity|]; split; [reflexivity|]; split; [reflexivity|] end;
  cbn [esize]; sizes; cbn [map app length Nat.sub repeat lane_fn]; split; [lia|]; split; [apply word_ext; vm_compute; reflexivity|]; split; [lia|];
  rewrite ?us_zero, ?sat_zero, ?zero_lo; reflexivity.
Ltac shape := solve [full | half | quarter].
Ltac route from to :=
  first [ exists (lane_fn from to); split; [exact (lane_fn_ok from to)|]; shape
        | exists (fun x : elt from => mkw 2 (uval (@cvt_int32 (esize from) ToZero x))); split; [intros x; exact (cast_fp_short' from x eq_refl)|]; shape
        | exists (fun x : elt from => @ushort_sat (esize from) x); split; [intros x; exact (cast_fp_ushort_sat from x eq_refl)|]; shape
        | exists (fun x : elt from => mkw 2 (uval (@f2u (esize from) x))); split; [intros x; exact (cast_fp_ushort_u from x eq_refl)|]; shape
        | exists (fun x : elt Double => mkw 2 (uval (d2u x))); split; [intros x; exact (cast_double_ushort_u x)|]; shape ].

Ltac explicit := repeat match goal with
    | H : length ?l = 8%nat |- _ => eight l; clear H
    | H : length ?l = 4%nat |- _ => four l; clear H
    | H : length ?l = 2%nat |- _ => two l; clear H end.
Lemma split_y e (xs : list (elt e)) : length xs = (32 / esize e)%nat ->
  exists l h, xs = l ++ h /\ length l = (16 / esize e)%nat /\ length h = (16 / esize e)%nat /\ ypack xs = Ymm (pack l) (pack h).
Proof. intros L. exact (split_halves xs (esize_ok e) L). Qed.
Ltac halves := repeat match goal with
  | L : length ?xs = (32 / esize ?e)%nat |- _ =>
      let l := fresh "l" in let h := fresh "h" in let Ll := fresh "Ll" in let Lh := fresh "Lh" in let E := fresh "E" in
      destruct (split_y e xs L) as (l & h & -> & Ll & Lh & E); rewrite E in *; clear E L end.
Ltac go := match goal with |- ypacked _ ?from ?to _ _ => route from to end.
Ltac steps := cbn [lo128 hi128]; rewrite ?zero4; cbn [repeat]; repeat ystep; rewrite ?sval_short_wide, ?sval_ushort_wide.

(** ** AVX to AVX *)
Lemma ycast1_pack undef avx2 from to (xs : list (elt from)) : length xs = (32 / esize from)%nat ->
  ypacked undef from to xs (ycast1 undef avx2 from to (ypack xs)).
Proof.
  intros L. halves. unfold elt in *. destruct from; cbn [esize] in *; sizes; explicit; destruct to; unfold ycast1; steps. all: go.
Qed.
Lemma ycast2_pack undef from to (xs ys : list (elt from)) r : length xs = (32 / esize from)%nat -> length ys = (32 / esize from)%nat ->
  ycast2 undef from to (ypack xs) (ypack ys) = Some r -> ypacked undef from to (xs ++ ys) r.
Proof.
  intros L L' H. halves. unfold elt in *. destruct from, to; try discriminate H; cbn [esize ycast2] in *; some_eq H; sizes; explicit; steps. all: go.
Qed.
Lemma ycast3_pack undef from to (xs ys zs : list (elt from)) r : length xs = (32 / esize from)%nat -> length ys = (32 / esize from)%nat -> length zs = (32 / esize from)%nat ->
  ycast3 from to (ypack xs) (ypack ys) (ypack zs) = Some r -> ypacked undef from to (xs ++ ys ++ zs) r.
Proof.
  intros L L' L'' H. halves. unfold elt in *. destruct from, to; try discriminate H; cbn [esize ycast3] in *; some_eq H; sizes; explicit; steps; rewrite ?us_zero, ?sat_zero. all: go.
Qed.
Lemma ycast4_pack undef from to (xs ys zs ts : list (elt from)) r : length xs = (32 / esize from)%nat -> length ys = (32 / esize from)%nat -> length zs = (32 / esize from)%nat -> length ts = (32 / esize from)%nat ->
  ycast4 from to (ypack xs) (ypack ys) (ypack zs) (ypack ts) = Some r -> ypacked undef from to (xs ++ ys ++ zs ++ ts) r.
Proof.
  intros L L' L'' L''' H. halves. unfold elt in *. destruct from, to; try discriminate H; cbn [esize ycast4] in *; some_eq H; sizes; explicit; steps. all: go.
Qed.
Lemma ycast_casted undef avx2 from to (xss : list (list (elt from))) r : Forall (fun xs => length xs = (32 / esize from)%nat) xss ->
  ycast undef avx2 from to (map ypack xss) = Some r -> ycasted undef from to (concat xss) r.
Proof.
  intros F H. apply ypacked_casted. unfold ycast in H. destruct (has256 avx2 from && has256 avx2 to); [|discriminate H].
  destruct xss as [|xs [|ys [|zs [|ts [|us xss]]]]]; try discriminate H; cbn [map] in H;
    repeat match goal with H : Forall _ (_ :: _) |- _ => inversion H; clear H; subst end; cbn [concat]; rewrite app_nil_r.
  - some_eq H. now apply ycast1_pack.
  - now apply ycast2_pack.
  - now apply ycast3_pack.
  - now apply ycast4_pack.
Qed.

(** ** the converting constructors *)
Lemma construct_pack undef avx2 from to (xs : list (elt from)) : length xs = (32 / esize from)%nat ->
  ypacked undef from to xs (avx_construct undef avx2 from to (ypack xs)).
Proof.
  intros L. halves. unfold elt in *. destruct from; cbn [esize] in *; sizes; explicit; destruct to; unfold avx_construct, yconvert_float_short, yconvert_double_short, yconvert_float_ushort, yconvert_double_ushort; steps.
  all: go.
Qed.

(** ** SSE to SSE *)
Definition xpacked (from to : etype) (xs : list (elt from)) (r : reg) : Prop :=
  exists f : elt from -> elt to, (forall x, cast_ok from to x (f x)) /\ packed_as from to f xs r.
Lemma xpacked_casted from to xs r : xpacked from to xs r -> casted from to xs r.
Proof. intros (f & F & P). now apply (packed_casted _ _ f). Qed.
Lemma xlane from to xs r : packed_as from to (lane_fn from to) xs r -> xpacked from to xs r.
Proof. intros P. exists (lane_fn from to). split; [exact (lane_fn_ok from to)|exact P]. Qed.
Lemma xpacked_half undef from to xs r : xpacked from to xs r -> (length xs <= 16 / esize to)%nat -> ypacked undef from to xs (zeroExtend undef r).
Proof.
  intros (f & F & ->) L. exists f. split; [exact F|]. right; left. eexists. split; [reflexivity|]. split; [exact L|]. rewrite firstn_all2 by (rewrite map_length; lia). reflexivity.
Qed.
Ltac xgo := apply xlane; unfold packed_as; cbn [esize]; sizes; cbn [map app firstn length Nat.sub repeat lane_fn]; rewrite ?us_zero, ?sat_zero, ?zero_lo; reflexivity.
Lemma xcast2_pack from to (xs ys : list (elt from)) r : length xs = (16 / esize from)%nat -> length ys = (16 / esize from)%nat ->
  xcast2 from to (pack xs) (pack ys) = Some r -> xpacked from to (xs ++ ys) r.
Proof.
  intros L L' H. assert (C : from = Double \/ simd_cast2 true from to (pack xs) (pack ys) = Some r) by (destruct from; auto).
  destruct C as [->|C]; [|apply xlane; apply (simd_cast2_pack true); auto; intros (A & _); discriminate A].
  unfold elt in *. destruct to; try discriminate H; cbn [esize xcast2] in *; unfold xcast_double_int in *; some_eq1 H; sizes; explicit; steps. all: xgo.
Qed.
Lemma xcast3_pack from to (xs ys zs : list (elt from)) r : length xs = (16 / esize from)%nat -> length ys = (16 / esize from)%nat -> length zs = (16 / esize from)%nat ->
  xcast3 from to (pack xs) (pack ys) (pack zs) = Some r -> xpacked from to (xs ++ ys ++ zs) r.
Proof.
  intros L L' L'' H. unfold elt in *. destruct from, to; try discriminate H; cbn [esize xcast3 xcast2 simd_cast2] in *; unfold xcast_double_int, convert, convert_double_int in *; some_eq1 H; sizes; explicit; steps.
  - exists short3. split; [intros x; exact (cast_fp_short' Double x eq_refl)|]. unfold packed_as; cbn [esize]; sizes; cbn [map app firstn length Nat.sub repeat]. rewrite !zero_lo. reflexivity.
  - xgo.
Qed.
Lemma xcast4_pack from to (xs ys zs ts : list (elt from)) r : length xs = (16 / esize from)%nat -> length ys = (16 / esize from)%nat -> length zs = (16 / esize from)%nat -> length ts = (16 / esize from)%nat ->
  xcast4 from to (pack xs) (pack ys) (pack zs) (pack ts) = Some r -> xpacked from to (xs ++ ys ++ zs ++ ts) r.
Proof.
  intros L L' L'' L''' H. unfold elt in *. destruct from, to; try discriminate H; cbn [esize xcast4 xcast2 simd_cast2] in *; unfold xcast_double_int in *; some_eq1 H; sizes; explicit; steps. all: xgo.
Qed.
Lemma xcast1_pack from to (xs : list (elt from)) : length xs = (16 / esize from)%nat -> xpacked from to xs (simd_cast1 true from to (pack xs)).
Proof. intros L. apply xlane. apply simd_cast1_pack; auto. intros (A & _); discriminate A. Qed.
Lemma xcast_casted from to (xss : list (list (elt from))) r : Forall (fun xs => length xs = (16 / esize from)%nat) xss ->
  xcast from to (map pack xss) = Some r -> casted from to (concat xss) r.
Proof.
  intros F H. apply xpacked_casted. unfold xcast in H. destruct xss as [|xs [|ys [|zs [|ts [|us xss]]]]]; try discriminate H; cbn [map] in H;
    repeat match goal with H : Forall _ (_ :: _) |- _ => inversion H; clear H; subst end; cbn [concat]; rewrite app_nil_r.
  - some_eq1 H. now apply xcast1_pack.
  - now apply xcast2_pack.
  - now apply xcast3_pack.
  - now apply xcast4_pack.
Qed.

(** ** SSE to AVX *)
Lemma xycast1_pack undef avx2 from to (xs : list (elt from)) : length xs = (16 / esize from)%nat ->
  ypacked undef from to xs (xycast1 undef avx2 from to (pack xs)).
Proof.
  intros L. assert (C : (length xs <= 16 / esize to)%nat /\ xycast1 undef avx2 from to (pack xs) = zeroExtend undef (simd_cast1 true from to (pack xs)) \/
    from = Short \/ from = UShort \/ to = Double \/ (from = Int /\ to = Float)).
  { rewrite L. destruct from, to; auto; try (left; split; [vm_compute; lia|reflexivity]). }
  destruct C as [(C & ->)|C]; [apply xpacked_half; [now apply xcast1_pack|exact C]|].
  unfold elt in *. destruct from; cbn [esize] in *; sizes; explicit; (destruct to; try (exfalso; clear - C; intuition discriminate));
   unfold xycast1, simd_cast1, convert; steps. all: go.
Qed.
Lemma xycast2_pack undef from to (xs ys : list (elt from)) r : length xs = (16 / esize from)%nat -> length ys = (16 / esize from)%nat ->
  forall avx2, xycast2 undef avx2 from to (pack xs) (pack ys) = Some r -> ypacked undef from to (xs ++ ys) r.
Proof.
  intros L L' avx2 H. assert (C : (length (xs ++ ys) <= 16 / esize to)%nat /\ option_map (zeroExtend undef) (xcast2 from to (pack xs) (pack ys)) = Some r \/
     (esize from = esize to)).
  { rewrite app_length, L, L'. destruct from, to; auto; try discriminate H; try (left; split; [vm_compute; lia|exact H]). }
  destruct C as [(C & E)|C].
  - destruct (xcast2 from to (pack xs) (pack ys)) as [x|] eqn:X; [|discriminate E]. cbn [option_map] in E. some_eq E. apply xpacked_half; [now apply xcast2_pack|exact C].
  - unfold elt in *. destruct from; cbn [esize] in *; sizes; explicit; (destruct to; try discriminate H; try discriminate C); cbn [xycast2] in H; some_eq H; unfold ycast1; steps. all: go.
Qed.
Lemma undef_pack undef e : reg_ok undef -> exists U : list (elt e), undef = pack U /\ length U = (16 / esize e)%nat.
Proof. intros H. exists (lanes (esize e) undef). split; [symmetry; apply pack_lanes; [apply lane_ok_e|exact H]|apply lanes_length]. Qed.
Lemma joined e (x0 x1 : list (elt e)) : length x0 = (16 / esize e)%nat -> xyjoin e (pack x0) (pack x1) = ypack (x0 ++ x1).
Proof. intros L. unfold elt in *. now rewrite ypack_app. Qed.
Lemma xyself undef avx2 e x : xycast1 undef avx2 e e x = Ymm x undef.
Proof. destruct e; reflexivity. Qed.
Lemma len_app2 e (x0 x1 : list (elt e)) : length x0 = (16 / esize e)%nat -> length x1 = (16 / esize e)%nat -> length (x0 ++ x1) = (32 / esize e)%nat.
Proof. intros A B. rewrite app_length, A, B. symmetry. apply half32. Qed.
Ltac some_eqy C := apply (f_equal (fun o => match o with Some v => v | None => Ymm [] [] end)) in C; rewrite <- C; clear C.
Lemma xycast3_pack undef avx2 from to (xs ys zs : list (elt from)) r : reg_ok undef -> length xs = (16 / esize from)%nat -> length ys = (16 / esize from)%nat -> length zs = (16 / esize from)%nat ->
  xycast3 undef avx2 from to (pack xs) (pack ys) (pack zs) = Some r -> ypacked undef from to (xs ++ ys ++ zs) r.
Proof.
  intros RU L L' L'' H. destruct (undef_pack undef from RU) as (U & EU & LU).
  assert (C : (length (xs ++ ys ++ zs) <= 16 / esize to)%nat /\ option_map (zeroExtend undef) (xcast3 from to (pack xs) (pack ys) (pack zs)) = Some r \/
     ycast2 undef from to (xyjoin from (pack xs) (pack ys)) (xycast1 undef avx2 from from (pack zs)) = Some r /\ (from = Double -> esize to = 4%nat)).
  { rewrite !app_length, L, L', L''. destruct from, to; try discriminate H; first [left; split; [vm_compute; lia|exact H] | right; split; [exact H|first [discriminate|reflexivity]]]. }
  destruct C as [(C & E)|(C & D)].
  - destruct (xcast3 from to (pack xs) (pack ys) (pack zs)) as [x|] eqn:X; [|discriminate E]. cbn [option_map] in E. some_eq E. apply xpacked_half; [now apply xcast3_pack|exact C].
  - clear H RU. rewrite xyself in C. unfold xyjoin in C. rewrite EU in C. unfold elt in *. destruct from, to; try discriminate C; try (discriminate (D eq_refl)); clear D; cbn [esize ycast2] in *; some_eqy C; sizes; explicit; steps. all: go.
Qed.
Lemma xycast4_pack undef from to (xs ys zs ts : list (elt from)) r : length xs = (16 / esize from)%nat -> length ys = (16 / esize from)%nat -> length zs = (16 / esize from)%nat -> length ts = (16 / esize from)%nat ->
  xycast4 undef from to (pack xs) (pack ys) (pack zs) (pack ts) = Some r -> ypacked undef from to (xs ++ ys ++ zs ++ ts) r.
Proof.
  intros L L' L'' L''' H.
  assert (C : (length (xs ++ ys ++ zs ++ ts) <= 16 / esize to)%nat /\ option_map (zeroExtend undef) (xcast4 from to (pack xs) (pack ys) (pack zs) (pack ts)) = Some r \/
     ycast2 undef from to (xyjoin from (pack xs) (pack ys)) (xyjoin from (pack zs) (pack ts)) = Some r).
  { rewrite !app_length, L, L', L'', L'''. destruct from, to; auto; try discriminate H; try (left; split; [vm_compute; lia|exact H]). }
  destruct C as [(C & E)|C].
  - destruct (xcast4 from to (pack xs) (pack ys) (pack zs) (pack ts)) as [x|] eqn:X; [|discriminate E]. cbn [option_map] in E. some_eq E. apply xpacked_half; [now apply xcast4_pack|exact C].
  - rewrite !joined in C by auto. apply ycast2_pack in C; try (now apply len_app2). now rewrite <- app_assoc in C.
Qed.
Lemma xycast_casted undef avx2 from to (xss : list (list (elt from))) r : reg_ok undef -> Forall (fun xs => length xs = (16 / esize from)%nat) xss ->
  xycast undef avx2 from to (map pack xss) = Some r -> ycasted undef from to (concat xss) r.
Proof.
  intros RU F H. apply ypacked_casted. unfold xycast in H. destruct (has256 avx2 to); [|discriminate H]. destruct (undef_pack undef from RU) as (U & EU & LU).
  destruct xss as [|x0 [|x1 [|x2 [|x3 [|x4 [|x5 [|x6 [|x7 [|x8 xss]]]]]]]]]; try discriminate H; cbn [map] in H;
    repeat match goal with H : Forall _ (_ :: _) |- _ => inversion H; clear H; subst x l end; cbn [concat]; rewrite app_nil_r.
  - some_eqy H. now apply xycast1_pack.
  - now apply (xycast2_pack undef from to x0 x1 r) in H.
  - now apply (xycast3_pack undef avx2).
  - now apply (xycast4_pack undef).
  - clear RU. rewrite xyself in H. rewrite EU in H. unfold xyjoin, elt in *. destruct from, to; try discriminate H; cbn [esize ycast3] in *; some_eqy H; sizes; explicit; steps; rewrite ?us_zero, ?sat_zero. all: go.
  - rewrite !joined in H by auto. apply (ycast3_pack undef) in H; try (now apply len_app2). now rewrite <- !app_assoc in H.
  - clear RU. rewrite xyself in H. rewrite EU in H. unfold xyjoin, elt in *. destruct from, to; try discriminate H; cbn [esize ycast4] in *; some_eqy H; sizes; explicit; steps; rewrite ?us_zero, ?sat_zero. all: go.
  - rewrite !joined in H by auto. apply (ycast4_pack undef) in H; try (now apply len_app2). now rewrite <- !app_assoc in H.
Qed.
