(** Loads and stores on a memory of bytes. *)
From Coq Require Import ZArith List Bool Lia.
From Verif.Spec Require Import Seq NativeSpec MaskSpec OperandSpec FloatSpec RoundSpec CastSpec VectorSpec ByteMemSpec LoadSpec.
From Verif.Model Require Import Word Fp FpArith SplitSize SseReg SseMove SortNet SseInt SseBuild SseArith SseMask SimdArray SimdArrayOps Mem SseConvert GatherScatter
  AvxReg AvxMove AvxBuild AvxShuffle AvxMask AvxArith AvxConvert AvxGather LoadStore.
From Verif.Proof Require Import SeqP SplitSizeP SimdArrayP SimdArrayOpsP WordP FpP FpArithP FpIntP SseIntP SseMoveP SseEmulP SseMaskP SseVecP SseBuildP BitScanP InterleaveP ConvertP ConvertRegP ConvertMain
  MathP AvxVecP AvxMaskP AvxBuildP AvxShuffleP AvxArithP AvxConvertP AvxCastP AvxCast2P AvxGatherP.
Import ListNotations.
Local Open Scope Z_scope.

(** * what a lane becomes *)
Definition mt_fn (mt : mem_type) (e : etype) : word (mt_size mt) -> elt e :=
  match mt as t return word (mt_size t) -> elt e with
  | MSChar => fun x => int_to e (sval x)
  | MUChar => fun x => int_to e (uval x)
  | MElt u => lane_fn u e
  end.
Lemma sval4_small z : - 2 ^ 31 <= z < 2 ^ 31 -> sval (mkw 4 z) = z.
Proof. intros H. apply mkw4_sval. exact H. Qed.
Lemma as_signed_1 v : 0 <= v < 256 -> sval (mkw 1 v) = as_signed 1 v.
Proof.
  intros H. unfold sval, as_signed. rewrite uval_mkw. change (modulus 1) with 256. rewrite Z.mod_small by lia.
  change (2 ^ (8 * Z.of_nat 1 - 1)) with 128. change (2 ^ (8 * Z.of_nat 1)) with 256. change (256 / 2) with 128. reflexivity.
Qed.
Lemma int_to_ok e z : - 2 ^ 31 <= z < 2 ^ 31 -> cast_ok Int e (mkw 4 z) (int_to e z).
Proof.
  intros H. assert (V : int_value Int (mkw 4 z) = z) by (unfold int_value; cbn [is_signed]; now apply sval4_small).
  destruct (is_integer e) eqn:I.
  - replace (int_to e z) with (mkw (esize e) z) by (destruct e; try discriminate I; reflexivity).
    apply (cast_int_int Int e); auto. rewrite V. apply (zero_mod (esize e)).
  - pose proof (cast_int_fp Int e (mkw 4 z) eq_refl I) as C. rewrite V in C. destruct e; try discriminate I; exact C.
Qed.
Lemma mt_fn_ok mt e v : 0 <= v < 2 ^ (8 * Z.of_nat (mt_size mt)) -> converted mt e v (mt_fn mt e (mkw (mt_size mt) v)).
Proof.
  intros H. destruct mt as [| |u]; cbn [converted mt_fn mt_size] in *.
  - change (2 ^ (8 * Z.of_nat 1)) with 256 in H. rewrite as_signed_1 by auto. apply int_to_ok. unfold as_signed. destruct (v <? _); lia.
  - change (2 ^ (8 * Z.of_nat 1)) with 256 in H. rewrite uval_mkw. change (modulus 1) with 256. rewrite Z.mod_small by auto. apply int_to_ok. lia.
  - apply lane_fn_ok.
Qed.

(** * arrays in memory *)
Lemma mem_load_app {A} (m : memory A) p : forall a q, mem_load m a (p + q) = (x <-- mem_load m a p; y <-- mem_load m (a + Z.of_nat p) q; Some (x ++ y)).
Proof.
  induction p as [|p IH]; intros a q.
  - cbn [Nat.add mem_load obind]. rewrite Z.add_0_r. destruct (mem_load m a q); reflexivity.
  - cbn [Nat.add mem_load]. destruct (m a) as [x|]; [|reflexivity]. rewrite IH. replace (a + Z.of_nat (S p)) with (a + 1 + Z.of_nat p) by lia.
    destruct (mem_load m (a + 1) p) as [xs|]; [|reflexivity]. cbn [obind option_map]. destruct (mem_load m (a + 1 + Z.of_nat p) q); reflexivity.
Qed.
Lemma number_load m n : forall a v, number_at m a n v -> mem_load m a n = Some (bytes n v).
Proof.
  induction n as [|n IH]; intros a v [R N]; [reflexivity|]. cbn [mem_load bytes]. pose proof (N 0 ltac:(lia)) as N0. rewrite Z.add_0_r in N0. rewrite N0.
  change (v / 2 ^ (8 * 0)) with (v / 1). rewrite Z.div_1_r. rewrite (IH (a + 1) (v / 256)); [reflexivity|]. split.
  - replace (8 * Z.of_nat (S n)) with (8 * (Z.of_nat n + 1)) in R by lia. rewrite pow256 in R by lia. split; [apply Z.div_pos; lia|apply Z.div_lt_upper_bound; lia].
  - intros i Hi. replace (a + 1 + i) with (a + (i + 1)) by lia. rewrite N by lia. rewrite pow256 by lia. rewrite Z.div_div by (try apply Z.pow_pos_nonneg; lia). reflexivity.
Qed.
Definition loaded (m : memory Z) (a : Z) {w} (ws : list (word w)) : Prop := mem_load m a (length ws * w) = Some (pack ws).
Lemma elements_cons m a mt v vs : elements_at m a mt (v :: vs) <-> number_at m a (mt_size mt) v /\ elements_at m (a + Z.of_nat (mt_size mt)) mt vs.
Proof.
  unfold elements_at. cbn [length]. split.
  - intros H. split; [specialize (H 0 ltac:(lia)); now rewrite Z.mul_0_l, Z.add_0_r in H|]. intros i Hi. specialize (H (i + 1) ltac:(lia)).
    rewrite BitScanP.znth_cons in H by lia. now replace (a + Z.of_nat (mt_size mt) + i * Z.of_nat (mt_size mt)) with (a + (i + 1) * Z.of_nat (mt_size mt)) by lia.
  - intros [H0 H] i Hi. destruct (Z.eq_dec i 0) as [->|]; [now rewrite Z.mul_0_l, Z.add_0_r|]. specialize (H (i - 1) ltac:(lia)).
    replace i with (i - 1 + 1) by lia. rewrite BitScanP.znth_cons by lia. now replace (a + (i - 1 + 1) * Z.of_nat (mt_size mt)) with (a + Z.of_nat (mt_size mt) + (i - 1) * Z.of_nat (mt_size mt)) by lia.
Qed.
Lemma elements_app m mt us : forall a vs, elements_at m a mt (us ++ vs) <-> elements_at m a mt us /\ elements_at m (a + Z.of_nat (length us) * Z.of_nat (mt_size mt)) mt vs.
Proof.
  induction us as [|u us IH]; intros a vs.
  - cbn [app length]. rewrite Z.mul_0_l, Z.add_0_r. split; [intros H; split; [intros i Hi; cbn in Hi; lia|exact H]|intros [_ H]; exact H].
  - cbn [app]. rewrite !elements_cons, IH. cbn [length].
    replace (a + Z.of_nat (mt_size mt) + Z.of_nat (length us) * Z.of_nat (mt_size mt)) with (a + Z.of_nat (S (length us)) * Z.of_nat (mt_size mt)) by lia. tauto.
Qed.
Lemma elements_loaded m mt vs : forall a, elements_at m a mt vs -> loaded m a (map (mkw (mt_size mt)) vs).
Proof.
  unfold loaded. induction vs as [|v vs IH]; intros a H; [reflexivity|]. apply elements_cons in H. destruct H as [H0 H].
  cbn [map length Nat.mul]. rewrite mem_load_app, (number_load _ _ _ _ H0), (IH _ H). cbn [obind]. unfold pack, to_reg. cbn [map concat]. now rewrite enc_mkw.
Qed.
Lemma elements_range m mt vs a : elements_at m a mt vs -> Forall (fun v => 0 <= v < 2 ^ (8 * Z.of_nat (mt_size mt))) vs.
Proof.
  intros H. apply Forall_forall. intros v I. destruct (in_znth 0 vs v I) as (i & Hi & <-). exact (proj1 (H i Hi)).
Qed.
Lemma mapped_converted mt e vs m a : elements_at m a mt vs -> Forall2 (converted mt e) vs (map (mt_fn mt e) (map (mkw (mt_size mt)) vs)).
Proof.
  intros H. apply elements_range in H. induction H as [|v vs Hv H IH]; [constructor|]. cbn [map]. constructor; [now apply mt_fn_ok|exact IH].
Qed.

(** * load instructions *)
Lemma app_inj {A} (a b c d : list A) : length a = length c -> a ++ b = c ++ d -> a = c /\ b = d.
Proof.
  revert c. induction a as [|x a IH]; intros [|y c] L H; try discriminate L; [auto|]. cbn in H. injection H as -> H. destruct (IH c) as [-> ->]; auto.
Qed.
Lemma loaded_split {w} m a (xs ys : list (word w)) : loaded m a (xs ++ ys) -> loaded m a xs /\ loaded m (a + Z.of_nat (length xs * w)) ys.
Proof.
  unfold loaded. rewrite app_length, Nat.mul_add_distr_r, mem_load_app. intros H.
  destruct (mem_load m a (length xs * w)) as [bx|] eqn:Ex; [|discriminate H]. cbn [obind] in H.
  destruct (mem_load m (a + Z.of_nat (length xs * w)) (length ys * w)) as [by'|] eqn:Ey; [|discriminate H]. cbn [obind] in H. injection H as H.
  assert (L : length bx = length (pack xs)).
  { rewrite pack_length, Nat.mul_comm. revert Ex. generalize (length xs * w)%nat. clear. intros n. revert bx a. induction n as [|n IH]; intros bx a E; cbn [mem_load] in E; [now injection E as <-|].
    destruct (m a); [|discriminate]. destruct (mem_load m (a + 1) n) eqn:E'; [|discriminate]. injection E as <-. cbn. f_equal. eauto. }
  assert (P : pack (xs ++ ys) = pack xs ++ pack ys) by (unfold pack, to_reg; now rewrite map_app, concat_app).
  rewrite P in H. apply (app_inj _ _ _ _ L) in H. destruct H as [-> ->]. auto.
Qed.

Lemma load16_ok {w} f m a (ws : list (word w)) : (length ws * w = 16)%nat -> loaded m a ws -> unaligned f = true \/ (16 | a) -> load16 f m a = Some (pack ws).
Proof.
  intros L H A. unfold load16, loaded in *. rewrite L in H. rewrite H. replace (unaligned f || aligned_at 16 a) with true; [reflexivity|].
  symmetry. apply orb_true_iff. destruct A as [A|A]; [now left|right]. unfold aligned_at. apply Z.eqb_eq. apply Z.mod_divide; [lia|exact A].
Qed.
Lemma load32_ok {w} f m a (xs ys : list (word w)) : (length xs * w = 16)%nat -> (length ys * w = 16)%nat -> loaded m a (xs ++ ys) ->
  unaligned f = true \/ (32 | a) \/ (streaming f = true /\ (16 | a)) -> load32 f m a = Some (Ymm (pack xs) (pack ys)).
Proof.
  intros Lx Ly H A. apply loaded_split in H. destruct H as [Hx Hy]. unfold load32, loaded in *. rewrite Lx in *. rewrite Ly in Hy. change (Z.of_nat 16) with 16 in Hy.
  rewrite Hx, Hy. replace (unaligned f || aligned_at (if streaming f then 16 else 32) a) with true; [reflexivity|].
  symmetry. apply orb_true_iff. destruct A as [A|[A|[S A]]]; [now left|right|right; rewrite S]; unfold aligned_at; apply Z.eqb_eq; try (apply Z.mod_divide; [lia|exact A]).
  destruct (streaming f); apply Z.mod_divide; try lia; [|exact A]. apply Z.divide_trans with 32; [now exists 2|exact A].
Qed.
Lemma pack_zeros {w} (ws : list (word w)) k : pack (ws ++ repeat (w0 w) k) = pack ws ++ repeat 0 (w * k).
Proof.
  unfold pack, to_reg. rewrite map_app, concat_app. f_equal. induction k as [|k IH]; [now rewrite Nat.mul_0_r|].
  cbn [repeat map concat]. rewrite IH, enc_w0, <- repeat_app. f_equal. lia.
Qed.
Lemma loadl_ok {w} m a (ws : list (word w)) k : (length ws * w = 8)%nat -> (w * k = 8)%nat -> loaded m a ws -> loadl m a = Some (pack (ws ++ repeat (w0 w) k)).
Proof. intros L K H. unfold loadl, loaded in *. rewrite L in H. rewrite H. cbn [option_map]. now rewrite pack_zeros, K. Qed.
Lemma load_int_ok {w} m a (ws : list (word w)) k : (length ws * w = 4)%nat -> (w * k = 12)%nat -> loaded m a ws -> load_int m a = Some (pack (ws ++ repeat (w0 w) k)).
Proof. intros L K H. unfold load_int, loaded in *. rewrite L in H. rewrite H. cbn [option_map]. now rewrite pack_zeros, K. Qed.

(** * the SSE loads *)
Lemma firstn_all_app {A} n (l r : list A) : length l = n -> firstn n (l ++ r) = l.
Proof. intros <-. rewrite firstn_app, Nat.sub_diag, firstn_all. cbn. apply app_nil_r. Qed.
Lemma sval_byte_wide (x : word 1) : sval (mkw 4 (sval x)) = sval x.
Proof. apply sval4_small. pose proof (sval_range x ltac:(lia)). change (modulus 1 / 2) with 128 in *. lia. Qed.
Lemma uval_byte_wide (x : word 1) : sval (mkw 4 (uval x)) = uval x.
Proof. apply sval4_small. pose proof (uval_range x). change (modulus 1) with 256 in *. lia. Qed.
Lemma len_app_repeat {A} (l : list A) x n k : length l = n -> length (l ++ repeat x k) = (n + k)%nat.
Proof. intros <-. now rewrite app_length, repeat_length. Qed.
Lemma cvtepu_load sse41 w (ws : list (word w)) k : w = 1%nat \/ w = 2%nat -> length ws = (8 / w)%nat -> (w * k = 8)%nat ->
  cvtepu sse41 w (pack (ws ++ repeat (w0 w) k)) = pack (map (fun x => mkw (2 * w) (uval x)) ws).
Proof.
  intros Hw L K. rewrite cvtepu_pack; [|tauto|rewrite (len_app_repeat _ _ _ _ L); destruct Hw; subst; cbn; lia]. now rewrite firstn_all_app.
Qed.
Lemma cvtepi_load sse41 w (ws : list (word w)) k : w = 1%nat \/ w = 2%nat -> length ws = (8 / w)%nat -> (w * k = 8)%nat ->
  cvtepi sse41 w (pack (ws ++ repeat (w0 w) k)) = pack (map (fun x => mkw (2 * w) (sval x)) ws).
Proof.
  intros Hw L K. rewrite cvtepi_pack; [|tauto|rewrite (len_app_repeat _ _ _ _ L); destruct Hw; subst; cbn; lia]. now rewrite firstn_all_app.
Qed.
Lemma cvtepu8_load sse41 (ws : list (word 1)) : length ws = 4%nat -> cvtepu8_epi32 sse41 (pack (ws ++ repeat (w0 1) 12)) = pack (map (fun x => mkw 4 (uval x)) ws).
Proof. intros L. rewrite cvtepu8_epi32_pack by (now rewrite (len_app_repeat _ _ _ _ L)). now rewrite firstn_all_app. Qed.
Lemma cvtepi8_load sse41 (ws : list (word 1)) : length ws = 4%nat -> cvtepi8_epi32 sse41 (pack (ws ++ repeat (w0 1) 12)) = pack (map (fun x => mkw 4 (sval x)) ws).
Proof. intros L. rewrite cvtepi8_epi32_pack by (now rewrite (len_app_repeat _ _ _ _ L)). now rewrite firstn_all_app. Qed.

(** the alignment a load or store of [b] bytes needs: 16 if it has 16 bytes *)
Definition bytes_align (f : ls_flags) (b : nat) (a : Z) : Prop := unaligned f = true \/ ((16 <= b)%nat -> (16 | a)).
Lemma ba16 f b a : bytes_align f b a -> (16 <= b)%nat -> unaligned f = true \/ (16 | a).
Proof. intros [A|A] H; auto. Qed.
Lemma ba32s f b a : bytes_align f b a -> (16 <= b)%nat -> unaligned f = true \/ streaming f = true \/ (32 | a) ->
  unaligned f = true \/ (32 | a) \/ (streaming f = true /\ (16 | a)).
Proof. intros [A|A] H B; auto. destruct B as [|[|]]; auto. Qed.
Lemma sse_load_int_ok sse41 mt f m a (ws : list (word (mt_size mt))) : loads_from Int mt = true -> length ws = 4%nat -> loaded m a ws -> bytes_align f (length ws * mt_size mt) a ->
  sse_load_int sse41 mt f m a = Some (pack (map (mt_fn mt Int) ws)).
Proof.
  intros S L H A. destruct mt as [| |[]]; try discriminate S; cbn [mt_size esize] in *; unfold sse_load_int.
  - rewrite (load_int_ok m a ws 12) by (auto; lia). cbn [option_map]. now rewrite cvtepi8_load.
  - rewrite (load_int_ok m a ws 12) by (auto; lia). cbn [option_map]. now rewrite cvtepu8_load.
  - rewrite (loadl_ok m a ws 4) by (auto; lia). cbn [option_map]. rewrite cvtepi_load by auto. reflexivity.
  - rewrite (loadl_ok m a ws 4) by (auto; lia). cbn [option_map]. rewrite cvtepu_load by auto. reflexivity.
  - rewrite (load16_ok f m a ws) by (first [lia | exact H | exact (ba16 _ _ _ A ltac:(lia))]). cbn [mt_fn lane_fn]. now rewrite map_id.
  - rewrite (load16_ok f m a ws) by (first [lia | exact H | exact (ba16 _ _ _ A ltac:(lia))]). cbn [mt_fn lane_fn]. now rewrite map_id.
Qed.
Lemma int_float_fn mt : loads_from Int mt = true -> mt <> MElt UInt -> forall x, of_int 4 (sval (mt_fn mt Int x)) = mt_fn mt Float x.
Proof.
  intros S N x. destruct mt as [| |[]]; try discriminate S; try contradiction; cbn [mt_fn int_to lane_fn esize mt_size] in *.
  - now rewrite sval_byte_wide.
  - now rewrite uval_byte_wide.
  - now rewrite sval_short_wide.
  - now rewrite sval_ushort_wide.
  - reflexivity.
Qed.
(** the alignment the 128-bit loads need *)
Definition load_align (avx : bool) (e : etype) (mt : mem_type) (f : ls_flags) (b : nat) (a : Z) : Prop :=
  bytes_align f b a /\ (avx = true -> e = Float -> mt = MElt Double -> unaligned f = true \/ streaming f = true \/ (32 | a)).
Lemma split_n {A} n k (l : list A) : length l = (n + k)%nat -> exists x y, l = x ++ y /\ length x = n /\ length y = k.
Proof.
  intros L. exists (firstn n l), (skipn n l). split; [symmetry; apply firstn_skipn|]. split; [apply firstn_length_le; lia|rewrite skipn_length; lia].
Qed.
Lemma sse_load_ok sse41 avx e mt f m a (ws : list (word (mt_size mt))) : loads_from e mt = true -> length ws = (16 / esize e)%nat -> loaded m a ws ->
  load_align avx e mt f (length ws * mt_size mt) a -> sse_load sse41 avx e mt f m a = Some (pack (map (mt_fn mt e) ws)).
Proof.
  intros S L H [A A2]. destruct e; cbn [esize] in *.
  - change (16 / 2)%nat with 8%nat in L. destruct mt as [| |[]]; try discriminate S; cbn [mt_size esize] in *; unfold sse_load.
    + rewrite (loadl_ok m a ws 8) by (auto; lia). cbn [option_map]. rewrite cvtepi_load by auto. reflexivity.
    + rewrite (loadl_ok m a ws 8) by (auto; lia). cbn [option_map]. rewrite cvtepu_load by auto. reflexivity.
    + rewrite (load16_ok f m a ws) by (first [lia | exact H | exact (ba16 _ _ _ A ltac:(lia))]). cbn [mt_fn lane_fn]. now rewrite map_id.
    + rewrite (load16_ok f m a ws) by (first [lia | exact H | exact (ba16 _ _ _ A ltac:(lia))]). cbn [mt_fn lane_fn]. now rewrite map_id.
  - change (16 / 2)%nat with 8%nat in L. destruct mt as [| |[]]; try discriminate S; cbn [mt_size esize] in *; unfold sse_load.
    + rewrite (loadl_ok m a ws 8) by (auto; lia). cbn [option_map]. rewrite cvtepu_load by auto. reflexivity.
    + rewrite (load16_ok f m a ws) by (first [lia | exact H | exact (ba16 _ _ _ A ltac:(lia))]). cbn [mt_fn lane_fn]. now rewrite map_id.
  - change (16 / 4)%nat with 4%nat in L. unfold sse_load. now apply sse_load_int_ok.
  - change (16 / 4)%nat with 4%nat in L. destruct mt as [| |[]]; try discriminate S; cbn [mt_size esize] in *; unfold sse_load.
    + rewrite (load_int_ok m a ws 12) by (auto; lia). cbn [option_map]. now rewrite cvtepu8_load.
    + rewrite (loadl_ok m a ws 4) by (auto; lia). cbn [option_map]. rewrite cvtepu_load by auto. reflexivity.
    + rewrite (load16_ok f m a ws) by (first [lia | exact H | exact (ba16 _ _ _ A ltac:(lia))]). cbn [mt_fn lane_fn]. now rewrite map_id.
  - change (16 / 4)%nat with 4%nat in L.
    destruct (match mt with MElt UInt | MElt Float | MElt Double => false | _ => true end) eqn:B.
    + assert (SI : loads_from Int mt = true) by (destruct mt as [| |[]]; try discriminate B; reflexivity).
      assert (N : mt <> MElt UInt) by (intros ->; discriminate B).
      replace (sse_load sse41 avx Float mt f m a) with (option_map cvtepi32_ps (sse_load_int sse41 mt f m a)) by (destruct mt as [| |[]]; try discriminate B; reflexivity).
      rewrite (sse_load_int_ok sse41 mt f m a ws SI L H A). cbn [option_map]. f_equal. etransitivity; [apply (cvtepi32_ps_pack (map (mt_fn mt Int) ws)); now rewrite map_length|].
      rewrite map_map. f_equal. apply map_ext. now apply int_float_fn.
    + destruct mt as [| |[]]; try discriminate B; cbn [mt_size esize] in *; unfold sse_load.
      * rewrite (load16_ok f m a ws) by (first [lia | exact H | exact (ba16 _ _ _ A ltac:(lia))]). cbn [option_map]. unfold convert. now rewrite uint_float_pack.
      * rewrite (load16_ok f m a ws) by (first [lia | exact H | exact (ba16 _ _ _ A ltac:(lia))]). cbn [mt_fn lane_fn]. now rewrite map_id.
      * destruct (split_n 2 2 ws L) as (x & y & -> & Lx & Ly). destruct avx.
        -- rewrite (load32_ok f m a x y) by (first [lia | exact H | exact (ba32s _ _ _ A ltac:(rewrite app_length; lia) (A2 eq_refl eq_refl eq_refl))]). cbn [option_map].
           now rewrite ycvtpd_ps_pack.
        -- apply loaded_split in H. destruct H as [Hx Hy]. rewrite Lx in Hy. change (Z.of_nat (2 * 8)) with 16 in Hy.
           apply ba16 in A; [|rewrite app_length; lia]. assert (A' : unaligned f = true \/ (16 | a + 16)) by (destruct A as [A|A]; [now left|right; apply Z.divide_add_r; [exact A|apply Z.divide_refl]]).
           rewrite (load16_ok f m a x) by (auto; lia). rewrite (load16_ok f m (a + 16) y) by (auto; lia).
           cbn [obind]. rewrite !cvtpd_ps_pack by auto. destruct x as [|x0 [|x1 [|]]]; try discriminate Lx. destruct y as [|y0 [|y1 [|]]]; try discriminate Ly.
           cbn [map app]. f_equal.
  - change (16 / 8)%nat with 2%nat in L. destruct mt as [| |[]]; try discriminate S; cbn [mt_size esize] in *; unfold sse_load.
    + rewrite (load_int_ok m a ws 6) by (auto; lia). cbn [option_map]. unfold convert. rewrite short_int_pack by (now rewrite (len_app_repeat _ _ _ _ L)).
      destruct ws as [|x [|y [|]]]; try discriminate L. cbn [app repeat firstn map]. rewrite cvtepi32_pd_pack by reflexivity. cbn [firstn map mt_fn lane_fn]. now rewrite !sval_short_wide.
    + rewrite (load_int_ok m a ws 6) by (auto; lia). cbn [option_map]. unfold convert. rewrite ushort_int_pack by (now rewrite (len_app_repeat _ _ _ _ L)).
      destruct ws as [|x [|y [|]]]; try discriminate L. cbn [app repeat firstn map]. rewrite cvtepi32_pd_pack by reflexivity. cbn [firstn map mt_fn lane_fn]. now rewrite !sval_ushort_wide.
    + rewrite (loadl_ok m a ws 2) by (auto; lia). cbn [option_map]. unfold convert. rewrite cvtepi32_pd_pack by (now rewrite (len_app_repeat _ _ _ _ L)). now rewrite firstn_all_app.
    + rewrite (loadl_ok m a ws 2) by (auto; lia). cbn [option_map]. unfold convert. rewrite uint_double_pack by (now rewrite (len_app_repeat _ _ _ _ L)). now rewrite firstn_all_app.
    + rewrite (loadl_ok m a ws 2) by (auto; lia). cbn [option_map]. unfold convert. rewrite cvtps_pd_pack by (now rewrite (len_app_repeat _ _ _ _ L)). now rewrite firstn_all_app.
    + rewrite (load16_ok f m a ws) by (first [lia | exact H | exact (ba16 _ _ _ A ltac:(lia))]). cbn [mt_fn lane_fn]. now rewrite map_id.
Qed.

(** * the AVX loads *)
Lemma y_cvtepu_load avx2 w (ws : list (word w)) : w = 1%nat \/ w = 2%nat -> length ws = (16 / w)%nat -> y_cvtepu avx2 w (pack ws) = ypack (map (fun x => mkw (2 * w) (uval x)) ws).
Proof.
  intros Hw L. unfold y_cvtepu. rewrite lanes_pack by exact L. destruct avx2; [reflexivity|].
  assert (L2 : length ws = (8 / w + 8 / w)%nat) by (destruct Hw; subst w; exact L). destruct (split_n _ _ _ L2) as (x & y & -> & Lx & Ly).
  replace (mm_srli (pack (x ++ y)) 8) with (pack (y ++ repeat (w0 w) (8 / w))).
  2:{ assert (K : (8 / w * w = 8)%nat) by (destruct Hw; subst w; reflexivity). transitivity (mm_srli (pack (x ++ y)) (8 / w * w)); [|now rewrite K].
      rewrite srli_pack by (rewrite K; lia). rewrite <- Lx at 2. now rewrite skipn_app, skipn_all, Nat.sub_diag. }
  unfold mm_cvtepu. rewrite !lanes_pack by (rewrite ?(len_app_repeat _ _ _ _ Ly); destruct Hw; subst w; auto).
  rewrite !firstn_all_app by auto. rewrite map_app. symmetry. apply ypack_app. rewrite map_length. destruct Hw; subst w; exact Lx.
Qed.
Lemma y_cvtepi_load avx2 w (ws : list (word w)) : w = 1%nat \/ w = 2%nat -> length ws = (16 / w)%nat -> y_cvtepi avx2 w (pack ws) = ypack (map (fun x => mkw (2 * w) (sval x)) ws).
Proof.
  intros Hw L. unfold y_cvtepi. rewrite lanes_pack by exact L. destruct avx2; [reflexivity|].
  assert (L2 : length ws = (8 / w + 8 / w)%nat) by (destruct Hw; subst w; exact L). destruct (split_n _ _ _ L2) as (x & y & -> & Lx & Ly).
  replace (mm_srli (pack (x ++ y)) 8) with (pack (y ++ repeat (w0 w) (8 / w))).
  2:{ assert (K : (8 / w * w = 8)%nat) by (destruct Hw; subst w; reflexivity). transitivity (mm_srli (pack (x ++ y)) (8 / w * w)); [|now rewrite K].
      rewrite srli_pack by (rewrite K; lia). rewrite <- Lx at 2. now rewrite skipn_app, skipn_all, Nat.sub_diag. }
  unfold mm_cvtepi. rewrite !lanes_pack by (rewrite ?(len_app_repeat _ _ _ _ Ly); destruct Hw; subst w; auto).
  rewrite !firstn_all_app by auto. rewrite map_app. symmetry. apply ypack_app. rewrite map_length. destruct Hw; subst w; exact Lx.
Qed.
Lemma srli4_load (x y : list (word 1)) : length x = 4%nat -> length y = 4%nat -> mm_srli (pack ((x ++ y) ++ repeat (w0 1) 8)) 4 = pack (y ++ repeat (w0 1) 12).
Proof.
  intros Lx Ly. transitivity (mm_srli (pack ((x ++ y) ++ repeat (w0 1) 8)) (4 * 1)); [reflexivity|]. rewrite srli_pack by lia.
  rewrite <- app_assoc. replace (skipn 4 (x ++ y ++ repeat (w0 1) 8)) with (y ++ repeat (w0 1) 8) by (rewrite <- Lx at 2; rewrite skipn_app, skipn_all, Nat.sub_diag; reflexivity).
  now rewrite <- app_assoc.
Qed.
Lemma y_cvtepu8_load avx2 (ws : list (word 1)) : length ws = 8%nat -> y_cvtepu8_epi32 avx2 (pack (ws ++ repeat (w0 1) 8)) = ypack (map (fun x => mkw 4 (uval x)) ws).
Proof.
  intros L. unfold y_cvtepu8_epi32. destruct avx2; [rewrite lanes_pack by (now rewrite (len_app_repeat _ _ _ _ L)); now rewrite firstn_all_app|].
  destruct (split_n 4 4 ws L) as (x & y & -> & Lx & Ly). rewrite srli4_load by auto. unfold mm_cvtepu8_epi32. rewrite <- app_assoc.
  rewrite !lanes_pack by (rewrite !app_length, ?repeat_length; rewrite ?app_length, ?Lx, Ly; reflexivity). rewrite !firstn_all_app by auto.
  rewrite map_app. symmetry. apply ypack_app. now rewrite map_length.
Qed.
Lemma y_cvtepi8_load avx2 (ws : list (word 1)) : length ws = 8%nat -> y_cvtepi8_epi32 avx2 (pack (ws ++ repeat (w0 1) 8)) = ypack (map (fun x => mkw 4 (sval x)) ws).
Proof.
  intros L. unfold y_cvtepi8_epi32. destruct avx2; [rewrite lanes_pack by (now rewrite (len_app_repeat _ _ _ _ L)); now rewrite firstn_all_app|].
  destruct (split_n 4 4 ws L) as (x & y & -> & Lx & Ly). rewrite srli4_load by auto. unfold mm_cvtepi8_epi32. rewrite <- app_assoc.
  rewrite !lanes_pack by (rewrite !app_length, ?repeat_length; rewrite ?app_length, ?Lx, Ly; reflexivity). rewrite !firstn_all_app by auto.
  rewrite map_app. symmetry. apply ypack_app. now rewrite map_length.
Qed.
(** the alignment the 256-bit loads need *)
Definition yload_align (f : ls_flags) (b : nat) (a : Z) : Prop := bytes_align f b a /\ (unaligned f = true \/ ((32 <= b)%nat -> (32 | a))).
Lemma yalign_32 f b a : yload_align f b a -> (32 <= b)%nat -> unaligned f = true \/ (32 | a).
Proof. intros [_ [A|A]] H; auto. Qed.
Lemma load32_ypack {w} f m a (ws : list (word w)) : width_ok w -> length ws = (32 / w)%nat -> loaded m a ws -> unaligned f = true \/ (32 | a) -> load32 f m a = Some (ypack ws).
Proof.
  intros Hw L H A. assert (L2 : length ws = (16 / w + 16 / w)%nat) by (destruct Hw as [|[|]]; subst; exact L).
  destruct (split_n _ _ _ L2) as (x & y & -> & Lx & Ly). rewrite ypack_app by exact Lx. apply load32_ok; [| |exact H|tauto]; rewrite ?Lx, ?Ly; destruct Hw as [|[|]]; subst; reflexivity.
Qed.
Definition yu2f (x : word 4) : word 4 := if sval x <? 0 then fadd (of_int 4 (sval (wsub x (mkw 4 (2 ^ 31))))) (of_int 4 (2 ^ 31)) else of_int 4 (sval x).
Lemma y_uint_half (xs : list (word 4)) : length xs = 4%nat ->
  mm_blendv_fp 4 (cvtepi32_ps (pack xs)) (v_fadd 4 (cvtepi32_ps (sub_epi 4 (pack xs) (set1 4 (2 ^ 31)))) (set1_fp 4 (2 ^ 31))) (cmplt_epi 4 (pack xs) mm_setzero) =
  pack (map yu2f xs).
Proof.
  intros H. four xs. rewrite set1_fp_pack. change (16 / 4)%nat with 4%nat. rewrite !(ConvertRegP.set1_pack 4 _ lk4). change (16 / 4)%nat with 4%nat.
  unfold sub_epi. rewrite !lift2_pack by reflexivity. cbn [map2 repeat]. rewrite !cvtepi32_ps_pack by reflexivity. cbn [map]. unfold v_fadd. rewrite !lift2_pack by reflexivity. cbn [map2].
  rewrite zero4. unfold cmplt_epi. rewrite lift2_pack by reflexivity. cbn [map2 repeat].
  rewrite masks4, (blend4 _ (or_intror eq_refl)) by reflexivity. change (sval (w0 4)) with 0. reflexivity.
Qed.
Lemma ycvtepi32_ps_ypack (ws : list (word 4)) : length ws = 8%nat -> ycvtepi32_ps (ypack ws) = ypack (map (fun x => of_int 4 (sval x)) ws).
Proof.
  intros L. destruct (split_n 4 4 ws L) as (x & y & -> & Lx & Ly). rewrite map_app, !ypack_app by (rewrite ?map_length; exact Lx). now apply ycvtepi32_ps_pack.
Qed.
Definition y_fn (mt : mem_type) (e : etype) : word (mt_size mt) -> elt e :=
  match e as t, mt as u return word (mt_size u) -> elt t with
  | Float, MElt UInt => yu2f
  | t, u => mt_fn u t
  end.
Definition y_loads_from e mt := loads_from e mt && match e, mt with Double, MElt (Short | UShort) => false | _, _ => true end.
Lemma y_load_int_ok avx2 mt f m a (ws : list (word (mt_size mt))) : loads_from Int mt = true -> length ws = 8%nat -> loaded m a ws -> yload_align f (length ws * mt_size mt) a ->
  y_load_int avx2 mt f m a = Some (ypack (map (mt_fn mt Int) ws)).
Proof.
  intros S L H A. destruct mt as [| |[]]; try discriminate S; cbn [mt_size esize] in *; unfold y_load_int.
  - rewrite (loadl_ok m a ws 8) by (auto; lia). cbn [option_map]. now rewrite y_cvtepi8_load.
  - rewrite (loadl_ok m a ws 8) by (auto; lia). cbn [option_map]. now rewrite y_cvtepu8_load.
  - rewrite (load16_ok f m a ws) by (first [lia | exact H | exact (ba16 _ _ _ (proj1 A) ltac:(lia))]). cbn [option_map]. rewrite y_cvtepi_load by auto. reflexivity.
  - rewrite (load16_ok f m a ws) by (first [lia | exact H | exact (ba16 _ _ _ (proj1 A) ltac:(lia))]). cbn [option_map]. rewrite y_cvtepu_load by auto. reflexivity.
  - rewrite (load32_ypack f m a ws) by (first [exact H | exact L | unfold width_ok; lia | exact (yalign_32 _ _ _ A ltac:(lia))]). cbn [mt_fn lane_fn]. now rewrite map_id.
  - rewrite (load32_ypack f m a ws) by (first [exact H | exact L | unfold width_ok; lia | exact (yalign_32 _ _ _ A ltac:(lia))]). cbn [mt_fn lane_fn]. now rewrite map_id.
Qed.
Lemma y_load_ok avx2 e mt f m a (ws : list (word (mt_size mt))) : y_loads_from e mt = true -> length ws = (32 / esize e)%nat -> loaded m a ws ->
  yload_align f (length ws * mt_size mt) a -> y_load avx2 e mt f m a = Some (ypack (map (y_fn mt e) ws)).
Proof.
  intros S L H A. destruct e; cbn [esize] in *.
  - change (32 / 2)%nat with 16%nat in L. destruct mt as [| |[]]; try discriminate S; cbn [mt_size esize] in *; unfold y_load.
    + rewrite (load16_ok f m a ws) by (first [lia | exact H | exact (ba16 _ _ _ (proj1 A) ltac:(lia))]). cbn [option_map]. rewrite y_cvtepi_load by auto. reflexivity.
    + rewrite (load16_ok f m a ws) by (first [lia | exact H | exact (ba16 _ _ _ (proj1 A) ltac:(lia))]). cbn [option_map]. rewrite y_cvtepu_load by auto. reflexivity.
    + rewrite (load32_ypack f m a ws) by (first [exact H | exact L | unfold width_ok; lia | exact (yalign_32 _ _ _ A ltac:(lia))]). cbn [y_fn mt_fn lane_fn]. now rewrite map_id.
    + rewrite (load32_ypack f m a ws) by (first [exact H | exact L | unfold width_ok; lia | exact (yalign_32 _ _ _ A ltac:(lia))]). cbn [y_fn mt_fn lane_fn]. now rewrite map_id.
  - change (32 / 2)%nat with 16%nat in L. destruct mt as [| |[]]; try discriminate S; cbn [mt_size esize] in *; unfold y_load.
    + rewrite (load16_ok f m a ws) by (first [lia | exact H | exact (ba16 _ _ _ (proj1 A) ltac:(lia))]). cbn [option_map]. rewrite y_cvtepu_load by auto. reflexivity.
    + rewrite (load32_ypack f m a ws) by (first [exact H | exact L | unfold width_ok; lia | exact (yalign_32 _ _ _ A ltac:(lia))]). cbn [y_fn mt_fn lane_fn]. now rewrite map_id.
  - change (32 / 4)%nat with 8%nat in L. unfold y_load. apply y_load_int_ok; auto. unfold y_loads_from in S. rewrite andb_true_r in S. exact S.
  - change (32 / 4)%nat with 8%nat in L. destruct mt as [| |[]]; try discriminate S; cbn [mt_size esize] in *; unfold y_load.
    + rewrite (loadl_ok m a ws 8) by (auto; lia). cbn [option_map]. now rewrite y_cvtepu8_load.
    + rewrite (load16_ok f m a ws) by (first [lia | exact H | exact (ba16 _ _ _ (proj1 A) ltac:(lia))]). cbn [option_map]. rewrite y_cvtepu_load by auto. reflexivity.
    + rewrite (load32_ypack f m a ws) by (first [exact H | exact L | unfold width_ok; lia | exact (yalign_32 _ _ _ A ltac:(lia))]). cbn [y_fn mt_fn lane_fn]. now rewrite map_id.
  - change (32 / 4)%nat with 8%nat in L. destruct mt as [| |[]]; cbn [mt_size esize] in *.
    + unfold y_load. rewrite (y_load_int_ok avx2 MSChar f m a ws) by auto. cbn [option_map]. f_equal. etransitivity; [apply (ycvtepi32_ps_ypack (map (mt_fn MSChar Int) ws)); now rewrite map_length|].
      rewrite map_map. f_equal. apply map_ext. now apply (int_float_fn MSChar).
    + unfold y_load. rewrite (y_load_int_ok avx2 MUChar f m a ws) by auto. cbn [option_map]. f_equal. etransitivity; [apply (ycvtepi32_ps_ypack (map (mt_fn MUChar Int) ws)); now rewrite map_length|].
      rewrite map_map. f_equal. apply map_ext. now apply (int_float_fn MUChar).
    + unfold y_load. rewrite (load16_ok f m a ws) by (first [lia | exact H | exact (ba16 _ _ _ (proj1 A) ltac:(lia))]). cbn [option_map]. rewrite yshort_int_pack by exact L. destruct (split_n 4 4 ws L) as (x & y & -> & Lx & Ly).
      rewrite firstn_all_app by exact Lx. replace (skipn 4 (x ++ y)) with y by (rewrite <- Lx; rewrite skipn_app, skipn_all, Nat.sub_diag; reflexivity).
      rewrite ycvtepi32_ps_pack by (now rewrite map_length). rewrite map_app, (ypack_app (w := esize Float)) by (now rewrite map_length). rewrite !map_map. cbn [y_fn mt_fn lane_fn].
      do 2 f_equal; f_equal; apply map_ext; intros; now rewrite sval_short_wide.
    + unfold y_load. rewrite (load16_ok f m a ws) by (first [lia | exact H | exact (ba16 _ _ _ (proj1 A) ltac:(lia))]). cbn [option_map]. rewrite yushort_int_pack by exact L. destruct (split_n 4 4 ws L) as (x & y & -> & Lx & Ly).
      rewrite firstn_all_app by exact Lx. replace (skipn 4 (x ++ y)) with y by (rewrite <- Lx; rewrite skipn_app, skipn_all, Nat.sub_diag; reflexivity).
      rewrite ycvtepi32_ps_pack by (now rewrite map_length). rewrite map_app, (ypack_app (w := esize Float)) by (now rewrite map_length). rewrite !map_map. cbn [y_fn mt_fn lane_fn].
      do 2 f_equal; f_equal; apply map_ext; intros; now rewrite sval_ushort_wide.
    + unfold y_load. rewrite (load32_ypack f m a ws) by (first [exact H | exact L | unfold width_ok; lia | exact (yalign_32 _ _ _ A ltac:(lia))]). cbn [option_map y_fn mt_fn lane_fn]. now rewrite ycvtepi32_ps_ypack.
    + unfold y_load. rewrite (load32_ypack f m a ws) by (first [exact H | exact L | unfold width_ok; lia | exact (yalign_32 _ _ _ A ltac:(lia))]). cbn [option_map y_fn]. destruct (split_n 4 4 ws L) as (x & y & -> & Lx & Ly).
      rewrite map_app, (ypack_app (w := esize Float) (map yu2f x)) by (rewrite ?map_length; exact Lx). rewrite ypack_app by exact Lx. unfold y_blendv_ps, y_assign, ycvtepi32_ps, y_fadd, y_sub, yset1_fp, yset1, yzero, ymap1, ymap2. cbn [is_integer lo128 hi128 esize].
      f_equal. f_equal; now apply y_uint_half.
    + unfold y_load. rewrite (load32_ypack f m a ws) by (first [exact H | exact L | unfold width_ok; lia | exact (yalign_32 _ _ _ A ltac:(lia))]). cbn [y_fn mt_fn lane_fn]. now rewrite map_id.
    + unfold y_load. destruct (split_n 4 4 ws L) as (x & y & -> & Lx & Ly). apply loaded_split in H. destruct H as [Hx Hy]. rewrite Lx in Hy. change (Z.of_nat (4 * 8)) with 32 in Hy.
      apply yalign_32 in A; [|rewrite app_length; lia]. assert (A' : unaligned f = true \/ (32 | a + 32)) by (destruct A as [A|A]; [now left|right; apply Z.divide_add_r; [exact A|apply Z.divide_refl]]).
      rewrite (load32_ypack f m a x) by (auto; unfold width_ok; lia). rewrite (load32_ypack f m (a + 32) y) by (auto; unfold width_ok; lia).
      cbn [obind]. destruct (split_n 2 2 x Lx) as (x0 & x1 & -> & ? & ?). destruct (split_n 2 2 y Ly) as (y0 & y1 & -> & ? & ?). rewrite !(ypack_app (w := 8)) by auto.
      rewrite !ycvtpd_ps_pack by auto. cbn [y_fn mt_fn lane_fn]. rewrite (map_app _ (x0 ++ x1)), (ypack_app (w := esize Float)) by (now rewrite map_length). reflexivity.
  - change (32 / 8)%nat with 4%nat in L. destruct mt as [| |[]]; try discriminate S; cbn [mt_size esize] in *; unfold y_load.
    + rewrite (load16_ok f m a ws) by (first [lia | exact H | exact (ba16 _ _ _ (proj1 A) ltac:(lia))]). cbn [option_map]. destruct ws as [|w0 [|w1 [|w2 [|w3 [|]]]]]; try discriminate L. rewrite ycvtepi32_pd_pack. reflexivity.
    + rewrite (load16_ok f m a ws) by (first [lia | exact H | exact (ba16 _ _ _ (proj1 A) ltac:(lia))]). cbn [option_map]. destruct ws as [|w0 [|w1 [|w2 [|w3 [|]]]]]; try discriminate L. rewrite yuint_double_pack. reflexivity.
    + rewrite (load16_ok f m a ws) by (first [lia | exact H | exact (ba16 _ _ _ (proj1 A) ltac:(lia))]). cbn [option_map]. destruct ws as [|w0 [|w1 [|w2 [|w3 [|]]]]]; try discriminate L. rewrite ycvtps_pd_pack. reflexivity.
    + rewrite (load32_ypack f m a ws) by (first [exact H | exact L | unfold width_ok; lia | exact (yalign_32 _ _ _ A ltac:(lia))]). cbn [y_fn mt_fn lane_fn]. now rewrite map_id.
Qed.

(** * one entry *)
Lemma mkw_sval_id w (x : word w) : (0 < w)%nat -> mkw w (sval x) = x.
Proof. intros Hw. apply word_ext. rewrite uval_mkw. apply sval_mod. Qed.
Lemma scalar_load_ok e mt m a (x : word (mt_size mt)) : loads_from e mt = true -> loaded m a [x] -> scalar_load e mt m a = Some (mt_fn mt e x).
Proof.
  intros S H. unfold scalar_load. replace (load_concept e mt) with true by (destruct e, mt as [| |[]]; try discriminate S; reflexivity).
  unfold loaded in H. cbn [length] in H. rewrite Nat.mul_1_l in H. rewrite H. cbn [obind]. unfold pack, to_reg. cbn [map concat]. rewrite app_nil_r.
  unfold scalar_convert, mt_fn. destruct mt as [| |u]; cbn [mt_size] in *; [now rewrite dec_enc|now rewrite dec_enc|].
  destruct u, e; try discriminate S; cbn [esize] in *; rewrite ?dec_enc; cbn [lane_fn int_to esize]; try reflexivity; f_equal;
    rewrite ?mkw_uval; try reflexivity.
  - apply mkw_sval_id. lia.
  - apply mkw_sval_id. lia.
  - now rewrite u2f_value.
  - now rewrite u2d_value.
Qed.

(** * SimdArray *)
Section Tree.
  Variable native : nat -> bool.
  Hypothesis Hw : widths_ok native.
  (** the addresses the vectors with k entries accept; usize: size of an element in memory *)
  Variables (usize : nat) (ok : nat -> Z -> Prop).
  Hypothesis ok_step : forall k c a, ok k a -> Nat.divide k c -> ok k (a + Z.of_nat c * Z.of_nat usize).
  Definition all_ok (n : nat) (a : Z) : Prop := forall k, native k = true -> (k <= n)%nat -> ok k a.
  Lemma pow2_divides i j : (Nat.pow 2 i <= Nat.pow 2 j)%nat -> Nat.divide (Nat.pow 2 i) (Nat.pow 2 j).
  Proof.
    intros H. assert (i <= j)%nat by (destruct (le_lt_dec i j); auto; pose proof (Nat.pow_lt_mono_r 2 j i ltac:(lia) ltac:(lia)); lia).
    exists (Nat.pow 2 (j - i)). rewrite <- Nat.pow_add_r. f_equal. lia.
  Qed.
  Lemma all_ok_left n a : (2 <= n)%nat -> all_ok n a -> all_ok (left_size n) a.
  Proof. intros H2 H k N K. apply H; auto. pose proof (left_size_lt n H2). lia. Qed.
  Lemma all_ok_right n a : (2 <= n)%nat -> all_ok n a -> all_ok (right_size n) (a + Z.of_nat (left_size n) * Z.of_nat usize).
  Proof using Hw ok_step.
    intros H2 H k N K. destruct (right_left n H2) as [R1 R2]. pose proof (left_size_ge n H2) as G. apply ok_step; [apply H; auto; lia|].
    destruct Hw as [_ P]. destruct (P k N) as (i & ->). destruct (left_size_spec n H2) as (j & E & _). rewrite E in *. apply pow2_divides. lia.
  Qed.
  Lemma load_bytes_ok {A w} (ld : nat -> Z -> option (list A)) (fn : word w -> A) (P : word w -> Prop) m : w = usize ->
    (forall k a (ws : list (word w)), native k = true -> length ws = k -> loaded m a ws -> Forall P ws -> ok k a -> ld k a = Some (map fn ws)) ->
    forall fuel n a (ws : list (word w)), (1 <= n <= fuel)%nat -> length ws = n -> loaded m a ws -> Forall P ws -> all_ok n a ->
    exists t, load_bytes_f native ld usize fuel n a = Some t /\ wf native n t /\ to_list t = map fn ws.
  Proof using Hw ok_step.
    intros Ew Hld. induction fuel as [|fuel IH]; intros n a ws Hn L H HP K; [lia|]. cbn [load_bytes_f]. destruct (native n) eqn:E.
    - rewrite (Hld n a ws E L H HP) by (apply K; auto). eexists. split; [reflexivity|]. split; [|reflexivity]. constructor; auto. now rewrite map_length.
    - pose proof (not_native_ge2 native Hw n ltac:(lia) E) as H2. destruct (right_left n H2) as [R1 R2].
      pose proof (left_size_lt n H2). pose proof (left_size_pos n H2).
      assert (L2 : length ws = (left_size n + right_size n)%nat) by lia. destruct (split_n _ _ _ L2) as (x & y & -> & Lx & Ly). apply loaded_split in H. destruct H as [Hx Hy].
      apply Forall_app in HP. destruct HP as [Px Py].
      destruct (IH (left_size n) a x) as (t0 & E0 & W0 & T0); auto; [lia|now apply all_ok_left|]. rewrite E0. cbn [obind].
      destruct (IH (right_size n) (a + Z.of_nat (left_size n) * Z.of_nat usize) y) as (t1 & E1 & W1 & T1); auto; [lia| |now apply all_ok_right|].
      { rewrite Lx, Nat2Z.inj_mul in Hy. now rewrite <- Ew. }
      rewrite E1. cbn [obind]. eexists. split; [reflexivity|]. split; [now constructor|]. cbn [to_list]. now rewrite T0, T1, map_app.
  Qed.
End Tree.

(** * the alignment of the vectors of a SimdArray *)
Lemma usize_cases mt : mt_size mt = 1%nat \/ mt_size mt = 2%nat \/ mt_size mt = 4%nat \/ mt_size mt = 8%nat.
Proof. destruct mt as [| |[]]; cbn; auto. Qed.
Lemma bytes_align_step f k u c a : (k = 2 \/ k = 4 \/ k = 8 \/ k = 16)%nat -> (u = 1 \/ u = 2 \/ u = 4 \/ u = 8)%nat -> Nat.divide k c ->
  bytes_align f (k * u) a -> bytes_align f (k * u) (a + Z.of_nat c * Z.of_nat u).
Proof.
  intros Hk Hu (q & ->) [A|A]; [now left|right]. intros B. specialize (A B). apply Z.divide_add_r; [exact A|].
  rewrite Nat2Z.inj_mul, <- Z.mul_assoc, <- Nat2Z.inj_mul. apply Z.divide_mul_r. destruct Hk as [|[|[|]]], Hu as [|[|[|]]]; subst k u; cbn in B; try lia; now apply Z.mod_divide.
Qed.
Lemma yalign_step f k u c a : (k = 2 \/ k = 4 \/ k = 8 \/ k = 16)%nat -> (u = 1 \/ u = 2 \/ u = 4 \/ u = 8)%nat -> Nat.divide k c ->
  yload_align f (k * u) a -> yload_align f (k * u) (a + Z.of_nat c * Z.of_nat u).
Proof.
  intros Hk Hu D [A1 A2]. split; [now apply bytes_align_step|]. destruct D as (q & ->). destruct A2 as [A|A]; [now left|right]. intros B. specialize (A B). apply Z.divide_add_r; [exact A|].
  rewrite Nat2Z.inj_mul, <- Z.mul_assoc, <- Nat2Z.inj_mul. apply Z.divide_mul_r. destruct Hk as [|[|[|]]], Hu as [|[|[|]]]; subst k u; cbn in B; try lia; now apply Z.mod_divide.
Qed.
Definition sse_ok (avx : bool) (e : etype) (mt : mem_type) (f : ls_flags) (k : nat) (a : Z) : Prop :=
  k = (16 / esize e)%nat -> load_align avx e mt f (k * mt_size mt) a.
Definition avx_ok (e : etype) (mt : mem_type) (f : ls_flags) (k : nat) (a : Z) : Prop :=
  (k = (32 / esize e)%nat -> yload_align f (k * mt_size mt) a) /\ sse_ok true e mt f k a.
Lemma leaf16 e : (16 / esize e = 2 \/ 16 / esize e = 4 \/ 16 / esize e = 8 \/ 16 / esize e = 16)%nat.
Proof. destruct e; cbn; auto. Qed.
Lemma leaf32 e : (32 / esize e = 2 \/ 32 / esize e = 4 \/ 32 / esize e = 8 \/ 32 / esize e = 16)%nat.
Proof. destruct e; cbn; auto. Qed.
Lemma sse_ok_step avx e mt f k c a : sse_ok avx e mt f k a -> Nat.divide k c -> sse_ok avx e mt f k (a + Z.of_nat c * Z.of_nat (mt_size mt)).
Proof.
  intros H D E. specialize (H E). destruct H as [A1 A2]. split.
  - apply bytes_align_step; auto using usize_cases. rewrite E. apply leaf16.
  - intros Ha He Hm. destruct (A2 Ha He Hm) as [|[|A]]; auto. right. right. apply Z.divide_add_r; [exact A|]. subst e mt. destruct D as (q & ->). rewrite E. cbn [mt_size esize].
    change (16 / 4)%nat with 4%nat. exists (Z.of_nat q). lia.
Qed.
Lemma avx_ok_step e mt f k c a : avx_ok e mt f k a -> Nat.divide k c -> avx_ok e mt f k (a + Z.of_nat c * Z.of_nat (mt_size mt)).
Proof.
  intros [H1 H2] D. split; [|now apply sse_ok_step]. intros E. specialize (H1 E). apply yalign_step; auto using usize_cases. rewrite E. apply leaf32.
Qed.
Lemma sse_leaf_load sse41 avx e mt f m k a (ws : list (word (mt_size mt))) : loads_from e mt = true -> sse_native (esize e) k = true -> length ws = k -> loaded m a ws ->
  sse_ok avx e mt f k a -> sse_native_load sse41 avx e mt f m k a = Some (map (mt_fn mt e) ws).
Proof.
  intros S N L H K. unfold sse_native_load. destruct (Nat.eqb_spec k 1) as [E|E].
  - subst k. destruct ws as [|x [|]]; try discriminate E. rewrite (scalar_load_ok e mt m a x S H). reflexivity.
  - assert (E16 : k = (16 / esize e)%nat). { unfold sse_native in N. apply orb_true_iff in N. destruct N as [N|N]; apply Nat.eqb_eq in N; [contradiction|exact N]. }
    rewrite (sse_load_ok sse41 avx e mt f m a ws); auto; [|congruence|rewrite L; now apply K]. cbn [option_map]. f_equal. apply lanes_pack. rewrite map_length. congruence.
Qed.
Lemma avx_leaf_load avx2 e mt f m k a (ws : list (word (mt_size mt))) : y_loads_from e mt = true -> avx_native (esize e) k = true -> length ws = k -> loaded m a ws ->
  avx_ok e mt f k a -> avx_native_load avx2 e mt f m k a = Some (map (if (k =? 32 / esize e)%nat then y_fn mt e else mt_fn mt e) ws).
Proof.
  intros S N L H [K1 K2]. unfold avx_native_load. destruct (Nat.eqb_spec k (32 / esize e)) as [E|E].
  - rewrite (y_load_ok avx2 e mt f m a ws); auto; [|congruence|rewrite L; now apply K1]. cbn [option_map]. f_equal. apply ylanes_ypack; [apply esize_ok|rewrite map_length; congruence].
  - apply sse_leaf_load; auto.
    + unfold y_loads_from in S. now apply andb_prop in S.
    + unfold avx_native in N. apply orb_true_iff in N. destruct N as [N|N]; [exact N|apply Nat.eqb_eq in N; contradiction].
Qed.
Lemma sse_all_ok e mt f n a : flag_ok f (sse_alignment (esize e) n) a -> all_ok (sse_native (esize e)) (sse_ok false e mt f) n a.
Proof.
  intros A k N K E. split; [|discriminate]. destruct A as [A|A]; [now left|right]. intros _. unfold sse_alignment in A. destruct (Nat.ltb_spec n (16 / esize e)); [lia|exact A].
Qed.
Lemma avx_all_ok avx2 e mt f n a : flag_ok f (avx_alignment (has256 avx2 e) (esize e) n) a -> (e = Float -> mt = MElt Double -> unaligned f = true \/ streaming f = true \/ (32 | a)) ->
  all_ok (avx_widths_of avx2 e) (if has256 avx2 e then avx_ok e mt f else sse_ok true e mt f) n a.
Proof.
  intros A A2 k N K. assert (A16 : k = (16 / esize e)%nat -> bytes_align f (k * mt_size mt) a).
  { intros E. destruct A as [A|A]; [now left|right]. intros _. unfold avx_alignment, sse_alignment in A. destruct (has256 avx2 e && (32 / esize e <=? n)%nat).
    - apply Z.divide_trans with 32; [now exists 2|exact A].
    - destruct (Nat.ltb_spec n (16 / esize e)); [lia|exact A]. }
  assert (S : sse_ok true e mt f k a) by (intros E; split; [now apply A16|auto]). destruct (has256 avx2 e) eqn:F; [|exact S]. split; [|exact S].
  intros E. assert (A32 : unaligned f = true \/ (32 | a)).
  { destruct A as [A|A]; [now left|right]. unfold avx_alignment in A. cbn [andb] in A. destruct (Nat.leb_spec (32 / esize e) n); [exact A|lia]. }
  split; [|destruct A32; auto]. destruct A32 as [A32|A32]; [now left|right]. intros _. apply Z.divide_trans with 32; [now exists 2|exact A32].
Qed.

Lemma yu2f_small (x : word 4) : uval x < 2 ^ 31 -> yu2f x = u2f x.
Proof.
  intros H. rewrite u2f_value. unfold yu2f. pose proof (uval_range x).
  assert (E : sval x = uval x) by (unfold sval, to_signed; change (modulus 4 / 2) with (2 ^ 31); destruct (Z.ltb_spec (uval x) (2 ^ 31)); lia). rewrite E. destruct (Z.ltb_spec (uval x) 0); [lia|reflexivity].
Qed.
Lemma y_fn_eq mt e : avx_loads_from e mt = true -> forall x, y_fn mt e x = mt_fn mt e x.
Proof. intros S x. destruct e, mt as [| |[]]; try discriminate S; reflexivity. Qed.
Lemma avx_loads_y e mt : avx_loads_from e mt = true -> y_loads_from e mt = true /\ loads_from e mt = true.
Proof. intros S. destruct e, mt as [| |[]]; try discriminate S; auto. Qed.
Lemma map_ext_P {A B} (P : A -> Prop) (g h : A -> B) l : (forall x, P x -> g x = h x) -> Forall P l -> map g l = map h l.
Proof. intros E H. induction H; cbn; [reflexivity|f_equal; auto]. Qed.

Lemma sse_array_load_fn sse41 e mt f m n a vs : (1 <= n)%nat -> loads_from e mt = true -> length vs = n -> elements_at m a mt vs ->
  flag_ok f (sse_alignment (esize e) n) a ->
  exists t, sse_array_load sse41 e mt f m n a = Some t /\ wf (sse_native (esize e)) n t /\ to_list t = map (mt_fn mt e) (map (mkw (mt_size mt)) vs).
Proof.
  intros Hn S L H A. unfold sse_array_load, load_bytes.
  assert (Hld : forall k b (ws : list (word (mt_size mt))), sse_native (esize e) k = true -> length ws = k -> loaded m b ws -> Forall (fun _ => True) ws -> sse_ok false e mt f k b ->
    sse_native_load sse41 false e mt f m k b = Some (map (mt_fn mt e) ws)) by (intros; now apply sse_leaf_load).
  destruct (load_bytes_ok (sse_native (esize e)) (build_widths e) (mt_size mt) (sse_ok false e mt f) (sse_ok_step false e mt f)
    (sse_native_load sse41 false e mt f m) (mt_fn mt e) (fun _ => True) m eq_refl Hld n n a (map (mkw (mt_size mt)) vs)) as (t & E & W & T).
  - lia.
  - now rewrite map_length.
  - now apply elements_loaded.
  - apply Forall_forall. auto.
  - now apply sse_all_ok.
  - exists t. auto.
Qed.
Lemma sse_array_load_ok sse41 e mt f m n a vs : (1 <= n)%nat -> loads_from e mt = true -> length vs = n -> elements_at m a mt vs ->
  flag_ok f (sse_alignment (esize e) n) a ->
  exists t, sse_array_load sse41 e mt f m n a = Some t /\ wf (sse_native (esize e)) n t /\ Forall2 (converted mt e) vs (to_list t).
Proof.
  intros Hn S L H A. destruct (sse_array_load_fn sse41 e mt f m n a vs Hn S L H A) as (t & E & W & T). exists t. split; [exact E|]. split; [exact W|]. rewrite T. eapply mapped_converted. exact H.
Qed.
Lemma avx_array_load_fn avx2 e mt f m n a vs (P : word (mt_size mt) -> Prop) : (1 <= n)%nat -> y_loads_from e mt = true -> length vs = n -> elements_at m a mt vs ->
  flag_ok f (avx_alignment (has256 avx2 e) (esize e) n) a -> (e = Float -> mt = MElt Double -> unaligned f = true \/ streaming f = true \/ (32 | a)) ->
  (forall x, P x -> y_fn mt e x = mt_fn mt e x) -> Forall (fun v => P (mkw (mt_size mt) v)) vs ->
  exists t, avx_array_load avx2 e mt f m n a = Some t /\ wf (avx_widths_of avx2 e) n t /\ to_list t = map (mt_fn mt e) (map (mkw (mt_size mt)) vs).
Proof.
  intros Hn S L H A A2 HP HV. unfold avx_array_load, load_bytes. pose proof (avx_all_ok avx2 e mt f n a A A2) as AO.
  assert (S' : loads_from e mt = true) by (unfold y_loads_from in S; now apply andb_prop in S).
  assert (Hld : forall k b (ws : list (word (mt_size mt))), avx_widths_of avx2 e k = true -> length ws = k -> loaded m b ws -> Forall P ws ->
    (if has256 avx2 e then avx_ok e mt f else sse_ok true e mt f) k b ->
    (if has256 avx2 e then avx_native_load avx2 e mt f m else sse_native_load true true e mt f m) k b = Some (map (mt_fn mt e) ws)).
  { intros k b ws N Lk Hl Pk K. unfold avx_widths_of in N. destruct (has256 avx2 e); [|now apply sse_leaf_load].
    rewrite (avx_leaf_load avx2 e mt f m k b ws S N Lk Hl K). f_equal. destruct (k =? 32 / esize e)%nat; [|reflexivity]. now apply map_ext_P with P. }
  assert (St : forall k c b, (if has256 avx2 e then avx_ok e mt f else sse_ok true e mt f) k b -> Nat.divide k c ->
    (if has256 avx2 e then avx_ok e mt f else sse_ok true e mt f) k (b + Z.of_nat c * Z.of_nat (mt_size mt))) by (destruct (has256 avx2 e); [apply avx_ok_step|apply sse_ok_step]).
  destruct (load_bytes_ok (avx_widths_of avx2 e) (abuild_widths avx2 e) (mt_size mt) _ St _ (mt_fn mt e) P m eq_refl Hld n n a (map (mkw (mt_size mt)) vs)) as (t & E & W & T).
  - lia.
  - now rewrite map_length.
  - now apply elements_loaded.
  - now apply Forall_map.
  - exact AO.
  - exists t. auto.
Qed.
Lemma avx_array_load_gen avx2 e mt f m n a vs (P : word (mt_size mt) -> Prop) : (1 <= n)%nat -> y_loads_from e mt = true -> length vs = n -> elements_at m a mt vs ->
  flag_ok f (avx_alignment (has256 avx2 e) (esize e) n) a -> (e = Float -> mt = MElt Double -> unaligned f = true \/ streaming f = true \/ (32 | a)) ->
  (forall x, P x -> y_fn mt e x = mt_fn mt e x) -> Forall (fun v => P (mkw (mt_size mt) v)) vs ->
  exists t, avx_array_load avx2 e mt f m n a = Some t /\ wf (avx_widths_of avx2 e) n t /\ Forall2 (converted mt e) vs (to_list t).
Proof.
  intros Hn S L H A A2 HP HV. destruct (avx_array_load_fn avx2 e mt f m n a vs P Hn S L H A A2 HP HV) as (t & E & W & T). exists t. split; [exact E|]. split; [exact W|]. rewrite T. eapply mapped_converted. exact H.
Qed.
Lemma same_type_id e (xs : list (elt e)) : map (mt_fn (MElt e) e) (map (mkw (mt_size (MElt e))) (map uval xs)) = xs.
Proof.
  rewrite !map_map. rewrite <- (map_id xs) at 2. apply map_ext. intros x. cbn [mt_fn mt_size]. rewrite mkw_uval. destruct e; reflexivity.
Qed.

(** * MemoryAlignment *)
Lemma sse_align_le w n : width_ok w -> sse_alignment w n <= 16.
Proof. intros Hw. unfold sse_alignment. destruct (n <? 16 / w)%nat; [|lia]. destruct Hw as [|[|]]; subst; lia. Qed.
Lemma pow2_left p n : (2 <= n)%nat -> (exists i, p = Nat.pow 2 i) -> (p < n)%nat -> (p <= left_size n)%nat.
Proof.
  intros H2 (i & ->) H. destruct (left_size_spec n H2) as (j & E & A & _). rewrite E in *. apply Nat.pow_le_mono_r; [lia|].
  destruct (le_lt_dec i j); [auto|]. pose proof (Nat.pow_le_mono_r 2 (S j) i ltac:(lia) ltac:(lia)). cbn [Nat.pow] in *. lia.
Qed.
Lemma pow16 w : width_ok w -> exists i, (16 / w = Nat.pow 2 i)%nat.
Proof. intros [|[|]]; subst; [exists 3%nat|exists 2%nat|exists 1%nat]; reflexivity. Qed.
Lemma pow32 w : width_ok w -> exists i, (32 / w = Nat.pow 2 i)%nat.
Proof. intros [|[|]]; subst; [exists 4%nat|exists 3%nat|exists 2%nat]; reflexivity. Qed.
Lemma sse_memory_alignment w : width_ok w -> forall fuel n, (1 <= n <= fuel)%nat -> Z.of_nat (memory_alignment_f (sse_native w) w fuel n) = sse_alignment w n.
Proof.
  intros Hw. induction fuel as [|fuel IH]; intros n Hn; [lia|]. cbn [memory_alignment_f]. destruct (sse_native w n) eqn:N.
  - unfold sse_native in N. apply orb_true_iff in N. destruct N as [N|N]; apply Nat.eqb_eq in N; subst n; destruct Hw as [|[|]]; subst w; reflexivity.
  - pose proof (not_native_ge2 _ (SseVecP.sse_widths w Hw) n ltac:(lia) N) as H2. destruct (right_left n H2) as [R1 R2]. pose proof (left_size_lt n H2). pose proof (left_size_pos n H2).
    rewrite Nat2Z.inj_max, !IH by lia. pose proof (sse_align_le w (right_size n) Hw).
    unfold sse_native in N. apply orb_false_iff in N. destruct N as [_ N]. apply Nat.eqb_neq in N.
    unfold sse_alignment in *. destruct (Nat.ltb_spec n (16 / w)) as [C|C].
    + destruct (Nat.ltb_spec (left_size n) (16 / w)), (Nat.ltb_spec (right_size n) (16 / w)); lia.
    + pose proof (pow2_left (16 / w) n H2 (pow16 w Hw) ltac:(lia)). destruct (Nat.ltb_spec (left_size n) (16 / w)); lia.
Qed.
Lemma avx_memory_alignment w : width_ok w -> forall fuel n, (1 <= n <= fuel)%nat -> Z.of_nat (memory_alignment_f (avx_native w) w fuel n) = avx_alignment true w n.
Proof.
  intros Hw. induction fuel as [|fuel IH]; intros n Hn; [lia|]. cbn [memory_alignment_f]. destruct (avx_native w n) eqn:N.
  - unfold avx_native, sse_native in N. apply orb_true_iff in N. destruct N as [N|N]; [apply orb_true_iff in N; destruct N as [N|N]|]; apply Nat.eqb_eq in N; subst n; destruct Hw as [|[|]]; subst w; reflexivity.
  - pose proof (not_native_ge2 _ (AvxVecP.avx_widths w Hw) n ltac:(lia) N) as H2. destruct (right_left n H2) as [R1 R2]. pose proof (left_size_lt n H2). pose proof (left_size_pos n H2).
    rewrite Nat2Z.inj_max, !IH by lia. pose proof (sse_align_le w (right_size n) Hw). pose proof (sse_align_le w (left_size n) Hw).
    unfold avx_native, sse_native in N. apply orb_false_iff in N. destruct N as [N N2]. apply orb_false_iff in N. destruct N as [_ N]. apply Nat.eqb_neq in N, N2.
    unfold avx_alignment in *. cbn [andb] in *. destruct (Nat.leb_spec (32 / w) n) as [C|C].
    + pose proof (pow2_left (32 / w) n H2 (pow32 w Hw) ltac:(lia)). destruct (Nat.leb_spec (32 / w) (left_size n)); [|lia]. destruct (Nat.leb_spec (32 / w) (right_size n)); lia.
    + destruct (Nat.leb_spec (32 / w) (left_size n)); [lia|]. destruct (Nat.leb_spec (32 / w) (right_size n)); [lia|].
      unfold sse_alignment in *. destruct (Nat.ltb_spec n (16 / w)) as [C'|C'].
      * destruct (Nat.ltb_spec (left_size n) (16 / w)), (Nat.ltb_spec (right_size n) (16 / w)); lia.
      * pose proof (pow2_left (16 / w) n H2 (pow16 w Hw) ltac:(lia)). destruct (Nat.ltb_spec (left_size n) (16 / w)); lia.
Qed.
