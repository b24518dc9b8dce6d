(** gather and scatter in AVX builds (proofs). *)
From Coq Require Import ZArith List Bool Lia.
From Verif.Spec Require Import Seq NativeSpec MaskSpec OperandSpec GatherSpec CastSpec ByteMemSpec.
From Verif.Model Require Import Word SseReg SplitSize SimdArray SimdArrayOps Mem SseMove SortNet SseInt SseBuild SseMask GatherScatter AvxReg AvxMove AvxBuild AvxShuffle AvxMask AvxGather.
Import ListNotations.
Local Open Scope Z_scope.
From Verif.Model Require Import Fp AvxArith AvxConvert.
From Verif.Proof Require Import SeqP WordP SplitSizeP SimdArrayP SimdArrayOpsP SseIntP SseMoveP SseEmulP SseMaskP SseBuildP BitScanP SortNetP GatherP AvxMaskP AvxBuildP AvxShuffleP AvxArithP AvxCast2P AvxMaskCastP AvxConvertMain AvxGatherP.

Lemma C24_avx_gather_main :
  forall (A : Type) (zero : A) avx2 e n (t : sa A) x m mem, wf (avx_widths_of avx2 e) n t -> index_ok n x ->
    (mapped m mem (index_at x) n (fun _ => true) ->
       exists r, avx_gather m mem x t = Some r /\ wf (avx_widths_of avx2 e) n r /\
         gathered zero m mem (index_at x) (fun _ => true) (to_list t) (to_list r)) /\
    ((exists i, 0 <= i < Z.of_nat n /\ m (mem + index_at x i) = None) -> avx_gather m mem x t = None).
Proof.
  intros A zero avx2 e n t x m mem W Hx. apply gather_ok; auto; [apply abuild_widths|apply avx_native_gather_ok].
Qed.

Lemma C24_avx_gather_masked_main :
  forall (A : Type) (zero : A) avx2 e st hw n (t : sa A) (k : sa bool) x m mem, st <> SetIndexZero ->
    wf (avx_widths_of avx2 e) n t -> wf (avx_widths_of avx2 e) n k -> index_ok n x ->
    let sel := znth false (to_list k) in
    (mapped m mem (index_at x) n sel ->
       exists r, avx_gather_mask st hw (esize e) m mem x k t = Some r /\ wf (avx_widths_of avx2 e) n r /\
         gathered zero m mem (index_at x) sel (to_list t) (to_list r)) /\
    ((exists i, 0 <= i < Z.of_nat n /\ sel i = true /\ m (mem + index_at x i) = None) ->
       avx_gather_mask st hw (esize e) m mem x k t = None).
Proof.
  intros A zero avx2 e st hw n t k x m mem Hst W Wk Hx. apply gather_mask_ok; auto; [apply abuild_widths|].
  apply avx_native_gather_masked_ok. destruct st; try reflexivity. contradiction.
Qed.

Lemma C25_avx_scatter_main :
  forall (A : Type) (zero : A) avx2 e n (t : sa A) x m mem, wf (avx_widths_of avx2 e) n t -> index_ok n x ->
    (mapped m mem (index_at x) n (fun _ => true) ->
       exists m', avx_scatter zero t mem x m = Some m' /\ scattered_last zero (to_list t) mem (index_at x) (fun _ => true) m m') /\
    ((exists i, 0 <= i < Z.of_nat n /\ m (mem + index_at x i) = None) -> avx_scatter zero t mem x m = None).
Proof.
  intros A zero avx2 e n t x m mem W Hx.
  destruct (scatter_ok zero (avx_widths_of avx2 e) (abuild_widths avx2 e) true _ mem (avx_native_scatter_ok zero avx2 e) n t W x m Hx) as [S1 S2].
  split; [|exact S2]. intros M. destruct (S1 M) as (m' & E & G). exists m'. split; [exact E|]. now apply scattered_last_of_gen.
Qed.

Lemma C25_avx_scatter_masked_main :
  forall (A : Type) (zero : A) avx2 e hw n (t : sa A) (k : sa bool) x m mem,
    wf (avx_widths_of avx2 e) n t -> wf (avx_widths_of avx2 e) n k -> index_ok n x ->
    let sel := znth false (to_list k) in
    (mapped m mem (index_at x) n sel ->
       exists m', avx_scatter_mask zero SimpleLoop hw (esize e) t mem x k m = Some m' /\
         scattered_last zero (to_list t) mem (index_at x) sel m m') /\
    ((exists i, 0 <= i < Z.of_nat n /\ sel i = true /\ m (mem + index_at x i) = None) ->
       avx_scatter_mask zero SimpleLoop hw (esize e) t mem x k m = None).
Proof.
  intros A zero avx2 e hw n t k x m mem W Wk Hx.
  destruct (scatter_mask_ok zero (avx_widths_of avx2 e) (abuild_widths avx2 e) true _ mem
    (avx_native_scatter_masked_ok zero SimpleLoop hw avx2 e eq_refl) n t W k x m Wk Hx) as [S1 S2].
  split; [|exact S2]. intros M. destruct (S1 M) as (m' & E & G). exists m'. split; [exact E|]. now apply scattered_last_of_gen.
Qed.

Lemma C25_avx_scatter_strategies_partial_main :
  forall (A : Type) (zero : A) avx2 e st hw n (t : sa A) (k : sa bool) x m mem, st <> SetIndexZero ->
    wf (avx_widths_of avx2 e) n t -> wf (avx_widths_of avx2 e) n k -> index_ok n x ->
    let sel := znth false (to_list k) in
    (mapped m mem (index_at x) n sel ->
       exists m', avx_scatter_mask zero st hw (esize e) t mem x k m = Some m' /\
         scattered zero (to_list t) mem (index_at x) sel m m' /\
         ((forall i j, 0 <= i < Z.of_nat n -> 0 <= j < Z.of_nat n -> sel i = true -> sel j = true ->
             index_at x i = index_at x j -> i = j) ->
          forall i, 0 <= i < Z.of_nat n -> sel i = true -> m' (mem + index_at x i) = Some (znth zero (to_list t) i))) /\
    ((exists i, 0 <= i < Z.of_nat n /\ sel i = true /\ m (mem + index_at x i) = None) ->
       avx_scatter_mask zero st hw (esize e) t mem x k m = None).
Proof.
  intros A zero avx2 e st hw n t k x m mem Hst W Wk Hx.
  assert (Hs : exact_strategy st = true) by (destruct st; try reflexivity; contradiction).
  destruct (scatter_mask_ok zero (avx_widths_of avx2 e) (abuild_widths avx2 e) _ _ mem
    (avx_native_scatter_masked_ok zero st hw avx2 e Hs) n t W k x m Wk Hx) as [S1 S2].
  split; [|exact S2]. intros M. destruct (S1 M) as (m' & E & G). exists m'. split; [exact E|]. apply scattered_of_gen in G. split; [exact G|].
  intros D i Hi T. destruct (wf_size _ (abuild_widths avx2 e) _ _ W) as (_ & L & _). destruct (G (mem + index_at x i)) as [[_ N]|(j & Hj & Tj & Ej & Em)].
  - elim (N i); auto. lia.
  - rewrite Em. f_equal. f_equal. apply D; auto; lia.
Qed.

Lemma addr_eq mem z s w : mem + z * (Z.of_nat w * s) = mem + z * (s * Z.of_nat w).
Proof. f_equal. now rewrite (Z.mul_comm s). Qed.
Lemma y_gather_eq undef e scale m mem ix zs : length undef = 16%nat -> Forall (fun b => 0 <= b < 256) undef -> (4 <= esize e)%nat -> index_values ix zs -> (32 / esize e <= length zs)%nat ->
  Forall (fun z => z < 2 ^ 31) zs ->
  y_gather undef e scale m mem ix = option_map ypack (sequence (map (fun z => word_at (esize e) m (mem + z * (Z.of_nat (esize e) * scale))) (firstn (32 / esize e) zs))).
Proof.
  intros Lu Bu He V L F. unfold y_gather. rewrite (index_size ix zs V). destruct (Nat.ltb_spec (length zs) (32 / esize e)); [lia|].
  destruct e; try (cbn in He; lia); cbn [esize] in *.
  1-3: destruct (to_avx_int_ok undef Lu Bu ix zs V L F) as (r & -> & E); cbn [obind]; rewrite i32gather_map, E; reflexivity.
  destruct (to_sse_int_ok undef Lu Bu ix zs V L F) as (r & -> & E); cbn [obind]; rewrite i32gather_map, E; reflexivity.
Qed.
Lemma y_gather_masked_eq undef e scale (old : list (elt e)) ks m mem ix zs : length undef = 16%nat -> Forall (fun b => 0 <= b < 256) undef -> (4 <= esize e)%nat -> index_values ix zs -> (32 / esize e <= length zs)%nat ->
  Forall (fun z => z < 2 ^ 31) zs -> length old = (32 / esize e)%nat -> length ks = (32 / esize e)%nat ->
  y_gather_masked undef e scale (ypack old) (ymask_reg (esize e) ks) m mem ix =
    option_map ypack (sequence (map (fun p : Z * word (esize e) * bool => if snd p then word_at (esize e) m (mem + fst (fst p) * (Z.of_nat (esize e) * scale)) else Some (snd (fst p)))
      (combine (combine (firstn (32 / esize e) zs) old) ks))).
Proof.
  intros Lu Bu He V L F Lo Lk. unfold y_gather_masked. rewrite (index_size ix zs V). destruct (Nat.ltb_spec (length zs) (32 / esize e)); [lia|].
  destruct e; try (cbn in He; lia); cbn [esize] in *; unfold elt in *; cbn [esize] in *.
  1-3: destruct (to_avx_int_ok undef Lu Bu ix zs V L F) as (r & -> & E); cbn [obind];
    rewrite (mask_i32gather_map 4 _ _ _ _ _ _ 8) by (exact (ylanes_length Int _));
    rewrite E, ylanes_ypack by (auto; exact (esize_ok Int)); rewrite ysign_lanes by (auto; exact (esize_ok Int)); reflexivity.
  destruct (to_sse_int_ok undef Lu Bu ix zs V L F) as (r & -> & E); cbn [obind].
  rewrite (mask_i32gather_map 8 _ _ _ _ _ _ 4) by (first [exact (ylanes_length Double _) | apply SseIntP.lanes_length]).
  rewrite E, ylanes_ypack by (auto; exact (esize_ok Double)). rewrite ysign_lanes by (auto; exact (esize_ok Double)). reflexivity.
Qed.

Lemma C24_avx2_gather_main :
  forall undef e scale m mem ix (idx : list Z), length undef = 16%nat -> Forall (fun b => 0 <= b < 256) undef ->
    (4 <= esize e)%nat -> byte_memory m -> index_values ix idx -> (32 / esize e <= length idx)%nat ->
    Forall (fun z => z < 2 ^ 31) idx ->
    let n := (32 / esize e)%nat in
    let addr i := mem + znth 0 idx i * (scale * Z.of_nat (esize e)) in
    ((forall i, 0 <= i < Z.of_nat n -> readable m (addr i) (esize e)) ->
       exists xs : list (elt e), y_gather undef e scale m mem ix = Some (ypack xs) /\ length xs = n /\
         forall i, 0 <= i < Z.of_nat n -> number_at m (addr i) (esize e) (uval (znth (w0 (esize e)) xs i))) /\
    ((exists i j, 0 <= i < Z.of_nat n /\ 0 <= j < Z.of_nat (esize e) /\ m (addr i + j) = None) ->
       y_gather undef e scale m mem ix = None).
Proof.
  intros undef e scale m mem ix idx Lu Bu He B V L F n addr. rewrite (y_gather_eq undef e scale m mem ix idx Lu Bu He V L F).
  assert (Lf : length (firstn n idx) = n) by (rewrite firstn_length; unfold n; lia).
  assert (A : forall i, 0 <= i < Z.of_nat n -> mem + znth 0 (firstn n idx) i * (Z.of_nat (esize e) * scale) = addr i).
  { intros i Hi. rewrite znth_firstn_lt by exact Hi. apply addr_eq. }
  destruct (gather_words (esize e) m mem (firstn n idx) (Z.of_nat (esize e) * scale) B) as [G1 G2]. rewrite Lf in G1, G2. split.
  - intros R. destruct G1 as (xs & E & Lx & P); [intros i Hi; rewrite A by auto; now apply R|].
    exists xs. fold n. rewrite E. split; [reflexivity|]. split; [exact Lx|]. intros i Hi. rewrite <- A by auto. now apply P.
  - intros (i & j & Hi & Hj & E). fold n. rewrite G2; [reflexivity|]. exists i, j. rewrite A by auto. auto.
Qed.

Lemma C24_avx2_gather_masked_main :
  forall undef e scale (old : list (elt e)) ks m mem ix (idx : list Z), length undef = 16%nat -> Forall (fun b => 0 <= b < 256) undef ->
    (4 <= esize e)%nat -> byte_memory m -> index_values ix idx -> (32 / esize e <= length idx)%nat ->
    Forall (fun z => z < 2 ^ 31) idx -> length old = (32 / esize e)%nat -> length ks = (32 / esize e)%nat ->
    let n := (32 / esize e)%nat in
    let addr i := mem + znth 0 idx i * (scale * Z.of_nat (esize e)) in
    let g := y_gather_masked undef e scale (ypack old) (ymask_reg (esize e) ks) m mem ix in
    ((forall i, 0 <= i < Z.of_nat n -> znth false ks i = true -> readable m (addr i) (esize e)) ->
       exists xs : list (elt e), g = Some (ypack xs) /\ length xs = n /\
         forall i, 0 <= i < Z.of_nat n ->
           if znth false ks i then number_at m (addr i) (esize e) (uval (znth (w0 (esize e)) xs i))
           else znth (w0 (esize e)) xs i = znth (w0 (esize e)) old i) /\
    ((exists i j, 0 <= i < Z.of_nat n /\ znth false ks i = true /\ 0 <= j < Z.of_nat (esize e) /\ m (addr i + j) = None) -> g = None).
Proof.
  intros undef e scale old ks m mem ix idx Lu Bu He B V L F Lo Lk n addr g. unfold g. rewrite (y_gather_masked_eq undef e scale old ks m mem ix idx Lu Bu He V L F Lo Lk). unfold elt in *.
  assert (Lf : length (firstn n idx) = n) by (rewrite firstn_length; unfold n; lia).
  assert (A : forall i, 0 <= i < Z.of_nat n -> mem + znth 0 (firstn n idx) i * (Z.of_nat (esize e) * scale) = addr i).
  { intros i Hi. rewrite znth_firstn_lt by exact Hi. apply addr_eq. }
  destruct (gather_words_masked (esize e) m mem (firstn n idx) (Z.of_nat (esize e) * scale) old ks B ltac:(rewrite Lf; exact Lo) ltac:(rewrite Lf; exact Lk)) as [G1 G2]. rewrite Lf in G1, G2. split.
  - intros R. destruct G1 as (xs & E & Lx & P); [intros i Hi T; rewrite A by auto; now apply R|].
    exists xs. fold n. rewrite E. split; [reflexivity|]. split; [exact Lx|]. intros i Hi. rewrite <- A by auto. now apply P.
  - intros (i & j & Hi & T & Hj & E). fold n. rewrite G2; [reflexivity|]. exists i, j. rewrite A by auto. auto.
Qed.

Lemma C24_avx2_index_refuted_main :
  forall undef scale m mem z, length undef = 16%nat -> byte_memory m -> 2 ^ 31 <= z < 2 ^ 32 ->
    forall r, y_gather undef Float scale m mem (IxAvx UInt (ypack (repeat (mkw 4 z) 8))) = Some r ->
      exists xs, r = ypack xs /\ length xs = 8%nat /\
        forall i, 0 <= i < 8 -> number_at m (mem + (z - 2 ^ 32) * (scale * 4)) 4 (uval (znth (w0 4) xs i)).
Proof.
  intros undef scale m mem z Lu B Hz r H. unfold y_gather in H. cbn [index_vec_size esize] in H. change (32 / 4)%nat with 8%nat in H. change (8 <? 8)%nat with false in H. cbv iota in H.
  assert (E : to_avx_int undef (IxAvx UInt (ypack (repeat (mkw 4 z) 8))) = Some (ypack (repeat (mkw 4 z) 8))) by reflexivity. rewrite E in H. cbn [obind] in H.
  rewrite ylanes_ypack in H by (first [exact (esize_ok Int) | reflexivity]). rewrite i32gather_map in H.
  assert (S : sval (mkw 4 z) = z - 2 ^ 32).
  { unfold sval, to_signed. rewrite uval_mkw. change (modulus 4) with (2 ^ 32). rewrite Z.mod_small by lia. change (2 ^ 32 / 2) with (2 ^ 31). destruct (Z.ltb_spec z (2 ^ 31)); lia. }
  rewrite map_repeat, S in H. set (zs := repeat (z - 2 ^ 32) 8) in *.
  destruct (sequence _) as [xs|] eqn:ES; [|discriminate H]. cbn [option_map] in H. injection H as <-. exists xs. split; [reflexivity|].
  destruct (gather_words 4 m mem zs (4 * scale) B) as [G1 G2].
  destruct G1 as (xs' & E' & Lx & P).
  { intros i Hi j Hj N. rewrite G2 in ES; [discriminate ES|]. exists i, j. auto. }
  assert (xs' = xs) by congruence. subst xs'. split; [exact Lx|]. intros i Hi. specialize (P i Hi). unfold zs in P. rewrite znth_repeat in P by exact Hi. now rewrite (Z.mul_comm scale).
Qed.

Lemma small_lt u (xs : list (elt u)) : esize u = 2%nat -> Forall (fun z => z < 2 ^ 31) (map (int_value u) xs).
Proof.
  intros Hu. apply Forall_forall. intros z Hz. apply in_map_iff in Hz. destruct Hz as (x & <- & _). unfold int_value. destruct u; try discriminate Hu; cbn [is_signed].
  - pose proof (sval_range x ltac:(cbn; lia)) as Q. change (modulus (esize Short) / 2) with (2 ^ 15) in Q. lia.
  - pose proof (uval_range x) as Q. change (modulus (esize UShort)) with (2 ^ 16) in Q. lia.
Qed.
Lemma idx16 undef u (xs : list (elt u)) : esize u = 2%nat -> length xs = 16%nat ->
  exists i0 i1, ycast undef true u Int [ypack xs] = Some i0 /\ ycast_offset undef true u Int 1 (ypack xs) = Some i1 /\
    map sval (ylanes 4 i0) = firstn 8 (map (int_value u) xs) /\ map sval (ylanes 4 i1) = skipn 8 (map (int_value u) xs).
Proof.
  intros Hu L. assert (Iu : is_integer u = true) by (destruct u; try discriminate Hu; reflexivity). assert (L' : length xs = (32 / esize u)%nat) by (rewrite Hu; exact L).
  assert (D : exists r, ycast undef true u Int (map ypack [xs]) = Some r) by (apply C46_avx_simd_cast_defined_main; auto).
  destruct D as (i0 & E0). assert (D : exists r, ycast_offset undef true u Int 1 (ypack xs) = Some r) by (destruct u; try discriminate Hu; eexists; reflexivity).
  destruct D as (i1 & E1). exists i0, i1. split; [exact E0|]. split; [exact E1|].
  pose proof (C46_avx_simd_cast_main undef true u Int [xs] i0 (Forall_cons _ L' (Forall_nil _)) E0) as [H _]. cbv zeta in H. cbn [concat] in H. rewrite app_nil_r in H.
  replace (Nat.min (length xs) (32 / esize Int)) with 8%nat in H by (rewrite L; reflexivity).
  rewrite (firstn_all2 (n := 8) (ylanes _ i0)) in H by (rewrite ylanes_length; cbn; lia).
  pose proof (proj1 C46_avx_simd_cast_offset_main undef true u Int 1%nat xs i1 L' E1) as H1. change (1 * (32 / esize Int))%nat with 8%nat in H1. change (32 / esize Int)%nat with 8%nat in H1.
  rewrite (firstn_all2 (n := 8) (skipn 8 xs)) in H1 by (rewrite skipn_length, L; lia).
  split; [rewrite firstn_map|rewrite skipn_map]; apply cast_int_values; auto; now apply small_lt.
Qed.
Lemma size16 u : esize u = 2%nat -> (32 / esize u <? 16)%nat = false.
Proof. now intros ->. Qed.
(** both halves of the result *)
Lemma narrowed_ok m e mt (addr : Z -> Z) (g0 g1 : list (word 4)) (vs : list (elt e)) (sel : Z -> bool) : (st_size mt = 1 \/ st_size mt = 2)%nat -> esize e = 2%nat -> length g0 = 8%nat -> length g1 = 8%nat ->
  (forall i, 0 <= i < 8 -> sel i = true -> number_at m (addr i) 4 (uval (znth (w0 4) g0 i))) ->
  (forall i, 0 <= i < 8 -> sel (8 + i) = true -> number_at m (addr (8 + i)) 4 (uval (znth (w0 4) g1 i))) ->
  length vs = 16%nat -> Forall2 (cast_ok Int e) (g0 ++ g1) vs ->
  exists rs : list (elt e), extend_small mt (ypack vs) = ypack rs /\ length rs = 16%nat /\
    forall i, 0 <= i < 16 -> sel i = true -> exists z, number_at m (addr i) (st_size mt) z /\ (int_value e (znth (w0 (esize e)) rs i) - small_value mt z) mod 2 ^ 16 = 0.
Proof.
  intros Hs He L0 L1 N0 N1 Lv F.
  assert (N : forall i, 0 <= i < 16 -> sel i = true -> number_at m (addr i) 4 (uval (znth (w0 4) (g0 ++ g1) i))).
  { intros i Hi T. rewrite znth_app. rewrite L0. destruct (Z.ltb_spec i (Z.of_nat 8)) as [Q|Q]; [apply N0; auto; lia|].
    replace i with (8 + (i - Z.of_nat 8)) in T |- * by lia. replace (8 + (i - Z.of_nat 8) - Z.of_nat 8) with (i - Z.of_nat 8) by lia. apply N1; auto; lia. }
  assert (Lg : length (g0 ++ g1) = 16%nat) by (rewrite app_length, L0, L1; reflexivity).
  destruct e; try discriminate He; cbn [esize] in *; unfold elt in *; cbn [esize] in *;
    (exists (map (extend_word mt) vs); rewrite (extend_small_ok mt vs Lv); split; [reflexivity|]; split; [now rewrite map_length|];
     intros i Hi T; specialize (N i Hi T); match type of F with Forall2 (cast_ok Int ?E) _ _ =>
       pose proof (forall2_znth _ (w0 4) (w0 2) _ _ F i ltac:(rewrite Lg; exact Hi)) as C;
       assert (RV : uval (znth (w0 2) vs i) mod 2 ^ 16 = uval (znth (w0 2) vs i)) by (apply Z.mod_small; exact (uval_range (znth (w0 2) vs i)));
       destruct (extend_ok m (addr i) E mt (znth (w0 4) (g0 ++ g1) i) (znth (w0 2) vs i) Hs eq_refl N C _ eq_refl RV) as (z & Nz & Q);
       exists z; split; [exact Nz|]; apply (int_value_congr E _ _ eq_refl);
       rewrite (SeqP.znth_in _ _ (map _ _)) by (rewrite map_length, Lv; exact Hi);
       rewrite (nth_indep _ (w0 2) (extend_word mt (w0 2))) by (rewrite map_length, Lv; lia); rewrite map_nth; rewrite <- (SeqP.znth_in _ (w0 2) vs) by (rewrite Lv; exact Hi);
       replace (znth (w0 2) vs i) with (mkw 2 (uval (znth (w0 2) vs i))) by apply mkw_uval; exact Q end).
Qed.

Lemma C24_avx2_gather16_main :
  forall undef e mt scale m mem u (idx : list (elt u)), (st_size mt = 1 \/ st_size mt = 2)%nat -> esize e = 2%nat -> esize u = 2%nat ->
    byte_memory m -> length idx = 16%nat ->
    let addr i := mem + int_value u (znth (w0 (esize u)) idx i) * (scale * Z.of_nat (st_size mt)) in
    ((forall i, 0 <= i < 16 -> readable m (addr i) 4) ->
       exists rs : list (elt e), y_gather16 undef e mt scale m mem u (ypack idx) = Some (ypack rs) /\ length rs = 16%nat /\
         forall i, 0 <= i < 16 -> exists z, number_at m (addr i) (st_size mt) z /\
           (int_value e (znth (w0 (esize e)) rs i) - small_value mt z) mod 2 ^ 16 = 0) /\
    ((exists i j, 0 <= i < 16 /\ 0 <= j < 4 /\ m (addr i + j) = None) -> y_gather16 undef e mt scale m mem u (ypack idx) = None).
Proof.
  intros undef e mt scale m mem u idx Hs He Hu B L addr. destruct (idx16 undef u idx Hu L) as (i0 & i1 & E0 & E1 & S0 & S1).
  unfold y_gather16. rewrite (size16 u Hu), E0. cbn [obind]. rewrite E1. cbn [obind]. rewrite !i32gather_map, S0, S1.
  set (zs := map (int_value u) idx) in *. assert (Lz : length zs = 16%nat) by (unfold zs; now rewrite map_length).
  assert (A : forall i, 0 <= i < 16 -> mem + znth 0 zs i * (Z.of_nat (st_size mt) * scale) = addr i).
  { intros i Hi. unfold addr. rewrite (Z.mul_comm scale). f_equal. f_equal. unfold zs. rewrite (SeqP.znth_in Z) by (rewrite map_length, L; exact Hi). rewrite (SeqP.znth_in (elt u)) by (rewrite L; exact Hi).
    rewrite (nth_indep _ 0 (int_value u (w0 (esize u)))) by (rewrite map_length, L; lia). apply map_nth. }
  assert (Lf : length (firstn 8 zs) = 8%nat) by (rewrite firstn_length, Lz; reflexivity). assert (Ls : length (skipn 8 zs) = 8%nat) by (rewrite skipn_length, Lz; reflexivity).
  assert (A0 : forall i, 0 <= i < 8 -> mem + znth 0 (firstn 8 zs) i * (Z.of_nat (st_size mt) * scale) = addr i).
  { intros i Hi. rewrite znth_firstn by (cbn; lia). apply A. lia. }
  assert (A1 : forall i, 0 <= i < 8 -> mem + znth 0 (skipn 8 zs) i * (Z.of_nat (st_size mt) * scale) = addr (8 + i)).
  { intros i Hi. rewrite znth_skipn by lia. rewrite <- A by lia. do 3 f_equal; lia. }
  destruct (gather_words 4 m mem (firstn 8 zs) (Z.of_nat (st_size mt) * scale) B) as [G1 G2].
  destruct (gather_words 4 m mem (skipn 8 zs) (Z.of_nat (st_size mt) * scale) B) as [G3 G4]. rewrite Lf in G1, G2. rewrite Ls in G3, G4. split.
  - intros R. destruct G1 as (g0 & Q0 & L0 & P0); [intros i Hi; rewrite A0 by auto; apply R; lia|].
    destruct G3 as (g1 & Q1 & L1 & P1); [intros i Hi; rewrite A1 by auto; apply R; lia|]. rewrite Q0, Q1. cbn [obind].
    destruct (narrow_ok undef e g0 g1 He L0 L1) as (vs & -> & Lv & F). cbn [obind].
    destruct (narrowed_ok m e mt addr g0 g1 vs (fun _ => true) Hs He L0 L1) as (rs & -> & Lr & P); auto.
    + intros i Hi _. rewrite <- A0 by auto. now apply P0.
    + intros i Hi _. rewrite <- A1 by auto. now apply P1.
    + exists rs. split; [reflexivity|]. split; [exact Lr|]. intros i Hi. now apply P.
  - intros (i & j & Hi & Hj & E). destruct (Z.lt_ge_cases i 8) as [Q|Q].
    + rewrite G2; [reflexivity|]. exists i, j. rewrite A0 by lia. repeat split; auto; lia.
    + rewrite G4; [destruct (sequence _); reflexivity|]. exists (i - 8), j. rewrite A1 by lia. replace (8 + (i - 8)) with i by lia. repeat split; auto; lia.
Qed.

Lemma C24_avx2_gather16_refuted_main :
  forall undef e mt scale mem, (st_size mt = 1 \/ st_size mt = 2)%nat -> esize e = 2%nat ->
    exists m, byte_memory m /\ readable m mem (st_size mt) /\
      y_gather16 undef e mt scale m mem Short (ypack (repeat (w0 2) 16)) = None.
Proof.
  intros undef e mt scale mem Hs He. exists (fun a => if (mem <=? a) && (a <? mem + Z.of_nat (st_size mt)) then Some 0 else None).
  assert (B : byte_memory (fun a => if (mem <=? a) && (a <? mem + Z.of_nat (st_size mt)) then Some 0 else None)).
  { intros a b. destruct (_ && _); [|discriminate]. intros [= <-]. lia. }
  split; [exact B|]. split.
  - intros i Hi. destruct (Z.leb_spec mem (mem + i)); [|lia]. destruct (Z.ltb_spec (mem + i) (mem + Z.of_nat (st_size mt))); [discriminate|lia].
  - apply (C24_avx2_gather16_main undef e mt scale _ mem Short (repeat (w0 2) 16) Hs He eq_refl B eq_refl). exists 0, 3.
    split; [lia|]. split; [lia|]. rewrite znth_repeat by lia. change (int_value Short (w0 2)) with 0. rewrite Z.mul_0_l.
    destruct (Z.ltb_spec (mem + 0 + 3) (mem + Z.of_nat (st_size mt))); [lia|]. now rewrite andb_false_r.
Qed.

Lemma negative_wmask w b : width_ok w -> negative (wmask w b) = b.
Proof. intros [->|[->| ->]]; destruct b; vm_compute; reflexivity. Qed.
Lemma negative_masks w ks : width_ok w -> map negative (map (wmask w) ks) = ks.
Proof. intros Hw. induction ks as [|b ks IH]; cbn [map]; [reflexivity|]. now rewrite IH, negative_wmask. Qed.
Lemma mask16 undef e ks : esize e = 2%nat -> length ks = 16%nat ->
  exists k0 k1, ymasks_cast undef true e Int [ymask_reg (esize e) ks] = Some k0 /\ ymask_cast_offset true e Int 1 (ymask_reg (esize e) ks) = Some k1 /\
    map negative (ylanes 4 k0) = firstn 8 ks /\ map negative (ylanes 4 k1) = skipn 8 ks.
Proof.
  intros He L. assert (L' : length ks = (32 / esize e)%nat) by (rewrite He; exact L).
  assert (D : exists r, ymasks_cast undef true e Int (map (ymask_reg (esize e)) [ks]) = Some r) by (destruct e; try discriminate He; eexists; reflexivity).
  destruct D as (k0 & E0). assert (D : exists r, ymask_cast_offset true e Int 1 (ymask_reg (esize e) ks) = Some r) by (destruct e; try discriminate He; eexists; reflexivity).
  destruct D as (k1 & E1). exists k0, k1. split; [exact E0|]. split; [exact E1|]. split.
  - destruct (proj1 C19_avx_mask_simd_cast_main undef true e Int [ks] k0 (Forall_cons _ L' (Forall_nil _)) E0) as [H _]. cbn [concat] in H. rewrite app_nil_r in H.
    replace (Nat.min (length ks) (32 / esize Int)) with 8%nat in H by (rewrite L; reflexivity).
    rewrite (firstn_all2 (n := 8) (ylanes _ k0)) in H by (rewrite ylanes_length; cbn; lia). etransitivity; [apply (f_equal (map negative) H)|]. apply negative_masks, (esize_ok Int).
  - rewrite (proj1 (proj2 C19_avx_mask_simd_cast_offset_main) true e Int 1%nat ks k1 L' E1). change (1 * (32 / esize Int))%nat with 8%nat. change (32 / esize Int)%nat with 8%nat.
    rewrite (firstn_all2 (n := 8) (skipn 8 ks)) by (rewrite skipn_length, L; lia). apply (ysign_lanes 4); [exact (esize_ok Int)|rewrite skipn_length, L; reflexivity].
Qed.

Lemma C24_avx2_gather16_masked_main :
  forall undef e mt scale (old : list (elt e)) ks m mem u (idx : list (elt u)),
    (st_size mt = 1 \/ st_size mt = 2)%nat -> esize e = 2%nat -> esize u = 2%nat ->
    byte_memory m -> length idx = 16%nat -> length old = 16%nat -> length ks = 16%nat ->
    let addr i := mem + int_value u (znth (w0 (esize u)) idx i) * (scale * Z.of_nat (st_size mt)) in
    let g := y_gather16_masked undef e mt scale (ypack old) (ymask_reg (esize e) ks) m mem u (ypack idx) in
    ((forall i, 0 <= i < 16 -> znth false ks i = true -> readable m (addr i) 4) ->
       exists rs : list (elt e), g = Some (ypack rs) /\ length rs = 16%nat /\
         forall i, 0 <= i < 16 ->
           if znth false ks i
           then exists z, number_at m (addr i) (st_size mt) z /\ (int_value e (znth (w0 (esize e)) rs i) - small_value mt z) mod 2 ^ 16 = 0
           else znth (w0 (esize e)) rs i = znth (w0 (esize e)) old i) /\
    ((exists i j, 0 <= i < 16 /\ znth false ks i = true /\ 0 <= j < 4 /\ m (addr i + j) = None) -> g = None).
Proof.
  intros undef e mt scale old ks m mem u idx Hs He Hu B L Lo Lk addr g. destruct (idx16 undef u idx Hu L) as (i0 & i1 & E0 & E1 & S0 & S1).
  destruct (mask16 undef e ks He Lk) as (k0 & k1 & K0 & K1 & T0 & T1).
  unfold g, y_gather16_masked. rewrite (size16 u Hu), E0. cbn [obind]. rewrite E1. cbn [obind]. rewrite K0. cbn [obind]. rewrite K1. cbn [obind].
  rewrite !(mask_i32gather_map 4 _ _ _ _ _ _ 8) by (exact (ylanes_length Int _)). rewrite S0, S1, T0, T1.
  set (zs := map (int_value u) idx) in *. assert (Lz : length zs = 16%nat) by (unfold zs; now rewrite map_length).
  assert (A : forall i, 0 <= i < 16 -> mem + znth 0 zs i * (Z.of_nat (st_size mt) * scale) = addr i).
  { intros i Hi. unfold addr. rewrite (Z.mul_comm scale). f_equal. f_equal. unfold zs. rewrite (SeqP.znth_in Z) by (rewrite map_length, L; exact Hi). rewrite (SeqP.znth_in (elt u)) by (rewrite L; exact Hi).
    rewrite (nth_indep _ 0 (int_value u (w0 (esize u)))) by (rewrite map_length, L; lia). apply map_nth. }
  assert (Lf : length (firstn 8 zs) = 8%nat) by (rewrite firstn_length, Lz; reflexivity). assert (Ls : length (skipn 8 zs) = 8%nat) by (rewrite skipn_length, Lz; reflexivity).
  assert (A0 : forall i, 0 <= i < 8 -> mem + znth 0 (firstn 8 zs) i * (Z.of_nat (st_size mt) * scale) = addr i).
  { intros i Hi. rewrite znth_firstn by (cbn; lia). apply A. lia. }
  assert (A1 : forall i, 0 <= i < 8 -> mem + znth 0 (skipn 8 zs) i * (Z.of_nat (st_size mt) * scale) = addr (8 + i)).
  { intros i Hi. rewrite znth_skipn by lia. rewrite <- A by lia. do 3 f_equal; lia. }
  assert (C0 : forall i, 0 <= i < 8 -> znth false (firstn 8 ks) i = znth false ks i) by (intros; apply znth_firstn; cbn; lia).
  assert (C1 : forall i, 0 <= i < 8 -> znth false (skipn 8 ks) i = znth false ks (8 + i)) by (intros; rewrite znth_skipn by lia; f_equal; lia).
  set (src := ylanes 4 yzero). assert (Lsrc : length src = 8%nat) by exact (ylanes_length Int yzero).
  assert (Lkf : length (firstn 8 ks) = 8%nat) by (rewrite firstn_length, Lk; reflexivity). assert (Lks : length (skipn 8 ks) = 8%nat) by (rewrite skipn_length, Lk; reflexivity).
  destruct (gather_words_masked 4 m mem (firstn 8 zs) (Z.of_nat (st_size mt) * scale) src (firstn 8 ks) B ltac:(congruence) ltac:(congruence)) as [G1 G2].
  destruct (gather_words_masked 4 m mem (skipn 8 zs) (Z.of_nat (st_size mt) * scale) src (skipn 8 ks) B ltac:(congruence) ltac:(congruence)) as [G3 G4]. rewrite Lf in G1, G2. rewrite Ls in G3, G4. split.
  - intros R. destruct G1 as (g0 & Q0 & L0 & P0); [intros i Hi T; rewrite A0 by auto; rewrite C0 in T by auto; apply R; auto; lia|].
    destruct G3 as (g1 & Q1 & L1 & P1); [intros i Hi T; rewrite A1 by auto; rewrite C1 in T by auto; apply R; auto; lia|]. rewrite Q0, Q1. cbn [obind].
    destruct (narrow_ok undef e g0 g1 He L0 L1) as (vs & -> & Lv & F). cbn [obind].
    destruct (narrowed_ok m e mt addr g0 g1 vs (znth false ks) Hs He L0 L1) as (rs & -> & Lr & P); auto.
    + intros i Hi T. specialize (P0 i Hi). rewrite C0, T, A0 in P0 by auto. exact P0.
    + intros i Hi T. specialize (P1 i Hi). rewrite C1, T, A1 in P1 by auto. exact P1.
    + assert (N16 : (32 / esize e = 16)%nat) by (now rewrite He). rewrite y_assign_ok by congruence. eexists. split; [reflexivity|].
      assert (M : forall i, 0 <= i < 16 -> znth (w0 (esize e)) (masked_update_spec ks rs old) i = if znth false ks i then znth (w0 (esize e)) rs i else znth (w0 (esize e)) old i).
      { intros i Hi. unfold masked_update_spec. apply (znth_map3 _ _ _ _ (fun (b : bool) n o => if b then n else o) false (w0 (esize e)) (w0 (esize e))); [rewrite Lk; exact Hi|transitivity 16%nat; auto|transitivity 16%nat; auto]. }
      split; [unfold masked_update_spec; rewrite map3_length; lia|]. intros i Hi. rewrite M by auto. specialize (P i Hi). destruct (znth false ks i); [now apply P|reflexivity].
  - intros (i & j & Hi & T & Hj & E). destruct (Z.lt_ge_cases i 8) as [Q|Q].
    + rewrite G2; [reflexivity|]. exists i, j. rewrite A0, C0 by lia. repeat split; auto; lia.
    + rewrite G4; [destruct (sequence _); reflexivity|]. exists (i - 8), j. rewrite A1, C1 by lia. replace (8 + (i - 8)) with i by lia. repeat split; auto; lia.
Qed.
