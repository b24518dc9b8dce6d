(** gather and scatter through data[indexes][&S::member][k][inner] (proofs). *)
From Coq Require Import ZArith List Bool Lia.
From Verif.Spec Require Import Seq NativeSpec OperandSpec GatherSpec CastSpec ByteMemSpec SubscriptSpec.
From Verif.Model Require Import Word SseReg SseMove SortNet SseBuild SseInt SimdArray SimdArrayOps Mem GatherScatter AvxReg AvxMove AvxShuffle AvxMask AvxBuild AvxGather Subscript.
Import ListNotations.
Local Open Scope Z_scope.
From Verif.Proof Require Import SeqP SimdArrayP NativeCastP SseBuildP AvxBuildP GatherMain AvxGatherMain SubscriptP.

Lemma argument_ok st n x : holds_indexes st n -> (0 < n)%nat -> length x = n -> index_ok n (index_argument st x) /\ forall i, 0 <= i < Z.of_nat n -> index_at (index_argument st x) i = znth 0 x i.
Proof.
  intros H N L. destruct st as [|native|]; cbn [index_argument index_ok index_at operand_ok operand_at holds_indexes] in *.
  - destruct H as (a & A). split; [split; [exists a, 0%nat; rewrite L; repeat split; cbn; try lia; exact A|lia]|]. intros i I. cbn [Nat.mul]. f_equal. lia.
  - rewrite L. split; [exists native; split; [exact H|apply generate_wf; auto]|]. intros i I. rewrite generate_list by auto. apply znth_tab. lia.
  - split; [lia|]. intros i I. reflexivity.
Qed.
Lemma index_same {A} (zero : A) (m m' : memory A) mem mem' idx idx' n sel old new : (forall i, 0 <= i < Z.of_nat n -> m (mem + idx i) = m' (mem' + idx' i)) -> length old = n ->
  gathered zero m mem idx sel old new -> gathered zero m' mem' idx' sel old new.
Proof. intros E L (G & H). split; [exact G|]. intros i I. specialize (H i I). rewrite E in H by lia. exact H. Qed.
Lemma esize_pos e : 0 < Z.of_nat (esize e). Proof. destruct e; cbn; lia. Qed.
Lemma length_wf {A} b e n (t : sa A) : wf (native_of b e) n t -> length (to_list t) = n.
Proof. intros W. destruct b as [|avx2]; cbn [native_of] in W; [apply (wf_len _ (build_widths e) _ _ W)|apply (wf_len _ (abuild_widths avx2 e) _ _ W)]. Qed.
Lemma wf_positive {A} b e n (t : sa A) : wf (native_of b e) n t -> (0 < n)%nat.
Proof. intros W. destruct b as [|avx2]; cbn [native_of] in W; [destruct (wf_size _ (build_widths e) _ _ W)|destruct (wf_size _ (abuild_widths avx2 e) _ _ W)]; lia. Qed.

Lemma scatter_same {A} (zero : A) (v : list A) w o mem idx addr sel (m m' : memory A) : 0 < w -> (forall i, 0 <= i < Z.of_nat (length v) -> o + w * idx i = mem + addr i) ->
  scattered_last zero v 0 idx sel (elements w o m) m' -> scattered_last zero v mem addr sel m (with_elements w o m m').
Proof.
  intros W E H a. unfold with_elements. destruct (Z.eqb_spec ((a - o) mod w) 0) as [D|D].
  - pose proof (Z.div_mod (a - o) w ltac:(lia)) as Q. rewrite D in Q. destruct (H ((a - o) / w)) as [(H1 & H2)|(i & I1 & I2 & I3 & I4 & I5)].
    + left. rewrite H1. unfold elements. split; [f_equal; lia|]. intros i I S K. apply (H2 i I S). specialize (E i I). replace (a - o) with (idx i * w) by lia. rewrite Z.div_mul by lia. reflexivity.
    + right. exists i. split; [exact I1|]. split; [exact I2|]. split; [specialize (E i I1); rewrite <- I3 in Q; lia|]. split; [exact I4|]. intros j J S K. apply (I5 j J S). specialize (E j ltac:(lia)). replace (a - o) with (idx j * w) by lia. rewrite Z.div_mul by lia. reflexivity.
  - left. split; [reflexivity|]. intros i I S K. apply D. specialize (E i I). replace (a - o) with (idx i * w) by lia. apply Z.mod_mul; lia.
Qed.

Lemma index_register_ok e x : (4 <= esize e)%nat -> length x = (32 / esize e)%nat -> (forall i, 0 <= i < Z.of_nat (length x) -> fits IxInt (znth 0 x i)) -> index_values (index_register e x) x.
Proof.
  intros E L F. assert (V : map (int_value Int) (map (mkw 4) x) = x).
  { rewrite map_map. rewrite <- (map_id x) at 2. apply map_ext_in. intros z I. apply NativeCastP.int_value_mkw. destruct (In_nth x z 0 I) as (j & J & <-).
    specialize (F (Z.of_nat j) ltac:(lia)). rewrite znth_nth in F by lia. rewrite Nat2Z.id in F. cbn in F. cbn. lia. }
  enough (G : index_values (index_register e x) (map (int_value Int) (map (mkw 4) x))) by (rewrite V in G; exact G).
  unfold index_register. destruct (Nat.eqb_spec (esize e) 8) as [E8|E8].
  - apply (index_sse Int); [reflexivity|]. rewrite map_length, L, E8. reflexivity.
  - apply (index_avx Int); [reflexivity|]. rewrite map_length, L. destruct e; cbn in E, E8 |- *; try lia; reflexivity.
Qed.
Lemma scale_ok e scale : (4 <= esize e)%nat -> 1 <= scale -> scale * Z.of_nat (esize e) <= Z.max 8 (Z.of_nat (esize e)) -> instruction_scale e scale = true.
Proof.
  intros E S M. unfold instruction_scale. destruct e; cbn [esize] in *; try lia; assert (C : scale = 1 \/ scale = 2) by lia; destruct C as [->| ->]; cbn in M |- *; try lia; reflexivity.
Qed.

Lemma C65_gather_partial_main :
  forall (A : Type) (zero : A) b e n (t : sa A) k st S p idx data (m : memory A), wf (native_of b e) n t -> expression k st n (Z.of_nat (esize e)) S p idx ->
    (mapped m data (place S p idx) n (fun _ => true) ->
       exists r, subscript_gather b e k st m S data idx p t = Some r /\ wf (native_of b e) n r /\
         gathered zero m data (place S p idx) (fun _ => true) (to_list t) (to_list r)) /\
    ((exists i, 0 <= i < Z.of_nat n /\ m (data + place S p idx i) = None) -> subscript_gather b e k st m S data idx p t = None).
Proof.
  intros A zero b e n t k st S p idx data m W (L & (H & LI & FI & PI) & R & B & DV & FT).
  destruct (arguments_ok k st n (Z.of_nat (esize e)) S p data idx L LI FI PI R B DV FT) as (o & x & scale & F & E1 & _ & E2 & E3 & _ & _ & LF & _ & _ & _ & _ & _ & AD).
  pose proof (wf_positive _ _ _ _ W) as N. destruct (argument_ok st n F H N LF) as (IO & IA). unfold subscript_gather. rewrite E1. cbn [obind]. rewrite E2. cbn [obind fst snd]. rewrite E3. cbn [obind].
  assert (EL : forall i, 0 <= i < Z.of_nat n -> elements (Z.of_nat (esize e)) (o_address o) m (0 + index_at (index_argument st F) i) = m (data + place S p idx i)).
  { intros i I. rewrite IA by exact I. unfold elements. f_equal. rewrite Z.add_0_l. apply AD. exact I. }
  pose proof (length_wf _ _ _ _ W) as LT.
  destruct b as [|avx2]; cbn [native_of] in *.
  - destruct (GatherMain.C24_sse_gather_main A zero e n t (index_argument st F) (elements (Z.of_nat (esize e)) (o_address o) m) 0 W IO) as (G1 & G2). split.
    + intros M. destruct G1 as (r & R1 & R2 & R3); [intros i I _; rewrite EL by exact I; apply M; auto|]. exists r. split; [exact R1|]. split; [exact R2|]. exact (index_same zero _ _ _ _ _ _ n _ _ _ EL LT R3).
    + intros (i & I & X). apply G2. exists i. split; [exact I|]. rewrite EL by exact I. exact X.
  - destruct (AvxGatherMain.C24_avx_gather_main A zero avx2 e n t (index_argument st F) (elements (Z.of_nat (esize e)) (o_address o) m) 0 W IO) as (G1 & G2). split.
    + intros M. destruct G1 as (r & R1 & R2 & R3); [intros i I _; rewrite EL by exact I; apply M; auto|]. exists r. split; [exact R1|]. split; [exact R2|]. exact (index_same zero _ _ _ _ _ _ n _ _ _ EL LT R3).
    + intros (i & I & X). apply G2. exists i. split; [exact I|]. rewrite EL by exact I. exact X.
Qed.

Lemma C65_gather_masked_partial_main :
  forall (A : Type) (zero : A) b e strategy hw n (t : sa A) (mask : sa bool) k st S p idx data (m : memory A), strategy <> SetIndexZero -> is_simd st = true ->
    wf (native_of b e) n t -> wf (native_of b e) n mask -> expression k st n (Z.of_nat (esize e)) S p idx ->
    let sel := znth false (to_list mask) in
    (mapped m data (place S p idx) n sel ->
       exists r, subscript_gather_mask b e strategy hw k st m S data idx p mask t = Some r /\ wf (native_of b e) n r /\
         gathered zero m data (place S p idx) sel (to_list t) (to_list r)) /\
    ((exists i, 0 <= i < Z.of_nat n /\ sel i = true /\ m (data + place S p idx i) = None) -> subscript_gather_mask b e strategy hw k st m S data idx p mask t = None).
Proof.
  intros A zero b e strategy hw n t mask k st S p idx data m Z0 SI W Wm (L & (H & LI & FI & PI) & R & B & DV & FT).
  destruct (arguments_ok k st n (Z.of_nat (esize e)) S p data idx L LI FI PI R B DV FT) as (o & x & scale & F & E1 & _ & E2 & _ & E3 & _ & LF & _ & _ & _ & _ & _ & AD). specialize (E3 SI).
  pose proof (wf_positive _ _ _ _ W) as N. destruct (argument_ok st n F H N LF) as (IO & IA). unfold subscript_gather_mask. rewrite E1. cbn [obind]. rewrite E2. cbn [obind fst snd]. rewrite E3. cbn [obind].
  assert (EL : forall i, 0 <= i < Z.of_nat n -> elements (Z.of_nat (esize e)) (o_address o) m (0 + index_at (index_argument st F) i) = m (data + place S p idx i)).
  { intros i I. rewrite IA by exact I. unfold elements. f_equal. rewrite Z.add_0_l. apply AD. exact I. }
  pose proof (length_wf _ _ _ _ W) as LT. try intros sel.
  destruct b as [|avx2]; cbn [native_of] in *.
  - destruct (GatherMain.C24_sse_gather_masked_main A zero e strategy hw n t mask (index_argument st F) (elements (Z.of_nat (esize e)) (o_address o) m) 0 Z0 W Wm IO) as (G1 & G2). split.
    + intros M. destruct G1 as (r & R1 & R2 & R3); [intros i I Si; rewrite EL by exact I; apply M; auto|]. exists r. split; [exact R1|]. split; [exact R2|]. exact (index_same zero _ _ _ _ _ _ n _ _ _ EL LT R3).
    + intros (i & I & Si & X). apply G2. exists i. split; [exact I|]. split; [exact Si|]. rewrite EL by exact I. exact X.
  - destruct (AvxGatherMain.C24_avx_gather_masked_main A zero avx2 e strategy hw n t mask (index_argument st F) (elements (Z.of_nat (esize e)) (o_address o) m) 0 Z0 W Wm IO) as (G1 & G2). split.
    + intros M. destruct G1 as (r & R1 & R2 & R3); [intros i I Si; rewrite EL by exact I; apply M; auto|]. exists r. split; [exact R1|]. split; [exact R2|]. exact (index_same zero _ _ _ _ _ _ n _ _ _ EL LT R3).
    + intros (i & I & Si & X). apply G2. exists i. split; [exact I|]. split; [exact Si|]. rewrite EL by exact I. exact X.
Qed.

Lemma C65_scatter_partial_main :
  forall (A : Type) (zero : A) b e n (t : sa A) k st S p idx data (m : memory A), wf (native_of b e) n t -> expression k st n (Z.of_nat (esize e)) S p idx ->
    (mapped m data (place S p idx) n (fun _ => true) ->
       exists m', subscript_scatter zero b e k st t S data idx p m = Some m' /\
         scattered_last zero (to_list t) data (place S p idx) (fun _ => true) m m') /\
    ((exists i, 0 <= i < Z.of_nat n /\ m (data + place S p idx i) = None) -> subscript_scatter zero b e k st t S data idx p m = None).
Proof.
  intros A zero b e n t k st S p idx data m W (L & (H & LI & FI & PI) & R & B & DV & FT).
  destruct (arguments_ok k st n (Z.of_nat (esize e)) S p data idx L LI FI PI R B DV FT) as (o & x & scale & F & E1 & _ & _ & _ & _ & E3 & LF & _ & _ & _ & _ & _ & AD).
  pose proof (wf_positive _ _ _ _ W) as N. destruct (argument_ok st n F H N LF) as (IO & IA). unfold subscript_scatter. rewrite E1. cbn [obind]. rewrite E3. cbn [obind].
  assert (AL : forall i, 0 <= i < Z.of_nat n -> o_address o + Z.of_nat (esize e) * index_at (index_argument st F) i = data + place S p idx i).
  { intros i I. rewrite IA by exact I. apply AD. exact I. }
  assert (EL : forall i, 0 <= i < Z.of_nat n -> elements (Z.of_nat (esize e)) (o_address o) m (0 + index_at (index_argument st F) i) = m (data + place S p idx i)).
  { intros i I. unfold elements. f_equal. rewrite Z.add_0_l. apply AL. exact I. }
  pose proof (length_wf _ _ _ _ W) as LT.
  destruct b as [|avx2]; cbn [native_of] in *.
  - destruct (GatherMain.C25_sse_scatter_main A zero e n t (index_argument st F) (elements (Z.of_nat (esize e)) (o_address o) m) 0 W IO) as (G1 & G2). split.
    + intros M. destruct G1 as (r & R1 & R3); [intros i I _; rewrite EL by exact I; apply M; auto|]. rewrite R1. cbn [obind]. eexists. split; [reflexivity|].
      apply (scatter_same zero _ _ _ _ (index_at (index_argument st F))); [apply esize_pos|rewrite LT; exact AL|exact R3].
    + intros (i & I & X). rewrite G2; [reflexivity|]. exists i. split; [exact I|]. rewrite EL by exact I. exact X.
  - destruct (AvxGatherMain.C25_avx_scatter_main A zero avx2 e n t (index_argument st F) (elements (Z.of_nat (esize e)) (o_address o) m) 0 W IO) as (G1 & G2). split.
    + intros M. destruct G1 as (r & R1 & R3); [intros i I _; rewrite EL by exact I; apply M; auto|]. rewrite R1. cbn [obind]. eexists. split; [reflexivity|].
      apply (scatter_same zero _ _ _ _ (index_at (index_argument st F))); [apply esize_pos|rewrite LT; exact AL|exact R3].
    + intros (i & I & X). rewrite G2; [reflexivity|]. exists i. split; [exact I|]. rewrite EL by exact I. exact X.
Qed.

Lemma C65_scatter_masked_partial_main :
  forall (A : Type) (zero : A) b e hw n (t : sa A) (mask : sa bool) k st S p idx data (m : memory A),
    wf (native_of b e) n t -> wf (native_of b e) n mask -> expression k st n (Z.of_nat (esize e)) S p idx ->
    let sel := znth false (to_list mask) in
    (mapped m data (place S p idx) n sel ->
       exists m', subscript_scatter_mask zero b e SimpleLoop hw k st t mask S data idx p m = Some m' /\
         scattered_last zero (to_list t) data (place S p idx) sel m m') /\
    ((exists i, 0 <= i < Z.of_nat n /\ sel i = true /\ m (data + place S p idx i) = None) -> subscript_scatter_mask zero b e SimpleLoop hw k st t mask S data idx p m = None).
Proof.
  intros A zero b e hw n t mask k st S p idx data m W Wm (L & (H & LI & FI & PI) & R & B & DV & FT).
  destruct (arguments_ok k st n (Z.of_nat (esize e)) S p data idx L LI FI PI R B DV FT) as (o & x & scale & F & E1 & _ & _ & _ & _ & E3 & LF & _ & _ & _ & _ & _ & AD).
  pose proof (wf_positive _ _ _ _ W) as N. destruct (argument_ok st n F H N LF) as (IO & IA). unfold subscript_scatter_mask. rewrite E1. cbn [obind]. rewrite E3. cbn [obind].
  assert (AL : forall i, 0 <= i < Z.of_nat n -> o_address o + Z.of_nat (esize e) * index_at (index_argument st F) i = data + place S p idx i).
  { intros i I. rewrite IA by exact I. apply AD. exact I. }
  assert (EL : forall i, 0 <= i < Z.of_nat n -> elements (Z.of_nat (esize e)) (o_address o) m (0 + index_at (index_argument st F) i) = m (data + place S p idx i)).
  { intros i I. unfold elements. f_equal. rewrite Z.add_0_l. apply AL. exact I. }
  pose proof (length_wf _ _ _ _ W) as LT. try intros sel.
  destruct b as [|avx2]; cbn [native_of] in *.
  - destruct (GatherMain.C25_sse_scatter_masked_main A zero e hw n t mask (index_argument st F) (elements (Z.of_nat (esize e)) (o_address o) m) 0 W Wm IO) as (G1 & G2). split.
    + intros M. destruct G1 as (r & R1 & R3); [intros i I Si; rewrite EL by exact I; apply M; auto|]. rewrite R1. cbn [obind]. eexists. split; [reflexivity|].
      apply (scatter_same zero _ _ _ _ (index_at (index_argument st F))); [apply esize_pos|rewrite LT; exact AL|exact R3].
    + intros (i & I & Si & X). rewrite G2; [reflexivity|]. exists i. split; [exact I|]. split; [exact Si|]. rewrite EL by exact I. exact X.
  - destruct (AvxGatherMain.C25_avx_scatter_masked_main A zero avx2 e hw n t mask (index_argument st F) (elements (Z.of_nat (esize e)) (o_address o) m) 0 W Wm IO) as (G1 & G2). split.
    + intros M. destruct G1 as (r & R1 & R3); [intros i I Si; rewrite EL by exact I; apply M; auto|]. rewrite R1. cbn [obind]. eexists. split; [reflexivity|].
      apply (scatter_same zero _ _ _ _ (index_at (index_argument st F))); [apply esize_pos|rewrite LT; exact AL|exact R3].
    + intros (i & I & Si & X). rewrite G2; [reflexivity|]. exists i. split; [exact I|]. split; [exact Si|]. rewrite EL by exact I. exact X.
Qed.

Lemma C65_avx2_gather_partial_main :
  forall undef e S p idx data m, length undef = 16%nat -> Forall (fun b => 0 <= b < 256) undef -> (4 <= esize e)%nat -> byte_memory m ->
    let n := (32 / esize e)%nat in expression IxInt InVector n (Z.of_nat (esize e)) S p idx ->
    ((forall i, 0 <= i < Z.of_nat n -> readable m (data + place S p idx i) (esize e)) ->
       exists xs : list (elt e), avx2_subscript_gather undef e m S data idx p = Some (ypack xs) /\ length xs = n /\
         forall i, 0 <= i < Z.of_nat n -> number_at m (data + place S p idx i) (esize e) (uval (znth (w0 (esize e)) xs i))) /\
    ((exists i j, 0 <= i < Z.of_nat n /\ 0 <= j < Z.of_nat (esize e) /\ m (data + place S p idx i + j) = None) ->
       avx2_subscript_gather undef e m S data idx p = None).
Proof.
  intros undef e S p idx data m U1 U2 E BM n (L & (H & LI & FI & PI) & R & B & DV & FT).
  destruct (arguments_ok IxInt InVector n (Z.of_nat (esize e)) S p data idx L LI FI PI R B DV FT) as (o & x & scale & F & E1 & _ & E2 & _ & _ & _ & LF & W0 & S1 & S2 & LX & FX & AD).
  unfold avx2_subscript_gather. rewrite E1. cbn [obind]. rewrite E2. cbn [obind fst snd]. rewrite (scale_ok e scale E S2 S1).
  assert (AD' : forall i, 0 <= i < Z.of_nat n -> o_address o + znth 0 x i * (scale * Z.of_nat (esize e)) = data + place S p idx i).
  { intros i I. rewrite <- (AD i I). destruct (FX i I) as (_ & <-). lia. }
  pose proof (index_register_ok e x E LX ltac:(intros i I; apply FX; lia)) as IV.
  assert (X31 : Forall (fun z => z < 2 ^ 31) x).
  { apply Forall_forall. intros z I. destruct (In_nth x z 0 I) as (j & J & <-). destruct (FX (Z.of_nat j) ltac:(lia)) as (X & _). rewrite znth_nth in X by lia. rewrite Nat2Z.id in X. cbn in X. cbn. lia. }
  destruct (C24_avx2_gather_main undef e scale m (o_address o) (index_register e x) x U1 U2 E BM IV ltac:(unfold n in LX; lia) X31) as (G1 & G2). fold n in G1, G2. split.
  - intros RD. destruct G1 as (xs & G & LG & V); [intros i I; rewrite AD' by exact I; apply RD; exact I|]. exists xs. split; [exact G|]. split; [exact LG|]. intros i I. rewrite <- AD' by exact I. apply V. exact I.
  - intros (i & j & I & J & X). apply G2. exists i, j. split; [exact I|]. split; [exact J|]. rewrite AD' by exact I. exact X.
Qed.

Lemma C65_avx2_gather_masked_partial_main :
  forall undef e (old : list (elt e)) ks S p idx data m, length undef = 16%nat -> Forall (fun b => 0 <= b < 256) undef -> (4 <= esize e)%nat -> byte_memory m ->
    let n := (32 / esize e)%nat in expression IxInt InVector n (Z.of_nat (esize e)) S p idx -> length old = n -> length ks = n ->
    let g := avx2_subscript_gather_mask undef e (ypack old) (ymask_reg (esize e) ks) m S data idx p in
    ((forall i, 0 <= i < Z.of_nat n -> znth false ks i = true -> readable m (data + place S p idx i) (esize e)) ->
       exists xs : list (elt e), g = Some (ypack xs) /\ length xs = n /\
         forall i, 0 <= i < Z.of_nat n ->
           if znth false ks i then number_at m (data + place S p idx i) (esize e) (uval (znth (w0 (esize e)) xs i))
           else znth (w0 (esize e)) xs i = znth (w0 (esize e)) old i) /\
    ((exists i j, 0 <= i < Z.of_nat n /\ znth false ks i = true /\ 0 <= j < Z.of_nat (esize e) /\ m (data + place S p idx i + j) = None) -> g = None).
Proof.
  intros undef e old ks S p idx data m U1 U2 E BM n (L & (H & LI & FI & PI) & R & B & DV & FT) LO LK. cbv zeta.
  destruct (arguments_ok IxInt InVector n (Z.of_nat (esize e)) S p data idx L LI FI PI R B DV FT) as (o & x & scale & F & E1 & _ & E2 & _ & _ & _ & LF & W0 & S1 & S2 & LX & FX & AD).
  unfold avx2_subscript_gather_mask. rewrite E1. cbn [obind]. rewrite E2. cbn [obind fst snd]. rewrite (scale_ok e scale E S2 S1).
  assert (AD' : forall i, 0 <= i < Z.of_nat n -> o_address o + znth 0 x i * (scale * Z.of_nat (esize e)) = data + place S p idx i).
  { intros i I. rewrite <- (AD i I). destruct (FX i I) as (_ & <-). lia. }
  pose proof (index_register_ok e x E LX ltac:(intros i I; apply FX; lia)) as IV.
  assert (X31 : Forall (fun z => z < 2 ^ 31) x).
  { apply Forall_forall. intros z I. destruct (In_nth x z 0 I) as (j & J & <-). destruct (FX (Z.of_nat j) ltac:(lia)) as (X & _). rewrite znth_nth in X by lia. rewrite Nat2Z.id in X. cbn in X. cbn. lia. }
  destruct (C24_avx2_gather_masked_main undef e scale old ks m (o_address o) (index_register e x) x U1 U2 E BM IV ltac:(unfold n in LX; lia) X31 LO LK) as (G1 & G2). fold n in G1, G2. split.
  - intros RD. destruct G1 as (xs & G & LG & V); [intros i I K; rewrite AD' by exact I; apply RD; assumption|]. exists xs. split; [exact G|]. split; [exact LG|]. intros i I. rewrite <- AD' by exact I. apply V. exact I.
  - intros (i & j & I & K & J & X). apply G2. exists i, j. split; [exact I|]. split; [exact K|]. split; [exact J|]. rewrite AD' by exact I. exact X.
Qed.

Lemma C65_nested_refuted_main :
  let P := Class 12 [(0, Number 4); (4, Number 4); (8, Number 4)] in
  let S := Class 28 [(0, Number 4); (4, Array 2 P)] in
  let p := [Member 1; AtEach [0; 0; 0; 0]; Member 2] in
  laid_out S /\ reach S p = Some (Number 4) /\ in_bounds 4 S p /\ ~ divides (sizeof S) S p /\ place S p [1; 1; 1; 1] 0 = 40 /\
  option_map (@to_list Z) (subscript_gather SseTarget Float IxInt InVector (fun a => Some (a - 1000)) S 1000 [1; 1; 1; 1] p (generate (sse_native 4) 4 (fun _ => 0))) =
    Some [36; 36; 36; 36].
Proof.
  cbv zeta. split; [|split; [|split; [|split; [|split]]]]; try (vm_compute; reflexivity).
  - cbn. repeat split; try lia; try (right; right; left; reflexivity); first [exists 0; lia|exists 1; lia|exists 2; lia|exists 3; lia|exists 7; lia].
  - cbn. repeat split. repeat constructor; lia.
  - cbn. intros ((q & Q) & _). lia.
Qed.

Lemma C65_overflow_refuted_main :
  let S := Class 1024 [(0, Number 4); (4, Array 255 (Number 4))] in
  laid_out S /\ place S [Member 0] [8388608; 0; 0; 0] 0 = 2 ^ 33 /\
  option_map (@to_list Z) (subscript_gather SseTarget Float IxInt InVector (fun a => Some a) S 0 [8388608; 0; 0; 0] [Member 0] (generate (sse_native 4) 4 (fun _ => 0))) =
    Some [- 2 ^ 33; 0; 0; 0].
Proof.
  cbv zeta. split; [|split; vm_compute; reflexivity].
  cbn. repeat split; try lia; try (right; right; left; reflexivity); first [exists 0; lia|exists 1; lia|exists 256; lia].
Qed.
