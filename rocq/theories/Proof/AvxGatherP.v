(** Gather and scatter in AVX builds. *)
From Coq Require Import ZArith List Bool Lia.
From Verif.Spec Require Import Seq NativeSpec MaskSpec OperandSpec GatherSpec FloatSpec RoundSpec CastSpec VectorSpec ByteMemSpec.
From Verif.Model Require Import Word Fp SseReg SseMove SortNet SseInt SseBuild SseArith SseMask SimdArray SimdArrayOps Mem SseConvert GatherScatter
  AvxReg AvxMove AvxBuild AvxShuffle AvxMask AvxArith AvxConvert AvxGather.
From Verif.Proof Require Import SeqP SimdArrayP SimdArrayOpsP WordP SseIntP SseMoveP SseEmulP SseMaskP SseBuildP BitScanP GatherP InterleaveP MathP AvxMaskP AvxBuildP AvxShuffleP AvxArithP AvxCastP AvxCast2P AvxMaskCastP AvxConvertMain AvxMathP.
Import ListNotations.
Local Open Scope Z_scope.

(** * lists *)
Lemma avx_widths_cases avx2 e n : avx_widths_of avx2 e n = true -> n = 1%nat \/ n = (16 / esize e)%nat \/ n = (32 / esize e)%nat.
Proof.
  unfold avx_widths_of, avx_native, sse_native. destruct (has256 avx2 e); rewrite !orb_true_iff, !Nat.eqb_eq; tauto.
Qed.
Lemma avx_simd_width avx2 e n : avx_widths_of avx2 e n = true -> n <> 1%nat -> simd_width n.
Proof. intros H N. destruct (avx_widths_cases avx2 e n H) as [|[->| ->]]; [contradiction| |]; unfold simd_width; destruct e; cbn; auto. Qed.
Lemma native_mask_int_ok avx2 e ks : avx_widths_of avx2 e (length ks) = true -> length ks <> 1%nat -> native_mask_int (esize e) ks = to_int_spec ks.
Proof.
  intros H N. unfold native_mask_int. destruct (Nat.eqb_spec (length ks) (32 / esize e)) as [E|E]; [apply ym_to_int_ok; auto; apply esize_ok|].
  destruct (avx_widths_cases avx2 e _ H) as [|[E'|]]; try contradiction. apply m_to_int_ok; auto. apply esize_ok.
Qed.
Lemma avx_native_gather_ok {A} (zero : A) avx2 e : ngather_ok zero (avx_widths_of avx2 e) gather_all.
Proof. intros m mem idx v _. apply gather_all_ok. Qed.
Lemma avx_native_scatter_ok {A} (zero : A) avx2 e : nscatter_ok zero (avx_widths_of avx2 e) true (scatter_all zero).
Proof. intros m mem idx v _. apply scatter_all_ok. Qed.

Lemma avx_native_gather_masked_ok {A} (zero : A) st hw avx2 e : exact_strategy st = true ->
  ngather_masked_ok zero (avx_widths_of avx2 e) (avx_native_gather_masked st hw (esize e)).
Proof.
  intros Hst m mem idx ks v N L. destruct (Nat.eq_dec (length v) 1) as [E1|N1].
  - pose proof (native_gather_masked_ok zero st hw (esize e) (esize_ok e) Hst m mem idx ks v) as H. destruct v as [|x [|]]; try discriminate E1.
    apply H; [apply (build_widths e)|exact L].
  - unfold avx_native_gather_masked. rewrite not_single by auto.
    rewrite (native_mask_int_ok avx2) by (rewrite L; auto). apply gather_masked_ok; auto. now apply (avx_simd_width avx2 e).
Qed.
Lemma avx_native_scatter_masked_ok {A} (zero : A) st hw avx2 e : exact_strategy st = true ->
  nscatter_masked_ok zero (avx_widths_of avx2 e) (match st with SimpleLoop => true | _ => false end) (avx_native_scatter_masked zero st hw (esize e)).
Proof.
  intros Hst m mem idx ks v N L. destruct (Nat.eq_dec (length v) 1) as [E1|N1].
  - pose proof (native_scatter_masked_ok zero st hw (esize e) (esize_ok e) Hst m mem idx ks v) as H. destruct v as [|x [|]]; try discriminate E1.
    apply H; [apply (build_widths e)|exact L].
  - unfold avx_native_scatter_masked. rewrite not_single by auto.
    rewrite (native_mask_int_ok avx2) by (rewrite L; auto). apply scatter_masked_ok; auto. now apply (avx_simd_width avx2 e).
Qed.

(** * bytes *)
Lemma pow256 i : 0 <= i -> 2 ^ (8 * (i + 1)) = 256 * 2 ^ (8 * i).
Proof. intros. replace (8 * (i + 1)) with (8 + 8 * i) by lia. now rewrite Z.pow_add_r by lia. Qed.
Lemma load_number m n : byte_memory m -> forall a bs, mem_load m a n = Some bs -> number_at m a n (of_bytes bs) /\ Forall byte bs /\ length bs = n.
Proof.
  intros B. induction n as [|n IH]; intros a bs E; cbn [mem_load] in E.
  - injection E as <-. split; [|split; [constructor|reflexivity]]. split; [cbn; lia|intros; lia].
  - destruct (m a) as [b|] eqn:Ea; [|discriminate]. destruct (mem_load m (a + 1) n) as [bs'|] eqn:E'; [|discriminate]. cbn [option_map] in E. injection E as <-.
    destruct (IH _ _ E') as ([R N] & F & L). pose proof (B _ _ Ea) as Hb. split; [|split; [now constructor|cbn; now rewrite L]].
    cbn [of_bytes]. split.
    + replace (Z.of_nat (Datatypes.S n)) with (Z.of_nat n + 1) by lia. rewrite pow256 by lia. lia.
    + intros i Hi. destruct (Z.eq_dec i 0) as [->|Ni].
      * rewrite Z.add_0_r, Ea. f_equal. change (2 ^ (8 * 0)) with 1. rewrite Z.div_1_r. rewrite Z.mul_comm, Z_mod_plus_full. now rewrite Z.mod_small.
      * specialize (N (i - 1) ltac:(lia)). replace (a + 1 + (i - 1)) with (a + i) in N by lia. rewrite N. f_equal. f_equal.
        replace (8 * i) with (8 * ((i - 1) + 1)) by lia. rewrite pow256 by lia. rewrite <- Z.div_div by (try lia; apply Z.pow_pos_nonneg; lia). f_equal.
        rewrite (Z.mul_comm 256), Z_div_plus_full by lia. rewrite Z.div_small by lia. lia.
Qed.
Lemma load_readable m n : forall a, readable m a n -> exists bs, mem_load m a n = Some bs.
Proof.
  intros a R. rewrite (mem_load_spec Z m n a 0); [eauto|]. intros i Hi. specialize (R i Hi). destruct (m (a + i)); [eauto|contradiction].
Qed.
Lemma word_at_ok w m a : byte_memory m -> readable m a w -> exists x, word_at w m a = Some x /\ number_at m a w (uval x).
Proof.
  intros B R. destruct (load_readable m w a R) as (bs & E). exists (dec bs). unfold word_at. rewrite E. split; [reflexivity|].
  destruct (load_number m w B a bs E) as (N & _ & _). unfold dec. rewrite uval_mkw. unfold modulus, bits. rewrite Z.mod_small; [exact N|]. exact (proj1 N).
Qed.
Lemma word_at_none w m a j : 0 <= j < Z.of_nat w -> m (a + j) = None -> word_at w m a = None.
Proof. intros Hj E. unfold word_at. now rewrite (mem_load_none _ m _ a j Hj E). Qed.

(** * the instructions *)
Lemma sequence_ok {A B} (P : A -> B -> Prop) (f : A -> option B) (l : list A) : (forall x, In x l -> exists y, f x = Some y /\ P x y) ->
  exists ys, sequence (map f l) = Some ys /\ Forall2 P l ys.
Proof.
  induction l as [|x l IH]; intros H; [exists []; split; [reflexivity|constructor]|].
  destruct (H x (or_introl eq_refl)) as (y & E & Py). destruct IH as (ys & Es & Ps); [intros; apply H; now right|].
  exists (y :: ys). cbn [map sequence]. rewrite E, Es. split; [reflexivity|now constructor].
Qed.
Lemma sequence_none {A B} (f : A -> option B) (l : list A) x : In x l -> f x = None -> sequence (map f l) = None.
Proof.
  intros I E. induction l as [|y l IH]; [destruct I|]. cbn [map sequence]. destruct I as [->|I]; [now rewrite E|].
  destruct (f y) as [v|]; [|reflexivity]. rewrite (IH I). reflexivity.
Qed.
Lemma i32gather_map w m addr idx scale : i32gather w m addr idx scale = sequence (map (fun z => word_at w m (addr + z * scale)) (map sval idx)).
Proof. unfold i32gather. now rewrite map_map. Qed.
Lemma mask_i32gather_map w src ks m addr idx scale n : length idx = n -> length src = n -> length ks = n ->
  mask_i32gather w src ks m addr idx scale =
  sequence (map (fun p : Z * word w * bool => if snd p then word_at w m (addr + fst (fst p) * scale) else Some (snd (fst p)))
    (combine (combine (map sval idx) src) (map negative ks))).
Proof.
  intros L1 L2 L3. unfold mask_i32gather. f_equal. revert n src ks L1 L2 L3. induction idx as [|i idx IH]; intros [|n] [|s src] [|k ks] L1 L2 L3; try discriminate; [reflexivity|].
  cbn. f_equal. apply (IH n); cbn [length] in *; lia.
Qed.

(** * the indexes as int *)
Lemma cast_int_value u (x : elt u) (y : word 4) : is_integer u = true -> cast_ok u Int x y -> int_value u x < 2 ^ 31 -> sval y = int_value u x.
Proof.
  intros Hu C H. unfold cast_ok in C. rewrite Hu in C. cbn [is_integer] in C. change (int_value Int y) with (sval y) in C.
  change (2 ^ (8 * Z.of_nat (esize Int))) with (2 ^ 32) in C.
  pose proof (sval_range y ltac:(lia)) as R. change (modulus 4 / 2) with (2 ^ 31) in R.
  assert (L : - 2 ^ 31 <= int_value u x).
  { unfold int_value. destruct u; try discriminate Hu; cbn [is_signed]; match goal with |- _ <= sval ?z => pose proof (sval_range z ltac:(cbn; lia)) as Q | |- _ <= uval ?z => pose proof (uval_range z) as Q end.
    - change (modulus (esize Short) / 2) with (2 ^ 15) in Q. lia.
    - lia.
    - change (modulus (esize Int) / 2) with (2 ^ 31) in Q. lia.
    - lia. }
  apply Z.mod_divide in C; [|lia]. destruct C as [q C]. lia.
Qed.
Lemma cast_int_values u (xs : list (elt u)) (ys : list (word 4)) : is_integer u = true -> Forall2 (cast_ok u Int) xs ys ->
  Forall (fun z => z < 2 ^ 31) (map (int_value u) xs) -> map sval ys = map (int_value u) xs.
Proof.
  intros Hu F H. induction F as [|x y xs ys C F IH]; [reflexivity|]. inversion H; subst. cbn [map]. f_equal; [now apply cast_int_value|auto].
Qed.
Lemma forall_firstn {A} (P : A -> Prop) n : forall l, Forall P l -> Forall P (firstn n l).
Proof. induction n as [|n IH]; intros l H; [constructor|]. destruct H; cbn; constructor; auto. Qed.
Lemma forall_skipn {A} (P : A -> Prop) n : forall l, Forall P l -> Forall P (skipn n l).
Proof. induction n as [|n IH]; intros l H; [exact H|]. destruct H; cbn; [constructor|auto]. Qed.

Section Ix.
  Variable undef : reg.
  Hypothesis (Lu : length undef = 16%nat) (Bu : Forall (fun b => 0 <= b < 256) undef).
  Lemma to_avx_int_ok ix zs : index_values ix zs -> (8 <= length zs)%nat -> Forall (fun z => z < 2 ^ 31) zs ->
    exists r, to_avx_int undef ix = Some r /\ map sval (ylanes 4 r) = firstn 8 zs.
  Proof using Lu Bu.
    intros V L F. destruct V as [u xs Hu Lx|u xs Hu Lx]; rewrite map_length in L; cbn [to_avx_int].
    - destruct (C46_avx_simd_cast_defined_main undef true u Int [xs]) as (r & E); auto. exists r. split; [exact E|].
      pose proof (C46_avx_simd_cast_main undef true u Int [xs] r (Forall_cons _ Lx (Forall_nil _)) E) as [H _]. cbv zeta in H. cbn [concat] in H. rewrite app_nil_r in H.
      replace (Nat.min (length xs) (32 / esize Int)) with 8%nat in H by (change (32 / esize Int)%nat with 8%nat; lia).
      rewrite (firstn_all2 (n := 8) (ylanes _ r)) in H by (rewrite ylanes_length; cbn; lia). rewrite firstn_map. apply cast_int_values; auto. rewrite <- firstn_map. now apply forall_firstn.
    - destruct (proj1 C46_avx_sse_simd_cast_defined_main undef true u Int [xs]) as (r & E); auto. exists r. split; [exact E|].
      pose proof (proj1 C46_avx_sse_simd_cast_main undef true u Int [xs] r Lu Bu (Forall_cons _ Lx (Forall_nil _)) E) as [H _]. cbv zeta in H. cbn [concat] in H. rewrite app_nil_r in H.
      replace (Nat.min (length xs) (32 / esize Int)) with 8%nat in H by (change (32 / esize Int)%nat with 8%nat; lia).
      rewrite (firstn_all2 (n := 8) (ylanes _ r)) in H by (rewrite ylanes_length; cbn; lia). rewrite firstn_map. apply cast_int_values; auto. rewrite <- firstn_map. now apply forall_firstn.
  Qed.
  Lemma to_sse_int_ok ix zs : index_values ix zs -> (4 <= length zs)%nat -> Forall (fun z => z < 2 ^ 31) zs ->
    exists r, to_sse_int undef ix = Some r /\ map sval (lanes 4 r) = firstn 4 zs.
  Proof using Lu Bu.
    intros V L F. destruct V as [u xs Hu Lx|u xs Hu Lx]; rewrite map_length in L; cbn [to_sse_int].
    - destruct (proj1 (proj2 C46_avx_sse_simd_cast_defined_main) undef true u Int [xs]) as (r & E); auto. exists r. split; [exact E|].
      pose proof (proj1 (proj2 C46_avx_sse_simd_cast_main) undef true u Int [xs] r (Forall_cons _ Lx (Forall_nil _)) E) as [H _]. cbv zeta in H. cbn [concat] in H. rewrite app_nil_r in H.
      replace (Nat.min (length xs) (16 / esize Int)) with 4%nat in H by (change (16 / esize Int)%nat with 4%nat; lia).
      rewrite (firstn_all2 (n := 4) (lanes _ r)) in H by (rewrite lanes_length; cbn; lia). rewrite firstn_map. apply cast_int_values; auto. rewrite <- firstn_map. now apply forall_firstn.
    - destruct (proj2 (proj2 C46_avx_sse_simd_cast_defined_main) u Int [xs]) as (r & E); auto. exists r. split; [exact E|].
      pose proof (proj2 (proj2 C46_avx_sse_simd_cast_main) u Int [xs] r (Forall_cons _ Lx (Forall_nil _)) E) as [H _]. cbv zeta in H. cbn [concat] in H. rewrite app_nil_r in H.
      replace (Nat.min (length xs) (16 / esize Int)) with 4%nat in H by (change (16 / esize Int)%nat with 4%nat; lia).
      rewrite (firstn_all2 (n := 4) (lanes _ r)) in H by (rewrite lanes_length; cbn; lia). rewrite firstn_map. apply cast_int_values; auto. rewrite <- firstn_map. now apply forall_firstn.
  Qed.

  (** the masks and values of all gathers: positions *)
  Lemma index_size ix zs : index_values ix zs -> index_vec_size ix = length zs.
  Proof. intros []; cbn [index_vec_size]; now rewrite map_length. Qed.
End Ix.

Lemma forall2_length {A B} (P : A -> B -> Prop) xs ys : Forall2 P xs ys -> length xs = length ys.
Proof. induction 1; cbn; auto. Qed.
Lemma forall2_znth {A B} (P : A -> B -> Prop) (da : A) (db : B) xs ys : Forall2 P xs ys -> forall i, 0 <= i < Z.of_nat (length xs) -> P (znth da xs i) (znth db ys i).
Proof.
  intros F i Hi. pose proof (forall2_length _ _ _ F) as L. rewrite !SeqP.znth_in by lia.
  assert (Hk : (Z.to_nat i < length xs)%nat) by lia. revert Hk. generalize (Z.to_nat i). clear - F. induction F as [|x y xs ys H F IH]; intros [|k] Hk; cbn in *; try lia; auto. apply IH. lia.
Qed.
Lemma znth_firstn_lt {A} (d : A) n l i : 0 <= i < Z.of_nat n -> znth d (firstn n l) i = znth d l i.
Proof. intros H. apply znth_firstn. lia. Qed.
Lemma znth_member {A} (d : A) l i : 0 <= i < Z.of_nat (length l) -> In (znth d l i) l.
Proof. intros H. rewrite SeqP.znth_in by auto. apply nth_In. lia. Qed.
Lemma in_znth {A} (d : A) l x : In x l -> exists i, 0 <= i < Z.of_nat (length l) /\ znth d l i = x.
Proof.
  intros I. destruct (In_nth _ _ d I) as (k & Hk & E). exists (Z.of_nat k). split; [lia|]. rewrite SeqP.znth_in by lia. now rewrite Nat2Z.id.
Qed.
Lemma znth_combine {A B} (a : A) (b : B) xs ys i : length xs = length ys -> 0 <= i < Z.of_nat (length xs) -> znth (a, b) (combine xs ys) i = (znth a xs i, znth b ys i).
Proof. intros L Hi. rewrite !SeqP.znth_in; rewrite ?combine_length; try lia. now apply combine_nth. Qed.

(** the unmasked instruction *)
Lemma gather_words w m addr (zs : list Z) scale : byte_memory m ->
  ((forall i, 0 <= i < Z.of_nat (length zs) -> readable m (addr + znth 0 zs i * scale) w) ->
    exists xs, sequence (map (fun z => word_at w m (addr + z * scale)) zs) = Some xs /\ length xs = length zs /\
      forall i, 0 <= i < Z.of_nat (length zs) -> number_at m (addr + znth 0 zs i * scale) w (uval (znth (w0 w) xs i))) /\
  ((exists i j, 0 <= i < Z.of_nat (length zs) /\ 0 <= j < Z.of_nat w /\ m (addr + znth 0 zs i * scale + j) = None) ->
    sequence (map (fun z => word_at w m (addr + z * scale)) zs) = None).
Proof.
  intros B. split.
  - intros R. destruct (sequence_ok (fun z (x : word w) => number_at m (addr + z * scale) w (uval x)) (fun z => word_at w m (addr + z * scale)) zs) as (xs & E & F).
    { intros z I. destruct (in_znth 0 _ _ I) as (i & Hi & <-). apply word_at_ok; auto. }
    exists xs. split; [exact E|]. split; [symmetry; eapply forall2_length; eauto|]. intros i Hi. exact (forall2_znth _ 0 (w0 w) _ _ F i Hi).
  - intros (i & j & Hi & Hj & E). apply sequence_none with (znth 0 zs i); [now apply znth_member|]. now apply word_at_none with j.
Qed.
(** the masked instruction *)
Lemma gather_words_masked w m addr (zs : list Z) scale (src : list (word w)) (ks : list bool) : byte_memory m -> length src = length zs -> length ks = length zs ->
  let r := sequence (map (fun p : Z * word w * bool => if snd p then word_at w m (addr + fst (fst p) * scale) else Some (snd (fst p))) (combine (combine zs src) ks)) in
  ((forall i, 0 <= i < Z.of_nat (length zs) -> znth false ks i = true -> readable m (addr + znth 0 zs i * scale) w) ->
    exists xs, r = Some xs /\ length xs = length zs /\
      forall i, 0 <= i < Z.of_nat (length zs) ->
        if znth false ks i then number_at m (addr + znth 0 zs i * scale) w (uval (znth (w0 w) xs i)) else znth (w0 w) xs i = znth (w0 w) src i) /\
  ((exists i j, 0 <= i < Z.of_nat (length zs) /\ znth false ks i = true /\ 0 <= j < Z.of_nat w /\ m (addr + znth 0 zs i * scale + j) = None) -> r = None).
Proof.
  intros B Ls Lk r. set (ps := combine (combine zs src) ks) in *. assert (Lp : length ps = length zs) by (unfold ps; rewrite !combine_length; lia).
  assert (E0 : forall i, 0 <= i < Z.of_nat (length zs) -> znth (0, w0 w, false) ps i = (znth 0 zs i, znth (w0 w) src i, znth false ks i)).
  { intros i Hi. unfold ps. rewrite znth_combine by (rewrite combine_length; lia). now rewrite znth_combine by auto. }
  split.
  - intros R. destruct (sequence_ok (fun (p : Z * word w * bool) (x : word w) => if snd p then number_at m (addr + fst (fst p) * scale) w (uval x) else x = snd (fst p))
      (fun p : Z * word w * bool => if snd p then word_at w m (addr + fst (fst p) * scale) else Some (snd (fst p))) ps) as (xs & E & F).
    { intros p I. destruct (in_znth (0, w0 w, false) _ _ I) as (i & Hi & <-). rewrite Lp in Hi. rewrite E0 by auto. cbn [fst snd].
      destruct (znth false ks i) eqn:T; [|eauto]. apply word_at_ok; auto. }
    exists xs. split; [exact E|]. split; [rewrite <- Lp; symmetry; eapply forall2_length; eauto|]. intros i Hi.
    pose proof (forall2_znth _ (0, w0 w, false) (w0 w) _ _ F i ltac:(rewrite Lp; exact Hi)) as Q. rewrite E0 in Q by auto. cbn [fst snd] in Q. exact Q.
  - intros (i & j & Hi & T & Hj & E). unfold r. apply sequence_none with (znth (0, w0 w, false) ps i); [apply znth_member; now rewrite Lp|].
    rewrite E0 by auto. cbn [fst snd]. rewrite T. now apply word_at_none with j.
Qed.

(** * 16-bit entries *)
Lemma narrow_ok undef e (g0 g1 : list (word 4)) : esize e = 2%nat -> length g0 = 8%nat -> length g1 = 8%nat ->
  exists vs : list (elt e), ycast undef true Int e [ypack g0; ypack g1] = Some (ypack vs) /\ length vs = 16%nat /\ Forall2 (cast_ok Int e) (g0 ++ g1) vs.
Proof.
  intros He L0 L1. assert (D : exists r, ycast undef true Int e (map ypack [g0; g1]) = Some r).
  { apply C46_avx_simd_cast_defined_main; [cbn; lia|now left|]. right. destruct e; try discriminate He; cbn; lia. }
  destruct D as (r & E).
  cbn [map] in E. assert (E2 : ycast2 undef Int e (ypack g0) (ypack g1) = Some r) by (destruct e; exact E).
  pose proof (ycast2_pack undef Int e g0 g1 r L0 L1 E2) as (f & F & [(A & B & -> & LA & LB & EAB)|[(A & _ & Le & _)|(U & A & B & _ & LU & _ & _ & _ & _ & _ & LXU & _)]]).
  - exists (A ++ B). rewrite E. split; [f_equal; symmetry; apply ypack_app; now rewrite LA|].
    assert (Z0 : (32 / esize e = 16)%nat) by (now rewrite He). assert (Z1 : @length (elt Int) (g0 ++ g1) = 16%nat) by (change (@length (word 4) (g0 ++ g1) = 16%nat); rewrite app_length, L0, L1; reflexivity).
    unfold elt in *. change (esize Int) with 4%nat in *. rewrite Z1, Z0 in EAB. cbn [Nat.sub Nat.add repeat] in EAB. rewrite app_nil_r in EAB.
    rewrite firstn_all2 in EAB by (rewrite map_length, Z1; lia). split; [rewrite app_length, LA, LB, He; reflexivity|]. rewrite EAB.
    clear - F. induction (g0 ++ g1) as [|x l IH]; cbn [map]; constructor; auto.
  - exfalso. rewrite app_length in Le. replace (16 / esize e)%nat with 8%nat in Le by (now rewrite He). unfold elt in *. cbn [esize] in *. lia.
  - exfalso. rewrite !app_length in LXU. replace (32 / esize e)%nat with 16%nat in LXU by (now rewrite He). change (16 / esize Int)%nat with 4%nat in LU. unfold elt in *. cbn [esize] in *. lia.
Qed.

Lemma number_prefix m a n v k : (k <= n)%nat -> number_at m a n v -> number_at m a k (v mod 2 ^ (8 * Z.of_nat k)).
Proof.
  intros H [R N]. split; [apply Z.mod_pos_bound, Z.pow_pos_nonneg; lia|]. intros i Hi. rewrite N by lia. f_equal.
  replace (8 * Z.of_nat k) with (8 * i + (8 + 8 * (Z.of_nat k - i - 1))) by lia. rewrite Z.pow_add_r by lia.
  rewrite Z.rem_mul_r by (try apply Z.pow_pos_nonneg; try (apply Z.pow_nonzero; lia); lia).
  rewrite (Z.mul_comm (2 ^ (8 * i)) (_ mod _)), Z.div_add by (apply Z.pow_nonzero; lia). rewrite (Z.div_small (v mod _)) by (apply Z.mod_pos_bound, Z.pow_pos_nonneg; lia). rewrite Z.add_0_l.
  rewrite Z.pow_add_r by lia. change (2 ^ 8) with 256. apply Znumtheory.Zmod_div_mod; [lia| |exists (2 ^ (8 * (Z.of_nat k - i - 1))); lia].
  apply Z.mul_pos_pos; [lia|apply Z.pow_pos_nonneg; lia].
Qed.

(** one entry of [extend_small] *)
Definition extend_word (mt : small_type) (x : word 2) : word 2 :=
  match st_size mt with
  | 1%nat => if st_signed mt then sra_word 8 (sll_word 8 x) else wand x (mkw 2 0xff)
  | _ => x
  end.
Lemma extend_small_ok mt (xs : list (word 2)) : length xs = 16%nat -> extend_small mt (ypack xs) = ypack (map (extend_word mt) xs).
Proof.
  intros L. assert (H2 : width_ok 2) by (unfold width_ok; auto).
  unfold extend_small, extend_word. destruct (st_size mt) as [|[|]]; try (now rewrite map_id). destruct (st_signed mt).
  - etransitivity; [apply (f_equal (fun r => y_shr Short r 8)); apply (y_shl_ok Short xs L 8)|].
    etransitivity; [apply (y_shr_ok Short (map (sll_word (8 mod 2 ^ 32)) xs)); rewrite map_length; exact L|]. rewrite map_map. reflexivity.
  - destruct (split_halves xs H2 L) as (l & h & -> & Ll & Lh & ->). unfold ymap2, yset1. cbn [lo128 hi128].
    rewrite !and_set1, map_app, ypack_app by (rewrite ?map_length; auto). reflexivity.
Qed.
Lemma int_value_congr e (x : elt e) z : esize e = 2%nat -> (int_value e x - z) mod 2 ^ 16 = 0 <-> (uval x - z) mod 2 ^ 16 = 0.
Proof.
  intros He. assert (H : int_value e x mod 2 ^ 16 = uval x mod 2 ^ 16).
  { assert (R : 0 <= uval x < 2 ^ 16) by (pose proof (uval_range x); destruct e; try discriminate He; assumption).
    rewrite (Z.mod_small (uval x)) by exact R. unfold int_value. destruct e; try discriminate He; cbn [is_signed]; [exact (sval_mod x)|now apply Z.mod_small]. }
  rewrite Zminus_mod, H, <- Zminus_mod. reflexivity.
Qed.
Lemma narrow_uval e (g : word 4) (v : elt e) : esize e = 2%nat -> cast_ok Int e g v -> uval v = uval g mod 2 ^ 16.
Proof.
  intros He C. assert (C' : (int_value e v - sval g) mod 2 ^ 16 = 0) by (destruct e; try discriminate He; exact C). clear C. rename C' into C.
  apply (int_value_congr e v _ He) in C.
  assert (R : 0 <= uval v < 2 ^ 16) by (pose proof (uval_range v); destruct e; try discriminate He; assumption).
  apply Z.mod_divide in C; [|lia]. destruct C as [q C].
  assert (S : exists k, sval g = uval g + k * 2 ^ 16).
  { unfold sval, to_signed. destruct (_ <? _); [exists 0; lia|]. exists (- 2 ^ 16). change (modulus 4) with (2 ^ 32). lia. }
  destruct S as [k S]. rewrite S in C. apply Zmod_unique with (- q - k); lia.
Qed.
Lemma extend_ok m a e mt (g : word 4) (v : elt e) : (st_size mt = 1 \/ st_size mt = 2)%nat -> esize e = 2%nat ->
  number_at m a 4 (uval g) -> cast_ok Int e g v -> forall x : word 2, x = extend_word mt (mkw 2 (uval v)) -> uval v mod 2 ^ 16 = uval v ->
  exists z, number_at m a (st_size mt) z /\ (uval x - small_value mt z) mod 2 ^ 16 = 0.
Proof.
  intros Hs He N C x Ex Rv. exists (uval g mod 2 ^ (8 * Z.of_nat (st_size mt))). split; [apply number_prefix with 4%nat; auto; lia|].
  pose proof (narrow_uval e g v He C) as U. subst x. unfold extend_word, small_value.
  assert (UX : uval (mkw 2 (uval v)) = uval v) by (rewrite uval_mkw; exact Rv).
  assert (EZ : uval g mod 256 = uval v mod 256). { rewrite U. apply Znumtheory.Zmod_div_mod; [lia|lia|]. now exists 256. }
  destruct Hs as [-> | ->].
  - change (2 ^ (8 * Z.of_nat 1)) with 256. rewrite EZ. pose proof (Z.mod_pos_bound (uval v) 256 ltac:(lia)) as B. destruct (st_signed mt).
    + assert (S : sval (sll_word 8 (mkw 2 (uval v))) = 256 * as_signed 1 (uval v mod 256)).
      { unfold sll_word. change (bits 2 <=? 8) with false. cbv iota. unfold sval, to_signed. rewrite uval_mkw, UX. change (modulus 2) with (256 * 256). change (2 ^ 8) with 256. rewrite Zmult_mod_distr_r.
        change (256 * 256 / 2) with 32768. unfold as_signed. change (2 ^ (8 * Z.of_nat 1 - 1)) with 128. change (2 ^ (8 * Z.of_nat 1)) with 256.
        destruct (Z.ltb_spec (uval v mod 256 * 256) 32768), (Z.ltb_spec (uval v mod 256) 128); lia. }
      unfold sra_word. change (bits 2 <=? 8) with false. cbv iota. rewrite S. change (2 ^ 8) with 256. rewrite Z.mul_comm, Z.div_mul by lia.
      rewrite uval_mkw. change (modulus 2) with (2 ^ 16). rewrite Zminus_mod_idemp_l, Z.sub_diag. reflexivity.
    + unfold wand. rewrite uval_mkw, UX. rewrite uval_mkw. change (255 mod modulus 2) with (Z.ones 8). rewrite Z.land_ones by lia. change (2 ^ 8) with 256.
      change (modulus 2) with (2 ^ 16). rewrite Zminus_mod_idemp_l, Z.sub_diag. reflexivity.
  - change (2 ^ (8 * Z.of_nat 2)) with (2 ^ 16). rewrite <- U, UX. destruct (st_signed mt); [|now rewrite Z.sub_diag].
    unfold as_signed. change (2 ^ (8 * Z.of_nat 2)) with (2 ^ 16). destruct (_ <? _); [now rewrite Z.sub_diag|]. replace (uval v - (uval v - 2 ^ 16)) with (2 ^ 16) by lia. reflexivity.
Qed.
