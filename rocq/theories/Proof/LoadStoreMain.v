(** loads and stores with conversions, flags and masks, on a memory of bytes (proofs). *)
From Coq Require Import ZArith List Bool Lia.
From Verif.Spec Require Import Seq NativeSpec CastSpec ByteMemSpec LoadSpec.
From Verif.Model Require Import Word SseReg SplitSize SimdArray SimdArrayOps Mem SseMove SortNet SseInt SseBuild SseMask AvxReg AvxMove AvxBuild AvxShuffle AvxMask LoadStore.
From Verif.Spec Require Import FloatSpec RoundSpec.
From Verif.Model Require Import Fp FpArith AvxConvert.
From Verif.Proof Require SeqP.
Import ListNotations.
Local Open Scope Z_scope.
From Verif.Proof Require Import SeqP WordP SplitSizeP SimdArrayP SimdArrayOpsP SseIntP SseMoveP SseEmulP SseMaskP SseVecP SseBuildP ConvertRegP AvxVecP AvxMaskP AvxBuildP AvxShuffleP LoadStoreP StoreP.

Lemma C50_sse_load_main :
  forall sse41 e mt f m n a vs, (1 <= n)%nat -> loads_from e mt = true -> length vs = n -> elements_at m a mt vs ->
    flag_ok f (sse_alignment (esize e) n) a ->
    exists t, sse_array_load sse41 e mt f m n a = Some t /\ wf (sse_native (esize e)) n t /\ Forall2 (converted mt e) vs (to_list t).
Proof.
  exact sse_array_load_ok.
Qed.

Lemma C50_avx_load_main :
  forall avx2 e mt f m n a vs, (1 <= n)%nat -> avx_loads_from e mt = true -> length vs = n -> elements_at m a mt vs ->
    flag_ok f (avx_alignment (has256 avx2 e) (esize e) n) a ->
    (e = Float -> mt = MElt Double -> unaligned f = true \/ streaming f = true \/ (32 | a)) ->
    exists t, avx_array_load avx2 e mt f m n a = Some t /\ wf (avx_widths_of avx2 e) n t /\ Forall2 (converted mt e) vs (to_list t).
Proof.
  intros avx2 e mt f m n a vs Hn S L H A A2. destruct (avx_loads_y e mt S) as [S1 S2].
  apply (avx_array_load_gen avx2 e mt f m n a vs (fun _ => True)); auto.
  - intros. now apply y_fn_eq.
  - apply Forall_forall. auto.
Qed.

Lemma C50_avx_load_uint_partial_main :
  forall avx2 f m n a vs, (1 <= n)%nat -> length vs = n -> elements_at m a (MElt UInt) vs -> Forall (fun v => v < 2 ^ 31) vs ->
    flag_ok f (avx_alignment true 4 n) a ->
    exists t, avx_array_load avx2 Float (MElt UInt) f m n a = Some t /\ wf (avx_widths_of avx2 Float) n t /\
      Forall2 (converted (MElt UInt) Float) vs (to_list t).
Proof.
  intros avx2 f m n a vs Hn L H V A.
  assert (F : has256 avx2 Float = true) by (unfold has256; cbn; apply orb_true_r).
  apply (avx_array_load_gen avx2 Float (MElt UInt) f m n a vs (fun x => uval x < 2 ^ 31)); auto.
  - now rewrite F.
  - discriminate.
  - intros x Hx. exact (yu2f_small x Hx).
  - pose proof (elements_range _ _ _ _ H) as R. clear - V R. induction V as [|v vs Hv V IH]; [constructor|]. inversion R as [|? ? R0 R1]; subst. constructor; [|now apply IH].
    cbn [mt_size esize] in *. rewrite uval_mkw. change (modulus 4) with (2 ^ 32). change (2 ^ (8 * Z.of_nat 4)) with (2 ^ 32) in R0. now rewrite Z.mod_small by lia.
Qed.

Lemma flag_yload_align f b a : flag_ok f 32 a -> yload_align f b a.
Proof.
  intros [A|A]; split; [now left|now left| |right; intros _; exact A].
  right. intros _. apply Z.divide_trans with 32; [now exists 2|exact A].
Qed.

Lemma C50_avx_load_uint_refuted_main :
  forall avx2 f m a, elements_at m a (MElt UInt) (repeat 3221225828 8) -> flag_ok f 32 a ->
    exists r, y_load avx2 Float (MElt UInt) f m a = Some r /\ Forall (fun y => fvalue y = 3221225984 * fone 4 /\ ~ converted (MElt UInt) Float 3221225828 y) (ylanes 4 r).
Proof.
  intros avx2 f m a H A. apply elements_loaded in H.
  assert (Y : yload_align f (length (map (mkw (mt_size (MElt UInt))) (repeat 3221225828 8)) * mt_size (MElt UInt)) a).
  { apply flag_yload_align. exact A. }
  assert (E : y_load avx2 Float (MElt UInt) f m a = Some (ypack (map (y_fn (MElt UInt) Float) (map (mkw (mt_size (MElt UInt))) (repeat 3221225828 8))))) by (apply y_load_ok; auto).
  eexists. split; [exact E|]. cbn [mt_size esize y_fn]. rewrite (ylanes_ypack 4) by (first [exact (esize_ok Int) | reflexivity]).
  assert (X : fvalue (yu2f (mkw 4 3221225828)) = 3221225984 * fone 4 /\ ~ converted (MElt UInt) Float 3221225828 (yu2f (mkw 4 3221225828))).
  { split; [vm_compute; reflexivity|]. intros [[_ N] _]. destruct (N (of_int 4 3221225728)) as [C _]; [vm_compute; reflexivity|]. revert C.
    assert (T : (Z.abs (fvalue (yu2f (mkw 4 3221225828)) * 1 - int_value UInt (mkw 4 3221225828) * fone 4) <=? Z.abs (fvalue (of_int 4 3221225728) * 1 - int_value UInt (mkw 4 3221225828) * fone 4)) = false)
      by (vm_compute; reflexivity).
    apply Z.leb_gt in T. intros C. apply (Z.lt_irrefl _ (Z.lt_le_trans _ _ _ T C)). }
  cbn [repeat map]. repeat (constructor; [exact X|]). constructor.
Qed.

Lemma C50_avx_load_double_small_refuted_main :
  forall avx2 mt f m a vs, mt = MSChar \/ mt = MUChar \/ mt = MElt Short \/ mt = MElt UShort ->
    length vs = 4%nat -> elements_at m a (MElt Int) vs -> flag_ok f 16 a ->
    exists r, y_load avx2 Double mt f m a = Some r /\ Forall2 (converted (MElt Int) Double) vs (ylanes 8 r).
Proof.
  intros avx2 mt f m a vs Hm L H A.
  assert (E : y_load avx2 Double mt f m a = y_load avx2 Double (MElt Int) f m a) by (destruct Hm as [-> |[-> |[-> | ->]]]; reflexivity).
  pose proof (mapped_converted (MElt Int) Double vs m a H) as C. pose proof (elements_loaded _ _ _ _ H) as Hl.
  assert (Y : yload_align f (length (map (mkw (mt_size (MElt Int))) vs) * mt_size (MElt Int)) a).
  { rewrite map_length, L. cbn. split; destruct A as [A|A]; try (now left); right; intros X; [exact A|lia]. }
  assert (EL : y_load avx2 Double (MElt Int) f m a = Some (ypack (map (y_fn (MElt Int) Double) (map (mkw (mt_size (MElt Int))) vs)))) by (apply y_load_ok; auto; now rewrite map_length).
  eexists. split; [rewrite E; exact EL|]. rewrite (ylanes_ypack 8); [exact C|exact (esize_ok Double)|]. rewrite !map_length. exact L.
Qed.

Lemma C50_avx_load_alignment_refuted_main :
  forall avx2 m n a, (4 <= n < 8)%nat -> (16 | a) -> ~ (32 | a) ->
    Z.of_nat (memory_alignment (avx_widths_of avx2 Float) 4 n) = 16 /\
    avx_array_load avx2 Float (MElt Double) {| unaligned := false; streaming := false |} m n a = None.
Proof.
  intros avx2 m n a Hn A N. assert (F : has256 avx2 Float = true) by (unfold has256; cbn; apply orb_true_r).
  assert (Z0 : load32 {| unaligned := false; streaming := false |} m a = None).
  { unfold load32. cbn [unaligned streaming orb]. destruct (aligned_at 32 a) eqn:E; [|reflexivity]. exfalso. apply N. apply Z.mod_divide; [lia|]. now apply Z.eqb_eq. }
  unfold avx_array_load, load_bytes, avx_widths_of. rewrite F. assert (C : n = 4%nat \/ n = 5%nat \/ n = 6%nat \/ n = 7%nat) by lia.
  assert (L4 : forall m', avx_native_load avx2 Float (MElt Double) {| unaligned := false; streaming := false |} m' 4 a = option_map (lanes (esize Float)) (option_map ycvtpd_ps (load32 {| unaligned := false; streaming := false |} m' a))) by reflexivity.
  destruct C as [-> |[-> |[-> | ->]]]; (split; [unfold memory_alignment; rewrite (avx_memory_alignment 4) by (first [exact (esize_ok Float) | lia]); reflexivity|]).
  all: cbn [load_bytes_f avx_native sse_native Nat.eqb esize Nat.div orb left_size]; unfold avx_native, sse_native; cbn [Nat.eqb orb esize].
  all: try (change (load_bytes_f _ _ _ _ (left_size _) a) with (load_bytes_f (avx_native 4) (avx_native_load avx2 Float (MElt Double) {| unaligned := false; streaming := false |} m) 8 1 4 a)).
  all: rewrite ?L4, ?Z0; reflexivity.
Qed.

Lemma C50_alignment_main :
  forall e n, (1 <= n)%nat ->
    Z.of_nat (memory_alignment (sse_native (esize e)) (esize e) n) = sse_alignment (esize e) n /\
    (forall avx2, Z.of_nat (memory_alignment (avx_widths_of avx2 e) (esize e) n) = avx_alignment (has256 avx2 e) (esize e) n).
Proof.
  intros e n Hn. split; [apply sse_memory_alignment; [apply esize_ok|lia]|]. intros avx2. unfold avx_widths_of. destruct (has256 avx2 e).
  - exact (avx_memory_alignment (esize e) (esize_ok e) n n ltac:(lia)).
  - exact (sse_memory_alignment (esize e) (esize_ok e) n n ltac:(lia)).
Qed.

Lemma C51_sse_store_main :
  forall e f t m n a, wf (sse_native (esize e)) n t -> readable m a (n * esize e) -> flag_ok f (sse_alignment (esize e) n) a ->
    exists m', sse_array_store e f t m a = Some m' /\ stored m a (to_list t) (repeat true n) m'.
Proof.
  exact sse_array_store_ok.
Qed.

Lemma C51_sse_store_masked_main :
  forall e t k m n a, wf (sse_native (esize e)) n t -> wf (sse_native (esize e)) n k -> writable m a (esize e) (to_list k) ->
    exists m', sse_array_store_masked e t k m a = Some m' /\ stored m a (to_list t) (to_list k) m'.
Proof.
  intros e t k m n a. apply sse_array_store_masked_ok.
Qed.

Lemma C51_avx_store_main :
  forall avx2 e f t m n a, wf (avx_widths_of avx2 e) n t -> readable m a (n * esize e) -> flag_ok f (avx_alignment (has256 avx2 e) (esize e) n) a ->
    exists m', avx_array_store avx2 e f t m a = Some m' /\ stored m a (to_list t) (repeat true n) m'.
Proof.
  exact avx_array_store_ok.
Qed.

Lemma C51_avx_store_masked_main :
  forall avx2 e f t k m n a, wf (avx_widths_of avx2 e) n t -> wf (avx_widths_of avx2 e) n k -> writable m a (esize e) (to_list k) ->
    exists m', avx_array_store_masked avx2 e f t k m a = Some m' /\ stored m a (to_list t) (to_list k) m'.
Proof.
  intros avx2 e f t k m n a. apply avx_array_store_masked_ok.
Qed.

Lemma C51_store_load_main :
  forall e f g n a, 
    (forall sse41 t m, wf (sse_native (esize e)) n t -> readable m a (n * esize e) -> flag_ok f (sse_alignment (esize e) n) a -> flag_ok g (sse_alignment (esize e) n) a ->
       exists m', sse_array_store e f t m a = Some m' /\ exists t', sse_array_load sse41 e (MElt e) g m' n a = Some t' /\ to_list t' = to_list t) /\
    (forall avx2 t m, wf (avx_widths_of avx2 e) n t -> readable m a (n * esize e) ->
       flag_ok f (avx_alignment (has256 avx2 e) (esize e) n) a -> flag_ok g (avx_alignment (has256 avx2 e) (esize e) n) a ->
       exists m', avx_array_store avx2 e f t m a = Some m' /\ exists t', avx_array_load avx2 e (MElt e) g m' n a = Some t' /\ to_list t' = to_list t).
Proof.
  intros e f g n a. split.
  - intros sse41 t m W R A B. destruct (sse_array_store_ok e f t m n a W R A) as (m' & E & S). exists m'. split; [exact E|].
    destruct (wf_size _ (build_widths e) _ _ W) as (_ & L & P). apply stored_elements in S; [|exact L].
    destruct (sse_array_load_fn sse41 e (MElt e) g m' n a (map uval (to_list t))) as (t' & E' & _ & T); auto; [destruct e; reflexivity|now rewrite map_length|].
    exists t'. split; [exact E'|]. rewrite T. apply same_type_id.
  - intros avx2 t m W R A B. destruct (avx_array_store_ok avx2 e f t m n a W R A) as (m' & E & S). exists m'. split; [exact E|].
    destruct (wf_size _ (abuild_widths avx2 e) _ _ W) as (_ & L & P). apply stored_elements in S; [|exact L].
    destruct (avx_array_load_fn avx2 e (MElt e) g m' n a (map uval (to_list t)) (fun _ => True)) as (t' & E' & _ & T); auto; try (now rewrite map_length); try (destruct e; discriminate); try (destruct e; reflexivity); try (apply Forall_forall; auto).
    exists t'. split; [exact E'|]. rewrite T. apply same_type_id.
Qed.

Lemma C51_store_other_type_refuted_main :
  forall u f m a (xs : list (word 4)), length xs = 4%nat -> readable m a 16 -> flag_ok f 16 a ->
    exists m', sse_store_other u f (pack xs) m a = Some m' /\ stored m a xs (repeat true 4) m'.
Proof.
  intros u f m a xs L R A. destruct (sse_array_store_ok Int f (Leaf xs) m 4 a) as (m' & E & S).
  - constructor; [reflexivity|exact L].
  - exact R.
  - exact A.
  - exists m'. split; [|exact S]. unfold sse_array_store in E. cbn [store_bytes] in E. unfold sse_native_store in E. rewrite not_one in E by (change (@length (word 4) xs <> 1%nat); rewrite L; discriminate). exact E.
Qed.
