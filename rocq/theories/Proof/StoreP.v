(** Stores and masked stores on a memory of bytes. *)
From Coq Require Import ZArith List Bool Lia.
From Verif.Spec Require Import Seq NativeSpec MaskSpec CastSpec ByteMemSpec LoadSpec.
From Verif.Model Require Import Word Fp SplitSize SseReg SseMove SortNet SseInt SseBuild SseMask SimdArray SimdArrayOps Mem
  AvxReg AvxMove AvxBuild AvxShuffle AvxMask AvxArith LoadStore.
From Verif.Proof Require Import SeqP SplitSizeP SimdArrayP SimdArrayOpsP WordP SseIntP SseMoveP SseEmulP SseMaskP SseVecP SseBuildP BitScanP InterleaveP
  AvxVecP AvxMaskP AvxBuildP AvxShuffleP AvxArithP AvxGatherP LoadStoreP.
Import ListNotations.
Local Open Scope Z_scope.

(** the bytes [bs] selected by [bk] replace the ones from [a] on *)
Definition upd (m : memory Z) (a : Z) (bs : list Z) (bk : list bool) (m' : memory Z) : Prop :=
  length bs = length bk /\
  forall b, m' b = if (a <=? b) && (b <? a + Z.of_nat (length bs)) && znth false bk (b - a) then Some (znth 0 bs (b - a)) else m b.
Definition valid (m : memory Z) (a : Z) (bk : list bool) : Prop := forall i, 0 <= i < Z.of_nat (length bk) -> znth false bk i = true -> m (a + i) <> None.

Lemma upd_nil m a : upd m a [] [] m.
Proof. split; [reflexivity|]. intros b. cbn [length]. destruct (Z.leb_spec a b), (Z.ltb_spec b (a + Z.of_nat 0)); cbn; try reflexivity. lia. Qed.
Lemma znth_app_l {A} (d : A) x y i : i < Z.of_nat (length x) -> znth d (x ++ y) i = znth d x i.
Proof.
  intros H. destruct (Z_lt_dec i 0) as [N|N]; [unfold znth; destruct (Z.leb_spec 0 i); [lia|reflexivity]|].
  rewrite !SeqP.znth_in by (rewrite ?app_length; lia). apply app_nth1. lia.
Qed.
Lemma znth_app_r {A} (d : A) x y i : Z.of_nat (length x) <= i -> znth d (x ++ y) i = znth d y (i - Z.of_nat (length x)).
Proof.
  intros H. destruct (Z_lt_dec i (Z.of_nat (length (x ++ y)))) as [N|N].
  - rewrite app_length in N. rewrite !SeqP.znth_in by (rewrite ?app_length; lia). rewrite app_nth2 by lia. f_equal. lia.
  - rewrite app_length in N. unfold znth. rewrite app_length. destruct (Z.ltb_spec i (Z.of_nat (length x + length y))); [lia|].
    destruct (Z.ltb_spec (i - Z.of_nat (length x)) (Z.of_nat (length y))); [lia|]. now rewrite !andb_false_r.
Qed.
Lemma upd_app m a b1 k1 m1 b2 k2 m2 : upd m a b1 k1 m1 -> upd m1 (a + Z.of_nat (length b1)) b2 k2 m2 -> upd m a (b1 ++ b2) (k1 ++ k2) m2.
Proof.
  intros [L1 H1] [L2 H2]. split; [rewrite !app_length; lia|]. intros b. rewrite H2, app_length, Nat2Z.inj_add.
  destruct (Z_lt_dec b (a + Z.of_nat (length b1))) as [N|N].
  - destruct (Z.leb_spec (a + Z.of_nat (length b1)) b); [lia|]. cbn [andb]. rewrite H1. destruct (Z.leb_spec a b); [|reflexivity]. cbn [andb].
    destruct (Z.ltb_spec b (a + Z.of_nat (length b1))); [|lia]. destruct (Z.ltb_spec b (a + (Z.of_nat (length b1) + Z.of_nat (length b2)))); [|lia]. cbn [andb].
    rewrite !znth_app_l by lia. reflexivity.
  - destruct (Z.leb_spec (a + Z.of_nat (length b1)) b); [|lia]. destruct (Z.leb_spec a b); [|lia]. cbn [andb]. rewrite Z.add_assoc.
    rewrite !znth_app_r by lia. rewrite <- L1. replace (b - a - Z.of_nat (length b1)) with (b - (a + Z.of_nat (length b1))) by lia.
    rewrite H1. destruct (Z.ltb_spec b (a + Z.of_nat (length b1))); [lia|]. rewrite andb_false_r. reflexivity.
Qed.
Lemma valid_app m a k1 k2 : valid m a (k1 ++ k2) <-> valid m a k1 /\ valid m (a + Z.of_nat (length k1)) k2.
Proof.
  unfold valid. rewrite app_length. split.
  - intros H. split; intros i Hi E.
    + apply H; [lia|]. rewrite znth_app_l by lia. exact E.
    + rewrite <- Z.add_assoc. apply H; [lia|]. rewrite znth_app_r by lia. now replace (Z.of_nat (length k1) + i - Z.of_nat (length k1)) with i by lia.
  - intros [H1 H2] i Hi E. destruct (Z_lt_dec i (Z.of_nat (length k1))) as [N|N].
    + apply H1; [lia|]. rewrite znth_app_l in E by lia. exact E.
    + replace (a + i) with (a + Z.of_nat (length k1) + (i - Z.of_nat (length k1))) by lia. apply H2; [lia|]. rewrite znth_app_r in E by lia. exact E.
Qed.
Lemma upd_some m a bs bk m' : upd m a bs bk m' -> forall b, m b <> None -> m' b <> None.
Proof. intros [_ H] b N. rewrite H. destruct (_ && _); [discriminate|exact N]. Qed.
Lemma valid_upd m a bs bk m' b k : upd m a bs bk m' -> valid m b k -> valid m' b k.
Proof. intros U V i Hi E. apply (upd_some _ _ _ _ _ U). now apply V. Qed.

(** one byte *)
Lemma upd_one (m : memory Z) (a x : Z) (k : bool) : (k = true -> m a <> None) -> exists m', (if k then mem_write m a x else Some m) = Some m' /\ upd m a [x] [k] m'.
Proof.
  intros V. destruct k.
  - unfold mem_write. specialize (V eq_refl). destruct (m a); [|contradiction]. eexists. split; [reflexivity|]. split; [reflexivity|]. intros b. unfold mem_set.
    cbn [length]. destruct (Z.eqb_spec b a) as [->|N].
    + destruct (Z.leb_spec a a); [|lia]. destruct (Z.ltb_spec a (a + Z.of_nat 1)); [|lia]. now rewrite Z.sub_diag.
    + destruct (Z.leb_spec a b), (Z.ltb_spec b (a + Z.of_nat 1)); cbn; try reflexivity. lia.
  - exists m. split; [reflexivity|]. split; [reflexivity|]. intros b. cbn [length]. destruct (Z.leb_spec a b), (Z.ltb_spec b (a + Z.of_nat 1)); cbn [andb]; try reflexivity.
    replace (b - a) with 0 by lia. reflexivity.
Qed.
Lemma valid_cons m a k ks : valid m a (k :: ks) <-> (k = true -> m a <> None) /\ valid m (a + 1) ks.
Proof.
  change (k :: ks) with ([k] ++ ks). rewrite valid_app. cbn [length]. change (Z.of_nat 1) with 1. split; intros [H1 H2]; split; auto.
  - intros E. specialize (H1 0 ltac:(cbn; lia) E). now rewrite Z.add_0_r in H1.
  - intros i Hi E. cbn in Hi. assert (i = 0) by lia. subst i. rewrite Z.add_0_r. auto.
Qed.
Lemma upd_cons m a x k m1 xs ks m2 : upd m a [x] [k] m1 -> upd m1 (a + 1) xs ks m2 -> upd m a (x :: xs) (k :: ks) m2.
Proof. intros U1 U2. exact (upd_app m a [x] [k] m1 xs ks m2 U1 U2). Qed.
Lemma maskmoveu_upd : forall xs ks m a, length xs = length ks -> valid m a (map (fun k => 128 <=? k) ks) ->
  exists m', maskmoveu xs ks m a = Some m' /\ upd m a xs (map (fun k => 128 <=? k) ks) m'.
Proof.
  induction xs as [|x xs IH]; intros [|k ks] m a L V; try discriminate L; cbn [maskmoveu map] in *.
  - exists m. split; [reflexivity|apply upd_nil].
  - apply valid_cons in V. destruct V as [V0 V]. destruct (upd_one m a x (128 <=? k) V0) as (m1 & E1 & U1). rewrite E1. cbn [obind].
    destruct (IH ks m1 (a + 1)) as (m2 & E2 & U2); [now injection L|now apply (valid_upd _ _ _ _ _ _ _ U1)|]. exists m2. split; [exact E2|]. eapply upd_cons; eassumption.
Qed.
Lemma mem_store_upd : forall xs m a, valid m a (repeat true (length xs)) -> exists m', mem_store m a xs = Some m' /\ upd m a xs (repeat true (length xs)) m'.
Proof.
  induction xs as [|x xs IH]; intros m a V; cbn [mem_store length repeat] in *.
  - exists m. split; [reflexivity|apply upd_nil].
  - apply valid_cons in V. destruct V as [V0 V]. destruct (upd_one m a x true V0) as (m1 & E1 & U1). rewrite E1.
    destruct (IH m1 (a + 1)) as (m2 & E2 & U2); [now apply (valid_upd _ _ _ _ _ _ _ U1)|]. exists m2. split; [exact E2|]. eapply upd_cons; eassumption.
Qed.
(** a mask of lanes as a mask of bytes *)
Definition spread (w : nat) (ks : list bool) : list bool := concat (map (fun k => repeat k w) ks).
Lemma spread_length w ks : length (spread w ks) = (length ks * w)%nat.
Proof. unfold spread. induction ks as [|k ks IH]; [reflexivity|]. cbn [map concat length]. rewrite app_length, repeat_length, IH. reflexivity. Qed.
Lemma spread_app w x y : spread w (x ++ y) = spread w x ++ spread w y.
Proof. unfold spread. now rewrite map_app, concat_app. Qed.
Lemma upd_none m a w (bs : list Z) : length bs = w -> upd m a bs (repeat false w) m.
Proof.
  intros L. split; [now rewrite repeat_length|]. intros b. replace (znth false (repeat false w) (b - a)) with false; [now rewrite andb_false_r|].
  unfold znth. destruct (_ && _); [|reflexivity]. symmetry. apply nth_repeat.
Qed.
Lemma maskstore_upd w : forall (xs ks : list (word w)) m a, length xs = length ks -> valid m a (spread w (map negative ks)) ->
  exists m', maskstore_lanes w xs ks m a = Some m' /\ upd m a (pack xs) (spread w (map negative ks)) m'.
Proof.
  induction xs as [|x xs IH]; intros [|k ks] m a L V; try discriminate L; cbn [maskstore_lanes map] in *.
  - exists m. split; [reflexivity|apply upd_nil].
  - unfold spread in V. cbn [map concat] in V. apply valid_app in V. rewrite repeat_length in V. destruct V as [V0 V].
    assert (S : exists m1, (if negative k then mem_store m a (enc x) else Some m) = Some m1 /\ upd m a (enc x) (repeat (negative k) w) m1).
    { destruct (negative k); [|exists m; split; [reflexivity|apply upd_none, enc_length]]. destruct (mem_store_upd (enc x) m a) as (m1 & E1 & U1); rewrite enc_length in *; eauto. }
    destruct S as (m1 & E1 & U1). rewrite E1. cbn [obind]. destruct (IH ks m1 (a + Z.of_nat w)) as (m2 & E2 & U2); [now injection L|now apply (valid_upd _ _ _ _ _ _ _ U1)|].
    exists m2. split; [exact E2|]. unfold pack, to_reg, spread in *. cbn [map concat]. eapply upd_app; [exact U1|]. now rewrite enc_length.
Qed.
(** the mask registers *)
Lemma mask_bytes w ks : map (fun k => 128 <=? k) (mask_reg w ks) = spread w ks.
Proof.
  unfold mask_reg, pack, to_reg, spread. induction ks as [|k ks IH]; [reflexivity|]. cbn [map concat]. rewrite map_app, IH. f_equal. rewrite enc_wmask.
  clear IH. induction w as [|w IHw]; [reflexivity|]. cbn [repeat map]. f_equal; [now destruct k|exact IHw].
Qed.
Lemma negative_mask w k : width_ok w -> negative (wmask w k) = k.
Proof. intros [|[|]]; subst; destruct k; reflexivity. Qed.
Lemma spread_true w n : spread w (repeat true n) = repeat true (n * w).
Proof. unfold spread. induction n as [|n IH]; [reflexivity|]. cbn [repeat map concat]. rewrite IH. now rewrite <- repeat_app. Qed.

(** * from bytes to entries *)
Lemma znth_bytes n : forall v i, 0 <= i < Z.of_nat n -> znth 0 (bytes n v) i = v / 2 ^ (8 * i) mod 256.
Proof.
  induction n as [|n IH]; intros v i Hi; [lia|]. cbn [bytes]. destruct (Z.eq_dec i 0) as [->|N].
  - change (v / 2 ^ (8 * 0)) with (v / 1). rewrite Z.div_1_r. reflexivity.
  - replace i with (i - 1 + 1) by lia. rewrite BitScanP.znth_cons by lia. rewrite IH by lia. rewrite pow256 by lia. rewrite Z.div_div by (try apply Z.pow_pos_nonneg; lia). reflexivity.
Qed.
Lemma znth_concat {A B} (d : B) (d' : A) (f : A -> list B) w : (0 < w)%nat -> (forall x, length (f x) = w) -> forall xs i j, 0 <= i < Z.of_nat (length xs) -> 0 <= j < Z.of_nat w ->
  znth d (concat (map f xs)) (i * Z.of_nat w + j) = znth d (f (znth d' xs i)) j.
Proof.
  intros Hw Hf. induction xs as [|x xs IH]; intros i j Hi Hj; [cbn in Hi; lia|]. cbn [map concat]. destruct (Z.eq_dec i 0) as [->|N].
  - rewrite Z.mul_0_l, Z.add_0_l. rewrite znth_app_l by (rewrite Hf; lia). reflexivity.
  - cbn [length] in Hi. rewrite znth_app_r by (rewrite Hf; nia). rewrite Hf. replace (i * Z.of_nat w + j - Z.of_nat w) with ((i - 1) * Z.of_nat w + j) by lia.
    rewrite IH by lia. do 2 f_equal. replace i with (i - 1 + 1) at 2 by lia. now rewrite BitScanP.znth_cons by lia.
Qed.
Lemma znth_repeat_in {A} (d x : A) n i : 0 <= i < Z.of_nat n -> znth d (repeat x n) i = x.
Proof. intros H. rewrite SeqP.znth_in by (now rewrite repeat_length). rewrite (nth_indep _ d x) by (rewrite repeat_length; lia). apply nth_repeat. Qed.
Lemma upd_stored w m a (xs : list (word w)) ks m' : (0 < w)%nat -> length xs = length ks -> upd m a (pack xs) (spread w ks) m' -> stored m a xs ks m'.
Proof.
  intros Hw L [_ U]. assert (P : length (pack xs) = (length xs * w)%nat) by (rewrite pack_length; lia). split.
  - intros i Hi K. split.
    + pose proof (uval_range (znth (w0 w) xs i)) as R. unfold modulus, bits in R. exact R.
    + intros j Hj. rewrite U, P. destruct (Z.leb_spec a (a + i * Z.of_nat w + j)); [|nia]. destruct (Z.ltb_spec (a + i * Z.of_nat w + j) (a + Z.of_nat (length xs * w))); [|nia].
      replace (a + i * Z.of_nat w + j - a) with (i * Z.of_nat w + j) by lia. unfold spread, pack, to_reg.
      rewrite (znth_concat false false (fun k => repeat k w) w) by (auto; try lia; intros; apply repeat_length). rewrite K, znth_repeat_in by lia. cbn [andb].
      rewrite (znth_concat 0 (w0 w) enc w) by (auto; intros; apply enc_length). unfold enc. now rewrite znth_bytes.
  - intros b N. rewrite U, P. destruct (Z.leb_spec a b) as [Ha|Ha]; [|reflexivity]. destruct (Z.ltb_spec b (a + Z.of_nat (length xs * w))) as [Hb|Hb]; [|reflexivity]. cbn [andb].
    set (i := (b - a) / Z.of_nat w). set (j := (b - a) mod Z.of_nat w). assert (E : b - a = i * Z.of_nat w + j) by (pose proof (Z.div_mod (b - a) (Z.of_nat w) ltac:(lia)); unfold i, j; lia).
    assert (Hj : 0 <= j < Z.of_nat w) by (apply Z.mod_pos_bound; lia).
    assert (Hi : 0 <= i < Z.of_nat (length xs)) by (split; [apply Z.div_pos; lia|apply Z.div_lt_upper_bound; [lia|rewrite Nat2Z.inj_mul in Hb; nia]]).
    rewrite E. unfold spread. rewrite (znth_concat false false (fun k => repeat k w) w) by (auto; try lia; intros; apply repeat_length). rewrite znth_repeat_in by lia.
    destruct (znth false ks i) eqn:K; [|reflexivity]. exfalso. apply (N i Hi K). lia.
Qed.
Lemma writable_valid w m a ks : (0 < w)%nat -> writable m a w ks -> valid m a (spread w ks).
Proof.
  intros Hw H b Hb E. rewrite spread_length in Hb. set (i := b / Z.of_nat w). set (j := b mod Z.of_nat w).
  assert (Eb : b = i * Z.of_nat w + j) by (pose proof (Z.div_mod b (Z.of_nat w) ltac:(lia)); unfold i, j; lia).
  assert (Hj : 0 <= j < Z.of_nat w) by (apply Z.mod_pos_bound; lia).
  assert (Hi : 0 <= i < Z.of_nat (length ks)) by (split; [apply Z.div_pos; lia|apply Z.div_lt_upper_bound; [lia|rewrite Nat2Z.inj_mul in Hb; nia]]).
  rewrite Eb in E. unfold spread in E. rewrite (znth_concat false false (fun k => repeat k w) w) in E by (auto; try lia; intros; apply repeat_length). rewrite znth_repeat_in in E by lia.
  specialize (H i Hi E j Hj). now replace (a + b) with (a + i * Z.of_nat w + j) by lia.
Qed.

(** * the native vectors *)
Definition st_align (n : Z) (f : ls_flags) (a : Z) : Prop := unaligned f = true \/ (n | a).
Lemma allone_bytes : map (fun k => 128 <=? k) setallone = repeat true 16.
Proof. reflexivity. Qed.
Lemma allone_length : length setallone = 16%nat.
Proof. reflexivity. Qed.
Lemma aligned_true n a : 0 < n -> (n | a) -> aligned_at n a = true.
Proof. intros Hn H. unfold aligned_at. apply Z.eqb_eq. apply Z.mod_divide; [lia|exact H]. Qed.
Lemma sse_reg_upd f (r : reg) m a : length r = 16%nat -> valid m a (repeat true 16) -> st_align 16 f a -> exists m', sse_store_reg f r m a = Some m' /\ upd m a r (repeat true 16) m'.
Proof.
  intros L V A. assert (S : exists m', mem_store m a r = Some m' /\ upd m a r (repeat true 16) m') by (rewrite <- L in *; now apply mem_store_upd).
  unfold sse_store_reg. destruct (unaligned f) eqn:E.
  - destruct (streaming f); [|exact S]. rewrite <- allone_bytes in *. apply maskmoveu_upd; auto.
  - destruct A as [A|A]; [congruence|]. rewrite aligned_true by (auto; lia). exact S.
Qed.
Lemma y_halves_upd (x0 x1 : reg) (st0 : memory Z -> option (memory Z)) (st1 : memory Z -> option (memory Z)) k0 k1 m a :
  length x0 = 16%nat -> length k0 = 16%nat ->
  (valid m a k0 -> exists m', st0 m = Some m' /\ upd m a x0 k0 m') ->
  (forall m1, valid m1 (a + 16) k1 -> exists m', st1 m1 = Some m' /\ upd m1 (a + 16) x1 k1 m') ->
  valid m a (k0 ++ k1) -> exists m', (m1 <-- st0 m; st1 m1) = Some m' /\ upd m a (x0 ++ x1) (k0 ++ k1) m'.
Proof.
  intros L0 Lk H0 H1 V. apply valid_app in V. rewrite Lk in V. destruct V as [V0 V1]. destruct (H0 V0) as (m1 & E1 & U1). rewrite E1. cbn [obind].
  destruct (H1 m1) as (m2 & E2 & U2); [now apply (valid_upd _ _ _ _ _ _ _ U1)|]. exists m2. split; [exact E2|]. eapply upd_app; [exact U1|]. now rewrite L0.
Qed.
Lemma y_reg_upd f (x0 x1 : reg) m a : length x0 = 16%nat -> length x1 = 16%nat -> valid m a (repeat true 32) -> st_align 32 f a ->
  exists m', y_store_reg f (Ymm x0 x1) m a = Some m' /\ upd m a (x0 ++ x1) (repeat true 32) m'.
Proof.
  intros L0 L1 V A. change (repeat true 32) with (repeat true 16 ++ repeat true 16) in *.
  assert (S : exists m', (m1 <-- mem_store m a x0; mem_store m1 (a + 16) x1) = Some m' /\ upd m a (x0 ++ x1) (repeat true 16 ++ repeat true 16) m').
  { apply (y_halves_upd x0 x1 (fun m => mem_store m a x0) (fun m => mem_store m (a + 16) x1)); auto.
    - intros V0. rewrite <- L0 in *. now apply mem_store_upd.
    - intros m1 V1. rewrite <- L1 in V1. destruct (mem_store_upd x1 m1 (a + 16) V1) as (m2 & E2 & U2). rewrite L1 in U2. eauto. }
  unfold y_store_reg. destruct (unaligned f) eqn:E.
  - destruct (streaming f); [|exact S]. unfold stream_store, yallone. cbn [lo128 hi128].
    apply (y_halves_upd x0 x1 (fun m => maskmoveu x0 setallone m a) (fun m => maskmoveu x1 setallone m (a + 16))); auto; rewrite <- allone_bytes; intros; apply maskmoveu_upd; auto.
  - destruct A as [A|A]; [congruence|]. rewrite aligned_true by (auto; lia). exact S.
Qed.
Lemma single_upd w (x : word w) m a : valid m a (repeat true w) -> exists m', mem_store m a (enc x) = Some m' /\ upd m a (enc x) (repeat true w) m'.
Proof. intros V. rewrite <- (enc_length x) in V. destruct (mem_store_upd (enc x) m a V) as (m' & E & U). rewrite enc_length in U. eauto. Qed.
Lemma pack_one w (x : word w) : pack [x] = enc x.
Proof. unfold pack, to_reg. cbn [map concat]. apply app_nil_r. Qed.
Lemma sse_native_cases e k : sse_native (esize e) k = true -> k = 1%nat \/ (k = (16 / esize e)%nat /\ (k <> 1)%nat).
Proof. unfold sse_native. rewrite orb_true_iff, !Nat.eqb_eq. intros [|]; [now left|right]. split; [auto|]. subst. destruct e; discriminate. Qed.
Lemma not_one {A B} (xs : list A) (f : A -> B) (b : B) : length xs <> 1%nat -> match xs with [x] => f x | _ => b end = b.
Proof. destruct xs as [|x [|]]; cbn; congruence. Qed.
Lemma esize_16 e : (16 / esize e * esize e = 16)%nat. Proof. destruct e; reflexivity. Qed.
Lemma esize_32 e : (32 / esize e * esize e = 32)%nat. Proof. destruct e; reflexivity. Qed.
Definition sst_ok (e : etype) (f : ls_flags) (k : nat) (a : Z) : Prop := k = (16 / esize e)%nat -> st_align 16 f a.
Definition yst_ok (e : etype) (f : ls_flags) (k : nat) (a : Z) : Prop := (k = (32 / esize e)%nat -> st_align 32 f a) /\ sst_ok e f k a.
Lemma sse_leaf_store e f (xs : list (elt e)) m a : sse_native (esize e) (length xs) = true -> valid m a (spread (esize e) (repeat true (length xs))) -> sst_ok e f (length xs) a ->
  exists m', sse_native_store e f xs m a = Some m' /\ upd m a (pack xs) (spread (esize e) (repeat true (length xs))) m'.
Proof.
  intros N V A. unfold elt in *. unfold sse_native_store, elt. destruct (sse_native_cases _ _ N) as [E|[E E1]].
  - destruct xs as [|x [|]]; try discriminate E. rewrite pack_one. cbn [length repeat] in *. change [true] with (repeat true 1) in *. rewrite spread_true, Nat.mul_1_l in *. apply single_upd. exact V.
  - rewrite not_one by exact E1. rewrite E, spread_true, esize_16 in *. apply sse_reg_upd; auto. rewrite pack_length, E, Nat.mul_comm. apply esize_16.
Qed.
Lemma sse_leaf_store_masked e (xs : list (elt e)) ks m a : sse_native (esize e) (length xs) = true -> length ks = length xs -> valid m a (spread (esize e) ks) ->
  exists m', sse_native_store_masked e xs ks m a = Some m' /\ upd m a (pack xs) (spread (esize e) ks) m'.
Proof.
  intros N L V. unfold elt in *. unfold sse_native_store_masked, elt. destruct (sse_native_cases _ _ N) as [E|[E E1]].
  - destruct xs as [|x [|]]; try discriminate E. destruct ks as [|k [|]]; try discriminate L. rewrite pack_one. change (znth false [k] 0) with k.
    unfold spread in *. cbn [map concat] in *. rewrite app_nil_r in *. destruct k; [now apply single_upd|]. exists m. split; [reflexivity|]. apply upd_none, enc_length.
  - rewrite not_one by exact E1. unfold sse_store_masked. rewrite <- mask_bytes in *. apply maskmoveu_upd; auto. rewrite pack_length. unfold mask_reg. rewrite pack_length, map_length. lia.
Qed.
Lemma avx_leaf_store e f (xs : list (elt e)) m a : avx_native (esize e) (length xs) = true -> valid m a (spread (esize e) (repeat true (length xs))) -> yst_ok e f (length xs) a ->
  exists m', avx_native_store e f xs m a = Some m' /\ upd m a (pack xs) (spread (esize e) (repeat true (length xs))) m'.
Proof.
  intros N V [A1 A2]. unfold elt in *. unfold avx_native_store, elt. destruct (Nat.eqb_spec (@length (word (esize e)) xs) (32 / esize e)) as [E|E].
  - rewrite E in V |- *. specialize (A1 E). rewrite spread_true, esize_32 in V |- *. assert (L2 : length xs = (16 / esize e + 16 / esize e)%nat) by (rewrite E; destruct e; reflexivity).
    destruct (split_n _ _ _ L2) as (x & y & -> & Lx & Ly). rewrite ypack_app by exact Lx.
    assert (P : pack (x ++ y) = pack x ++ pack y) by (unfold pack, to_reg; now rewrite map_app, concat_app). rewrite P.
    apply y_reg_upd; auto; rewrite pack_length, ?Lx, ?Ly, Nat.mul_comm; apply esize_16.
  - apply sse_leaf_store; auto. unfold avx_native in N. apply orb_true_iff in N. destruct N as [N|N]; [exact N|apply Nat.eqb_eq in N; contradiction].
Qed.
Lemma ymask_halves e k0 k1 : length k0 = (16 / esize e)%nat -> ymask_reg (esize e) (k0 ++ k1) = Ymm (mask_reg (esize e) k0) (mask_reg (esize e) k1).
Proof. intros L. unfold ymask_reg, mask_reg. rewrite map_app. apply ypack_app. now rewrite map_length. Qed.
Lemma stream_upd e (x y : list (elt e)) k0 k1 m a : length x = (16 / esize e)%nat -> length y = (16 / esize e)%nat -> length k0 = (16 / esize e)%nat -> length k1 = (16 / esize e)%nat ->
  valid m a (spread (esize e) (k0 ++ k1)) ->
  exists m', (m1 <-- maskmoveu (pack x) (mask_reg (esize e) k0) m a; maskmoveu (pack y) (mask_reg (esize e) k1) m1 (a + 16)) = Some m' /\ upd m a (pack (x ++ y)) (spread (esize e) (k0 ++ k1)) m'.
Proof.
  intros Lx Ly L0 L1 V. unfold elt in *. rewrite spread_app in *. assert (P : pack (x ++ y) = pack x ++ pack y) by (unfold pack, to_reg; now rewrite map_app, concat_app). rewrite P.
  assert (M : forall k : list bool, length (mask_reg (esize e) k) = (length k * esize e)%nat) by (intros; unfold mask_reg; rewrite pack_length, map_length; lia).
  apply (y_halves_upd (pack x) (pack y) (fun m => maskmoveu (pack x) (mask_reg (esize e) k0) m a) (fun m => maskmoveu (pack y) (mask_reg (esize e) k1) m (a + 16))); auto.
  - rewrite pack_length, Lx, Nat.mul_comm. apply esize_16.
  - rewrite spread_length, L0. apply esize_16.
  - intros V0. rewrite <- mask_bytes in *. apply maskmoveu_upd; auto. rewrite pack_length, M, Lx, L0. lia.
  - intros m1 V1. rewrite <- mask_bytes in *. apply maskmoveu_upd; auto. rewrite pack_length, M, Ly, L1. lia.
Qed.
Lemma map_negative_mask w ks : width_ok w -> map negative (map (wmask w) ks) = ks.
Proof. intros Hw. rewrite map_map. rewrite <- (map_id ks) at 2. apply map_ext. intros. now apply negative_mask. Qed.
Lemma avx_leaf_store_masked e f (xs : list (elt e)) ks m a : avx_native (esize e) (length xs) = true -> length ks = length xs -> valid m a (spread (esize e) ks) ->
  exists m', avx_native_store_masked e f xs ks m a = Some m' /\ upd m a (pack xs) (spread (esize e) ks) m'.
Proof.
  intros N L V. unfold elt in *. unfold avx_native_store_masked, elt. destruct (Nat.eqb_spec (@length (word (esize e)) xs) (32 / esize e)) as [E|E].
  - assert (S : exists m', (m1 <-- maskmoveu (lo128 (ypack xs)) (lo128 (ymask_reg (esize e) ks)) m a; maskmoveu (hi128 (ypack xs)) (hi128 (ymask_reg (esize e) ks)) m1 (a + 16)) = Some m'
                           /\ upd m a (pack xs) (spread (esize e) ks) m').
    { assert (L2 : length xs = (16 / esize e + 16 / esize e)%nat) by (rewrite E; destruct e; reflexivity). pose proof L2 as L3. rewrite <- L in L3.
      destruct (split_n _ _ _ L2) as (x & y & -> & Lx & Ly). destruct (split_n _ _ _ L3) as (k0 & k1 & -> & L0 & L1). rewrite ypack_app by exact Lx. rewrite ymask_halves by exact L0.
      cbn [lo128 hi128]. now apply stream_upd. }
    assert (MS : forall w (zs : list (word w)), width_ok w -> length zs = (32 / w)%nat -> length zs = length ks -> valid m a (spread w ks) ->
      exists m', maskstore_lanes w (ylanes w (ypack zs)) (ylanes w (ymask_reg w ks)) m a = Some m' /\ upd m a (pack zs) (spread w ks) m').
    { intros w zs Hw Lz Lk Vz. unfold ymask_reg. rewrite !ylanes_ypack by (auto; rewrite ?map_length; congruence).
      pose proof (maskstore_upd w zs (map (wmask w) ks) m a) as M. rewrite map_negative_mask in M by exact Hw. apply M; [now rewrite map_length|exact Vz]. }
    unfold y_store_masked, stream_store. destruct (streaming f); [exact S|].
    destruct e; try exact S; (apply MS; [first [exact (esize_ok Int) | exact (esize_ok Double)]|exact E|now symmetry|exact V]).
  - apply sse_leaf_store_masked; auto. unfold avx_native in N. apply orb_true_iff in N. destruct N as [N|N]; [exact N|apply Nat.eqb_eq in N; contradiction].
Qed.

(** * SimdArray *)
Section Tree.
  Variable native : nat -> bool.
  Hypothesis Hw : widths_ok native.
  Variables (w : nat) (ok : nat -> Z -> Prop).
  Hypothesis ok_step : forall k c a, ok k a -> Nat.divide k c -> ok k (a + Z.of_nat c * Z.of_nat w).
  Lemma pack_app_ (x y : list (word w)) : pack (x ++ y) = pack x ++ pack y.
  Proof. unfold pack, to_reg. now rewrite map_app, concat_app. Qed.
  Lemma store_bytes_ok (st : list (word w) -> memory Z -> Z -> option (memory Z)) :
    (forall xs m a, native (length xs) = true -> valid m a (spread w (repeat true (length xs))) -> ok (length xs) a ->
       exists m', st xs m a = Some m' /\ upd m a (pack xs) (spread w (repeat true (length xs))) m') ->
    forall n t, wf native n t -> forall m a, valid m a (spread w (repeat true n)) -> all_ok native ok n a ->
    exists m', store_bytes st w t m a = Some m' /\ upd m a (pack (to_list t)) (spread w (repeat true n)) m'.
  Proof using Hw ok_step.
    intros Hst n t W. induction W as [n xs N L|n l r N Wl IHl Wr IHr]; intros m a V K; cbn [store_bytes to_list].
    - subst n. apply Hst; auto.
    - destruct (wf_size native Hw _ _ Wl) as (Sl & Ll & Pl). destruct (wf_size native Hw _ _ Wr) as (Sr & Lr & Pr).
      assert (H2 : (2 <= n)%nat). { apply (not_native_ge2 native Hw); auto. unfold right_size in Pr. lia. }
      destruct (right_left n H2) as [R1 R2]. pose proof (left_size_lt n H2).
      assert (En : n = (left_size n + right_size n)%nat) by lia.
      assert (Es : spread w (repeat true n) = spread w (repeat true (left_size n)) ++ spread w (repeat true (right_size n))) by (rewrite <- spread_app, <- repeat_app; now rewrite <- En).
      rewrite Es in *. apply valid_app in V. rewrite spread_length, repeat_length in V. destruct V as [V0 V1].
      destruct (IHl m a V0) as (m1 & E1 & U1); [now apply (all_ok_left native)|]. rewrite E1. cbn [obind]. rewrite Sl.
      rewrite Nat2Z.inj_mul in V1.
      destruct (IHr m1 (a + Z.of_nat (left_size n) * Z.of_nat w)) as (m2 & E2 & U2); [now apply (valid_upd _ _ _ _ _ _ _ U1)|now apply (all_ok_right native Hw w ok ok_step)|].
      exists m2. split; [exact E2|]. rewrite pack_app_. eapply upd_app; [exact U1|]. rewrite pack_length, Ll. replace (Z.of_nat (w * left_size n)) with (Z.of_nat (left_size n) * Z.of_nat w) by lia. exact U2.
  Qed.
  Lemma store_bytes_masked_ok (st : list (word w) -> list bool -> memory Z -> Z -> option (memory Z)) :
    (forall xs ks m a, native (length xs) = true -> length ks = length xs -> valid m a (spread w ks) ->
       exists m', st xs ks m a = Some m' /\ upd m a (pack xs) (spread w ks) m') ->
    forall n t, wf native n t -> forall k, wf native n k -> forall m a, valid m a (spread w (to_list k)) ->
    exists m', store_bytes_masked st w t k m a = Some m' /\ upd m a (pack (to_list t)) (spread w (to_list k)) m'.
  Proof using Hw.
    intros Hst n t W. induction W as [n xs N L|n l r N Wl IHl Wr IHr]; intros k Wk m a V; inversion Wk as [? ks N' L'|? k0 k1 N' W0 W1]; subst; try congruence; cbn [store_bytes_masked to_list] in *.
    - apply Hst; auto.
    - destruct (wf_size native Hw _ _ Wl) as (Sl & Ll & Pl). destruct (wf_size native Hw _ _ W0) as (Sk & Lk & _).
      rewrite spread_app in *. apply valid_app in V. rewrite spread_length, Lk in V. destruct V as [V0 V1].
      destruct (IHl k0 W0 m a V0) as (m1 & E1 & U1). rewrite E1. cbn [obind]. rewrite Sl.
      rewrite Nat2Z.inj_mul in V1.
      destruct (IHr k1 W1 m1 (a + Z.of_nat (left_size n) * Z.of_nat w)) as (m2 & E2 & U2); [now apply (valid_upd _ _ _ _ _ _ _ U1)|].
      exists m2. split; [exact E2|]. rewrite pack_app_. eapply upd_app; [exact U1|]. rewrite pack_length, Ll. replace (Z.of_nat (w * left_size n)) with (Z.of_nat (left_size n) * Z.of_nat w) by lia. exact U2.
  Qed.
End Tree.

Lemma st_align_step n f k u c a : (n | Z.of_nat (k * u)) -> Nat.divide k c -> st_align n f a -> st_align n f (a + Z.of_nat c * Z.of_nat u).
Proof.
  intros D (q & ->) [A|A]; [now left|right]. apply Z.divide_add_r; [exact A|]. rewrite Nat2Z.inj_mul, <- Z.mul_assoc, <- Nat2Z.inj_mul. now apply Z.divide_mul_r.
Qed.
Lemma sst_step e f k c a : sst_ok e f k a -> Nat.divide k c -> sst_ok e f k (a + Z.of_nat c * Z.of_nat (esize e)).
Proof. intros H D E. specialize (H E). apply st_align_step with k; auto. rewrite E, esize_16. apply Z.divide_refl. Qed.
Lemma yst_step e f k c a : yst_ok e f k a -> Nat.divide k c -> yst_ok e f k (a + Z.of_nat c * Z.of_nat (esize e)).
Proof. intros [H1 H2] D. split; [|now apply sst_step]. intros E. specialize (H1 E). apply st_align_step with k; auto. rewrite E, esize_32. apply Z.divide_refl. Qed.
Lemma esize_pos e : (0 < esize e)%nat. Proof. destruct e; cbn; lia. Qed.
Lemma writable_all m a w n : readable m a (n * w) -> writable m a w (repeat true n).
Proof.
  intros H i Hi _ j Hj. rewrite repeat_length in Hi. rewrite <- Z.add_assoc. apply H. rewrite Nat2Z.inj_mul. nia.
Qed.
Lemma sse_store_all_ok e f n a : flag_ok f (sse_alignment (esize e) n) a -> all_ok (sse_native (esize e)) (sst_ok e f) n a.
Proof.
  intros A k N K E. destruct A as [A|A]; [now left|right]. unfold sse_alignment in A. destruct (Nat.ltb_spec n (16 / esize e)); [lia|exact A].
Qed.
Lemma avx_store_all_ok avx2 e f n a : flag_ok f (avx_alignment (has256 avx2 e) (esize e) n) a -> all_ok (avx_widths_of avx2 e) (if has256 avx2 e then yst_ok e f else sst_ok e f) n a.
Proof.
  intros A k N K. assert (S : sst_ok e f k a).
  { intros E. destruct A as [A|A]; [now left|right]. unfold avx_alignment, sse_alignment in A. destruct (has256 avx2 e && (32 / esize e <=? n)%nat).
    - apply Z.divide_trans with 32; [now exists 2|exact A].
    - destruct (Nat.ltb_spec n (16 / esize e)); [lia|exact A]. }
  destruct (has256 avx2 e) eqn:F; [|exact S]. split; [|exact S]. intros E.
  destruct A as [A|A]; [now left|right]. unfold avx_alignment in A. cbn [andb] in A. destruct (Nat.leb_spec (32 / esize e) n); [exact A|lia].
Qed.
Lemma sse_array_store_ok e f t m n a : wf (sse_native (esize e)) n t -> readable m a (n * esize e) -> flag_ok f (sse_alignment (esize e) n) a ->
  exists m', sse_array_store e f t m a = Some m' /\ stored m a (to_list t) (repeat true n) m'.
Proof.
  intros W R A. destruct (wf_size _ (build_widths e) _ _ W) as (_ & L & _).
  destruct (store_bytes_ok (sse_native (esize e)) (build_widths e) (esize e) (sst_ok e f) (sst_step e f) (sse_native_store e f) (sse_leaf_store e f) n t W m a) as (m' & E & U).
  - apply writable_valid; [apply esize_pos|]. now apply writable_all.
  - now apply sse_store_all_ok.
  - exists m'. split; [exact E|]. apply upd_stored; [apply esize_pos|rewrite repeat_length; exact L|exact U].
Qed.
Lemma sse_array_store_masked_ok e t k m n a : wf (sse_native (esize e)) n t -> wf (sse_native (esize e)) n k -> writable m a (esize e) (to_list k) ->
  exists m', sse_array_store_masked e t k m a = Some m' /\ stored m a (to_list t) (to_list k) m'.
Proof.
  intros W Wk R. destruct (wf_size _ (build_widths e) _ _ W) as (_ & L & _). destruct (wf_size _ (build_widths e) _ _ Wk) as (_ & Lk & _).
  destruct (store_bytes_masked_ok (sse_native (esize e)) (build_widths e) (esize e) (sse_native_store_masked e) (sse_leaf_store_masked e) n t W k Wk m a) as (m' & E & U).
  - apply writable_valid; [apply esize_pos|exact R].
  - exists m'. split; [exact E|]. apply upd_stored; [apply esize_pos|rewrite Lk; exact L|exact U].
Qed.
Lemma avx_array_store_ok avx2 e f t m n a : wf (avx_widths_of avx2 e) n t -> readable m a (n * esize e) -> flag_ok f (avx_alignment (has256 avx2 e) (esize e) n) a ->
  exists m', avx_array_store avx2 e f t m a = Some m' /\ stored m a (to_list t) (repeat true n) m'.
Proof.
  intros W R A. destruct (wf_size _ (abuild_widths avx2 e) _ _ W) as (_ & L & _). pose proof (avx_store_all_ok avx2 e f n a A) as AO.
  assert (V : valid m a (spread (esize e) (repeat true n))) by (apply writable_valid; [apply esize_pos|]; now apply writable_all).
  assert (S : exists m', avx_array_store avx2 e f t m a = Some m' /\ upd m a (pack (to_list t)) (spread (esize e) (repeat true n)) m').
  { pose proof (abuild_widths avx2 e) as Hw. unfold avx_array_store, avx_widths_of in *. destruct (has256 avx2 e).
    - exact (store_bytes_ok (avx_native (esize e)) Hw (esize e) (yst_ok e f) (yst_step e f) (avx_native_store e f) (avx_leaf_store e f) n t W m a V AO).
    - exact (store_bytes_ok (sse_native (esize e)) Hw (esize e) (sst_ok e f) (sst_step e f) (sse_native_store e f) (sse_leaf_store e f) n t W m a V AO). }
  destruct S as (m' & E & U). exists m'. split; [exact E|]. apply upd_stored; [apply esize_pos|rewrite repeat_length; exact L|exact U].
Qed.
Lemma avx_array_store_masked_ok avx2 e f t k m n a : wf (avx_widths_of avx2 e) n t -> wf (avx_widths_of avx2 e) n k -> writable m a (esize e) (to_list k) ->
  exists m', avx_array_store_masked avx2 e f t k m a = Some m' /\ stored m a (to_list t) (to_list k) m'.
Proof.
  intros W Wk R. destruct (wf_size _ (abuild_widths avx2 e) _ _ W) as (_ & L & _). destruct (wf_size _ (abuild_widths avx2 e) _ _ Wk) as (_ & Lk & _).
  assert (V : valid m a (spread (esize e) (to_list k))) by (apply writable_valid; [apply esize_pos|exact R]).
  assert (S : exists m', avx_array_store_masked avx2 e f t k m a = Some m' /\ upd m a (pack (to_list t)) (spread (esize e) (to_list k)) m').
  { pose proof (abuild_widths avx2 e) as Hw. unfold avx_array_store_masked, avx_widths_of in *. destruct (has256 avx2 e).
    - exact (store_bytes_masked_ok (avx_native (esize e)) Hw (esize e) (avx_native_store_masked e f) (avx_leaf_store_masked e f) n t W k Wk m a V).
    - exact (store_bytes_masked_ok (sse_native (esize e)) Hw (esize e) (sse_native_store_masked e) (sse_leaf_store_masked e) n t W k Wk m a V). }
  destruct S as (m' & E & U). exists m'. split; [exact E|]. apply upd_stored; [apply esize_pos|rewrite Lk; exact L|exact U].
Qed.

Lemma stored_elements e m a (xs : list (elt e)) n m' : length xs = n -> stored m a xs (repeat true n) m' -> elements_at m' a (MElt e) (map uval xs).
Proof.
  intros L [S _] i Hi. rewrite map_length in Hi. cbn [mt_size]. specialize (S i Hi). rewrite SeqP.znth_in by (now rewrite map_length).
  rewrite (nth_indep _ 0 (uval (w0 (esize e)))) by (rewrite map_length; lia). rewrite map_nth. unfold elt in *.
  assert (T : znth false (repeat true n) i = true) by (apply znth_repeat_in; rewrite <- L; exact Hi). specialize (S T).
  rewrite (SeqP.znth_in _ (w0 (esize e)) xs i Hi) in S. exact S.
Qed.
