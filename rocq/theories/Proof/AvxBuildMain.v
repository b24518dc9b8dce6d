(** SimdArray<T, N> in a build with AVX or AVX2: the properties of SimdArrayProps without any assumption about the native vectors, whose code is modelled at register level (proofs). *)
From Coq Require Import ZArith List Bool Lia Permutation.
From Verif.Spec Require Import Seq NativeSpec.
From Verif.Model Require Import SplitSize SimdArray ScalarVec Word Fp SseReg SseMove SortNet SseBuild AvxReg AvxMove AvxBuild.
Import ListNotations.
Local Open Scope Z_scope.
From Verif.Proof Require Import SeqP SimdArrayP WordP SseMoveP SseVecP SortNetP SseBuildP AvxMoveP AvxVecP AvxBuildP SseBuildMain.
From Verif.Props Require Import SimdArrayProps.

Lemma C05_avx_shifted_main :
  forall avx2 c e add j (t : sa (elt e)) k, wf (avx_widths_of avx2 e) (Nat.pow 2 j) t ->
    exists r, shifted (avx_widths_of avx2 e) (avx_build avx2 c e add) (w0 _) t k = Some r /\
      wf (avx_widths_of avx2 e) (Nat.pow 2 j) r /\ to_list r = shift_spec (w0 _) (to_list t) k.
Proof.
  intros avx2 c e add j t k. apply C05_shifted_power_of_two; [apply abuild_widths|apply abuild_moves].
Qed.

Lemma C05_avx_vector_shifted_main :
  forall c e add (xs : list (elt e)) k, length xs = (32 / esize e)%nat ->
    n_shifted (avx_build true c e add) xs k = shift_spec (w0 _) xs k.
Proof.
  intros c e add xs k H. apply (nm_shifted _ _ _ (abuild_moves true c e add)).
  unfold elt in *. rewrite H. unfold avx_widths_of, has256, avx_native. cbn [orb]. rewrite Nat.eqb_refl. apply orb_true_r.
Qed.

Lemma C05_avx_undefined_upper_refuted_main :
  forall undef c (e : etype) add (xs : list (elt e)) k, length undef = 16%nat -> length xs = (32 / esize e)%nat ->
    16 <= k * Z.of_nat (esize e) < 32 ->
    skipn (16 / esize e) (n_shifted (avx_build_undef undef true c e add) xs k) = of_reg (esize e) dec undef.
Proof.
  intros undef c e add xs k Hu H Hk. unfold elt in *. unfold avx_build_undef, has256. cbn [orb n_shifted avx_ops].
  assert (E : Nat.eqb (length xs) (32 / esize e) = true) by (apply Nat.eqb_eq; exact H). rewrite E.
  unfold of_ymm, avx_shifted.
  destruct (Z.eqb_spec k 0); [lia|].
  replace ((_ <=? k) && (k <=? _)) with true.
  2:{ symmetry. apply andb_true_intro. split; apply Z.leb_le; destruct e; cbn in Hk |- *; lia. }
  unfold avx_shift_bytes. replace (16 <=? k * Z.of_nat (esize e)) with true by (symmetry; apply Z.leb_le; lia).
  unfold zeroExtend, cast256. cbn [lo128 hi128].
  generalize (srli_si128 8 0 (hi128 (to_ymm (esize e) enc xs)) (Z.to_nat (k * Z.of_nat (esize e) - 16))). intros r.
  rewrite skipn_app. replace (length (of_reg (esize e) dec r)) with (16 / esize e)%nat by (destruct e; reflexivity).
  rewrite Nat.sub_diag, skipn_all2; [reflexivity|]. destruct e; cbn; lia.
Qed.

Lemma C06_avx_shifted_in_main :
  forall avx2 c e add n (t s : sa (elt e)) k,
    wf (avx_widths_of avx2 e) n t -> wf (avx_widths_of avx2 e) n s -> - Z.of_nat n <= k <= Z.of_nat n ->
    exists r, shifted_in (avx_widths_of avx2 e) (avx_build avx2 c e add) (w0 _) t k s = Some r /\
      wf (avx_widths_of avx2 e) n r /\ to_list r = shiftin_spec (w0 _) (to_list t) (to_list s) k.
Proof.
  intros avx2 c e add n t s k. apply C06_shifted_in; [apply abuild_widths|apply abuild_moves].
Qed.

Lemma C06_avx_vector_shifted_in_main :
  forall c e add (xs s : list (elt e)) k, length xs = (32 / esize e)%nat -> length s = (32 / esize e)%nat ->
    n_shifted_in (avx_build true c e add) xs k s = shiftin_spec (w0 _) xs s k.
Proof.
  intros c e add xs s k H H'. unfold elt in *. unfold avx_build, avx_build_undef, has256. cbn [orb n_shifted_in avx_ops].
  rewrite (proj2 (Nat.eqb_eq _ _) H).
  apply yvec_shifted_in; esz; auto.
Qed.

Lemma C07_avx_rotated_main :
  forall avx2 c e add n (t : sa (elt e)) k, wf (avx_widths_of avx2 e) n t ->
    exists r, rotated (avx_widths_of avx2 e) (avx_build avx2 c e add) (w0 _) t k = Some r /\
      wf (avx_widths_of avx2 e) n r /\ to_list r = rotate_spec (w0 _) (to_list t) k.
Proof.
  intros avx2 c e add n t k. apply C07_rotated; [apply abuild_widths|apply abuild_moves].
Qed.

Lemma C08_avx_reversed_main :
  forall avx2 c e add n (t : sa (elt e)), wf (avx_widths_of avx2 e) n t ->
    exists r, reversed (avx_widths_of avx2 e) (avx_build avx2 c e add) (w0 _) t = Some r /\
      wf (avx_widths_of avx2 e) n r /\ to_list r = rev (to_list t).
Proof.
  intros avx2 c e add n t. apply C08_reversed; [apply abuild_widths|apply abuild_moves].
Qed.

Lemma C09_avx_interleave_main :
  forall avx2 c e add n (t x : sa (elt e)), wf (avx_widths_of avx2 e) n t -> wf (avx_widths_of avx2 e) n x ->
    exists lo hi, interleave_low (avx_widths_of avx2 e) (avx_build avx2 c e add) (w0 _) t x = Some lo /\
      interleave_high (avx_widths_of avx2 e) (avx_build avx2 c e add) (w0 _) t x = Some hi /\
      wf (avx_widths_of avx2 e) n lo /\ wf (avx_widths_of avx2 e) n hi /\
      to_list lo ++ to_list hi = interleave_spec (to_list t) (to_list x).
Proof.
  intros avx2 c e add n t x. apply C09_interleave; [apply abuild_widths|apply abuild_moves].
Qed.

Lemma C10_avx_sorted_main :
  forall avx2 c e add n (t : sa (elt e)), is_integer e = true -> wf (avx_widths_of avx2 e) n t ->
    exists r, sorted (avx_widths_of avx2 e) (avx_build avx2 c e add) (w0 _) (e_min e) (e_max e) (e_top e) t = Some r /\
      wf (avx_widths_of avx2 e) n r /\ sorted_spec (e_le e) (to_list r) /\ Permutation (to_list r) (to_list t).
Proof.
  intros avx2 c e add n t He W. apply (C10_sorted _ _ _ _ (e_le e)); [apply abuild_widths|apply abuild_moves|now apply abuild_sorted|now apply e_le_total|now apply e_top_spec|now apply e_min_spec|now apply e_max_spec|exact W].
Qed.

Lemma C12_avx_partial_sum_main :
  forall avx2 c e n (t : sa (elt e)), is_integer e = true -> wf (avx_widths_of avx2 e) n t ->
    exists r, partial_sum (avx_build avx2 c e wadd) (w0 _) wadd t = Some r /\
      wf (avx_widths_of avx2 e) n r /\ to_list r = partial_sum_spec wadd (to_list t).
Proof.
  intros avx2 c e n t He W. apply (C12_partial_sum _ (avx_widths_of avx2 e)); [apply abuild_widths|apply abuild_partial_sum|apply wadd_comm|exact W].
Qed.
