(** The native vectors of an AVX build satisfy what SimdArray relies on. *)
From Coq Require Import ZArith List Bool Lia Permutation.
From Verif.Spec Require Import Seq NativeSpec.
From Verif.Model Require Import SplitSize SimdArray ScalarVec Word Fp SseReg SseMove SortNet SseBuild AvxReg AvxMove AvxBuild.
From Verif.Proof Require Import SeqP WordP SseMoveP SseVecP SortNetP SseBuildP AvxMoveP AvxVecP.
Import ListNotations.
Local Open Scope Z_scope.

Ltac esz := try apply esize_ok; try (intros; apply enc_length); try (intros; apply dec_enc); try apply enc_w0; try (intros; apply Z.lor_0_l); try (intros; apply Z.lor_0_r).
Lemma abuild_widths avx2 e : widths_ok (avx_widths_of avx2 e).
Proof. unfold avx_widths_of. destruct (has256 avx2 e); [apply avx_widths|apply sse_widths]; apply esize_ok. Qed.
Lemma abuild_moves avx2 c e add : native_moves_ok (avx_widths_of avx2 e) (w0 (esize e)) (avx_build avx2 c e add).
Proof.
  unfold avx_build, avx_build_undef, avx_widths_of. destruct (has256 avx2 e); [|apply build_moves]. apply avx_moves; esz.
Qed.
Lemma avx_sort_ok e xs : is_integer e = true -> length xs = (32 / esize e)%nat ->
  sorted_spec (e_le e) (avx_sort e xs) /\ Permutation (avx_sort e xs) xs.
Proof.
  intros He L. destruct e; try discriminate He; unfold avx_sort, e_le, e_min, e_max; change (32 / esize _)%nat with 16%nat in L || change (32 / esize _)%nat with 8%nat in L.
  - apply avx_sorted16_ok; auto. apply le_s_total.
  - apply avx_sorted16_ok; auto. apply le_u_total.
  - apply avx_sorted32_ok; auto. apply le_s_total.
  - apply avx_sorted32_ok; auto. apply le_u_total.
Qed.
Lemma sse_sort_ok e xs : is_integer e = true -> length xs = (16 / esize e)%nat ->
  sorted_spec (e_le e) (sse_sort e xs) /\ Permutation (sse_sort e xs) xs.
Proof.
  intros He L. destruct e; try discriminate He; unfold sse_sort, e_le, e_min, e_max; change (16 / esize _)%nat with 8%nat in L || change (16 / esize _)%nat with 4%nat in L.
  - apply sse_sorted16_ok; auto. apply le_s_total.
  - apply sse_sorted16_ok; auto. apply le_u_total.
  - apply sse_sorted32_ok; auto. apply le_s_total.
  - apply sse_sorted32_ok; auto. apply le_u_total.
Qed.
Lemma abuild_sorted avx2 c e add : is_integer e = true -> native_sorted_ok (avx_widths_of avx2 e) (e_le e) (avx_build avx2 c e add).
Proof.
  intros He. unfold avx_build, avx_build_undef, avx_widths_of. destruct (has256 avx2 e); [|now apply build_sorted].
  apply avx_sorted_ok; esz; intros; [now apply sse_sort_ok|now apply avx_sort_ok].
Qed.
Lemma abuild_partial_sum avx2 c e : native_partial_sum_ok (avx_widths_of avx2 e) wadd (avx_build avx2 c e wadd).
Proof.
  unfold avx_build, avx_build_undef, avx_widths_of. destruct (has256 avx2 e); [|apply build_partial_sum].
  apply avx_partial_sum_ok; esz. - apply wadd_comm. - apply wadd_assoc. - apply wadd_0_l.
Qed.
