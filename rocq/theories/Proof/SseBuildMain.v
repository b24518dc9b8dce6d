(** SimdArray<T, N> in a build with SSE: the properties of SimdArrayProps without any assumption about the native vectors, whose code is modelled at register level (proofs). *)
From Coq Require Import ZArith List Bool Lia Permutation.
From Verif.Spec Require Import Seq NativeSpec.
From Verif.Model Require Import SplitSize SimdArray ScalarVec Word Fp SseReg SseMove SortNet SseBuild.
Import ListNotations.
Local Open Scope Z_scope.
From Verif.Proof Require Import SeqP SimdArrayP WordP SseMoveP SseVecP SortNetP SseBuildP.
From Verif.Props Require Import SimdArrayProps.

Lemma C05_sse_shifted_main :
  forall ssse3 e add j (t : sa (elt e)) k, wf (sse_native (esize e)) (Nat.pow 2 j) t ->
    exists r, shifted (sse_native (esize e)) (sse_build ssse3 e add) (w0 _) t k = Some r /\
      wf (sse_native (esize e)) (Nat.pow 2 j) r /\ to_list r = shift_spec (w0 _) (to_list t) k.
Proof.
  intros ssse3 e add j t k. apply C05_shifted_power_of_two; [apply build_widths|apply build_moves].
Qed.

Lemma C05_sse_vector_shifted_main :
  forall ssse3 e add (xs : list (elt e)) k, length xs = (16 / esize e)%nat ->
    n_shifted (sse_build ssse3 e add) xs k = shift_spec (w0 _) xs k.
Proof.
  intros ssse3 e add xs k H. apply (nm_shifted _ _ _ (build_moves ssse3 e add)).
  unfold elt in *. rewrite H. unfold sse_native. rewrite Nat.eqb_refl. apply orb_true_r.
Qed.

Lemma C06_sse_shifted_in_main :
  forall ssse3 e add n (t s : sa (elt e)) k,
    wf (sse_native (esize e)) n t -> wf (sse_native (esize e)) n s -> - Z.of_nat n <= k <= Z.of_nat n ->
    exists r, shifted_in (sse_native (esize e)) (sse_build ssse3 e add) (w0 _) t k s = Some r /\
      wf (sse_native (esize e)) n r /\ to_list r = shiftin_spec (w0 _) (to_list t) (to_list s) k.
Proof.
  intros ssse3 e add n t s k. apply C06_shifted_in; [apply build_widths|apply build_moves].
Qed.

Lemma C06_sse_vector_shifted_in_refuted_main :
  forall (e : etype) add (xs s : list (elt e)) j, esize e = 4%nat -> length xs = 4%nat -> length s = 4%nat -> 1 <= j <= 3 ->
    n_shifted_in (sse_build false e add) xs (8 + j) s = n_shifted_in (sse_build false e add) xs j s.
Proof.
  intros e add xs s j He Hx Hs Hj. unfold elt in *. unfold sse_build. cbn [n_shifted_in sse_ops]. rewrite Hx. cbn [Nat.eqb].
  f_equal. generalize (to_reg enc xs) (to_reg enc s). rewrite He. intros r q. unfold sse_shifted_in, alignr_epi8.
  assert (C : j = 1 \/ j = 2 \/ j = 3) by lia. destruct C as [->|[->| ->]]; reflexivity.
Qed.

Lemma C07_sse_rotated_main :
  forall ssse3 e add n (t : sa (elt e)) k, wf (sse_native (esize e)) n t ->
    exists r, rotated (sse_native (esize e)) (sse_build ssse3 e add) (w0 _) t k = Some r /\
      wf (sse_native (esize e)) n r /\ to_list r = rotate_spec (w0 _) (to_list t) k.
Proof.
  intros ssse3 e add n t k. apply C07_rotated; [apply build_widths|apply build_moves].
Qed.

Lemma C08_sse_reversed_main :
  forall ssse3 e add n (t : sa (elt e)), wf (sse_native (esize e)) n t ->
    exists r, reversed (sse_native (esize e)) (sse_build ssse3 e add) (w0 _) t = Some r /\
      wf (sse_native (esize e)) n r /\ to_list r = rev (to_list t).
Proof.
  intros ssse3 e add n t. apply C08_reversed; [apply build_widths|apply build_moves].
Qed.

Lemma C08_sse_reversed_epi32_main :
  forall xs : list (word 4), length xs = 4%nat ->
    of_reg 4 dec (sse_reversed_epi32 (to_reg enc xs)) = rev xs.
Proof.
  intros xs H. apply (vec_reversed_epi32 4 enc dec); auto; try (intros; apply enc_length); try (intros; apply dec_enc).
Qed.

Lemma C09_sse_interleave_main :
  forall ssse3 e add n (t x : sa (elt e)), wf (sse_native (esize e)) n t -> wf (sse_native (esize e)) n x ->
    exists lo hi, interleave_low (sse_native (esize e)) (sse_build ssse3 e add) (w0 _) t x = Some lo /\
      interleave_high (sse_native (esize e)) (sse_build ssse3 e add) (w0 _) t x = Some hi /\
      wf (sse_native (esize e)) n lo /\ wf (sse_native (esize e)) n hi /\
      to_list lo ++ to_list hi = interleave_spec (to_list t) (to_list x).
Proof.
  intros ssse3 e add n t x. apply C09_interleave; [apply build_widths|apply build_moves].
Qed.

Lemma e_min_spec e : is_integer e = true -> forall x y, e_min e x y = if e_le e x y then x else y.
Proof. destruct e; intros H; try discriminate H; reflexivity. Qed.
Lemma e_max_spec e : is_integer e = true -> forall x y, e_max e x y = if e_le e x y then y else x.
Proof. destruct e; intros H; try discriminate H; reflexivity. Qed.
Lemma e_le_total e : is_integer e = true -> total_order (e_le e).
Proof. destruct e; intros H; try discriminate H; first [apply le_s_total|apply le_u_total]. Qed.
Lemma e_top_spec e : is_integer e = true -> forall x, e_le e x (e_top e) = true.
Proof.
  destruct e; intros H; try discriminate H; intros x; unfold e_le, e_top, le_s, le_u; apply Z.leb_le.
  - pose proof (sval_range x ltac:(cbn; lia)) as R. change (modulus (esize Short) / 2) with 32768 in R.
    change (sval (mkw (esize Short) (sign_weight (esize Short) - 1))) with 32767. lia.
  - pose proof (uval_range x) as R. change (modulus (esize UShort)) with 65536 in R.
    change (uval (mkw (esize UShort) (-1))) with 65535. lia.
  - pose proof (sval_range x ltac:(cbn; lia)) as R. change (modulus (esize Int) / 2) with 2147483648 in R.
    change (sval (mkw (esize Int) (sign_weight (esize Int) - 1))) with 2147483647. lia.
  - pose proof (uval_range x) as R. change (modulus (esize UInt)) with 4294967296 in R.
    change (uval (mkw (esize UInt) (-1))) with 4294967295. lia.
Qed.

Lemma C10_sse_sorted_main :
  forall ssse3 e add n (t : sa (elt e)), is_integer e = true -> wf (sse_native (esize e)) n t ->
    exists r, sorted (sse_native (esize e)) (sse_build ssse3 e add) (w0 _) (e_min e) (e_max e) (e_top e) t = Some r /\
      wf (sse_native (esize e)) n r /\ sorted_spec (e_le e) (to_list r) /\ Permutation (to_list r) (to_list t).
Proof.
  intros ssse3 e add n t He W. apply (C10_sorted _ _ _ _ (e_le e)); [apply build_widths|apply build_moves|now apply build_sorted|now apply e_le_total|now apply e_top_spec|now apply e_min_spec|now apply e_max_spec|exact W].
Qed.

Lemma C10_avx2_sorted_main :
  forall (A : Type) (le : A -> A -> bool) (mn mx : A -> A -> A) (xs : list A),
    total_order le -> (forall x y, mn x y = if le x y then x else y) -> (forall x y, mx x y = if le x y then y else x) ->
    (length xs = 16%nat -> sorted_spec le (avx_sorted16 mn mx xs) /\ Permutation (avx_sorted16 mn mx xs) xs) /\
    (length xs = 8%nat -> forall zero, sorted_spec le (avx_sorted32 zero mn mx (fun a b => le b a) xs) /\
                          Permutation (avx_sorted32 zero mn mx (fun a b => le b a) xs) xs) /\
    (length xs = 8%nat -> sorted_spec le (avx_sorted_ps mn mx xs) /\ Permutation (avx_sorted_ps mn mx xs) xs) /\
    (length xs = 4%nat -> sorted_spec le (avx_sorted_pd mn mx xs) /\ Permutation (avx_sorted_pd mn mx xs) xs).
Proof.
  intros A le mn mx xs T Hn Hx. split; [|split; [|split]]; intros L.
  - now apply avx_sorted16_ok.
  - intros zero. now apply avx_sorted32_ok.
  - now apply avx_sorted_ps_ok.
  - now apply avx_sorted_pd_ok.
Qed.

Lemma C11_sorted_float_main :
  (forall xs : list (word 4), length xs = 4%nat -> (forall x, In x xs -> is_nan x = false) ->
     let out := sse_sort Float xs in
     (forall x, In x out -> is_nan x = false) /\ sorted_spec fle out /\ Permutation (map fkey out) (map fkey xs)) /\
  (forall xs : list (word 8), length xs = 2%nat -> (forall x, In x xs -> is_nan x = false) ->
     let out := sse_sort Double xs in
     (forall x, In x out -> is_nan x = false) /\ sorted_spec fle out /\ Permutation (map fkey out) (map fkey xs)) /\
  (forall xs : list (word 4), length xs = 8%nat -> (forall x, In x xs -> is_nan x = false) ->
     let out := avx_sorted_ps mm_fmin mm_fmax xs in
     (forall x, In x out -> is_nan x = false) /\ sorted_spec fle out /\ Permutation (map fkey out) (map fkey xs)) /\
  (forall xs : list (word 8), length xs = 4%nat -> (forall x, In x xs -> is_nan x = false) ->
     let out := avx_sorted_pd mm_fmin mm_fmax xs in
     (forall x, In x out -> is_nan x = false) /\ sorted_spec fle out /\ Permutation (map fkey out) (map fkey xs)).
Proof.
  split; [|split; [|split]].
  - apply sse_float_sorted. - apply sse_double_sorted. - apply avx_float_sorted. - apply avx_double_sorted.
Qed.

Lemma C11_sorted_zeros_refuted_main :
  exists xs : list (word 8), length xs = 2%nat /\ (forall x, In x xs -> is_nan x = false) /\
    ~ Permutation (map uval (sse_sort Double xs)) (map uval xs).
Proof.
  exists [pos_zero 8; neg_zero 8]. split; [reflexivity|]. split.
  - intros x [<-|[<-|[]]]; reflexivity.
  - intros P.
    assert (I : In 0 (map uval (sse_sort Double [pos_zero 8; neg_zero 8]))).
    { apply (Permutation_in 0 (Permutation_sym P)). left. reflexivity. }
    vm_compute in I. destruct I as [I|[I|[]]]; discriminate I.
Qed.

Lemma C11_sorted_nan_refuted_main :
  exists xs : list (word 8), length xs = 2%nat /\ ~ Permutation (map uval (sse_sort Double xs)) (map uval xs).
Proof.
  exists [a_nan 8; mkw 8 0x3ff0000000000000]. split; [reflexivity|]. intros P.
  assert (I : In (uval (a_nan 8)) (map uval (sse_sort Double [a_nan 8; mkw 8 0x3ff0000000000000]))).
  { apply (Permutation_in _ (Permutation_sym P)). left. reflexivity. }
  vm_compute in I. destruct I as [I|[I|[]]]; discriminate I.
Qed.

Lemma C12_sse_partial_sum_main :
  forall ssse3 e n (t : sa (elt e)), is_integer e = true -> wf (sse_native (esize e)) n t ->
    exists r, partial_sum (sse_build ssse3 e wadd) (w0 _) wadd t = Some r /\
      wf (sse_native (esize e)) n r /\ to_list r = partial_sum_spec wadd (to_list t).
Proof.
  intros ssse3 e n t He W. apply (C12_partial_sum _ (sse_native (esize e))); [apply build_widths|apply build_partial_sum|apply wadd_comm|exact W].
Qed.
