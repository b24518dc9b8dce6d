(** shuffle helpers and transposes (proofs). *)
From Coq Require Import ZArith List Bool Lia.
From Verif.Spec Require Import Seq NativeSpec MaskSpec ShuffleSpec.
From Verif.Model Require Import Word SseReg SseMove SimdArray SimdArrayOps ScalarVec Mem SseInt SseMask SseMath Shuffle.
Import ListNotations.
Local Open Scope Z_scope.
From Verif.Proof Require Import WordP SeqP SseMoveP SseIntP SseEmulP SseMaskP SimdArrayMain ShuffleP PopcntP.

Lemma C44_shuffle_main :
  (forall d0 d1 d2 d3 (x y : list (word 4)), length x = 4%nat -> length y = 4%nat ->
     (d0 <= 3 -> d1 <= 3 -> 8 <= d2 <= 11 -> 8 <= d3 <= 11 ->
     exists r, mem_shuffle4 8 d0 d1 d2 d3 (pack x) (pack y) = pack r /\
       reg_shuffle4 d3 d2 d1 d0 (pack x) (pack y) = pack r /\ picks x y [d0; d1; d2; d3] r)%nat) /\
  (forall d0 d1 (x y : list (word 8)), length x = 2%nat -> length y = 2%nat ->
     (d0 <= 1 -> 8 <= d1 <= 9 ->
     exists r, mem_shuffle2 8 d0 d1 (pack x) (pack y) = pack r /\
       reg_shuffle2 d1 d0 (pack x) (pack y) = pack r /\ picks x y [d0; d1] r)%nat).
Proof.
  split.
  - intros d0 d1 d2 d3 x y Lx Ly H0 H1 H2 H3. destruct (mem_shuffle4_pack d0 d1 d2 d3 x y) as (r & E & P); auto.
    exists r. auto.
  - intros d0 d1 x y Lx Ly H0 H1. destruct (mem_shuffle2_pack d0 d1 x y) as (r & E & P); auto. exists r. auto.
Qed.

Lemma C44_permute_main :
  (forall d0 d1 d2 d3 (x : list (word 4)), length x = 4%nat -> (d0 <= 3 -> d1 <= 3 -> d2 <= 3 -> d3 <= 3 ->
     exists r, mem_permute_ps 8 d0 d1 d2 d3 (pack x) = pack r /\ mem_permute_epi32 8 d0 d1 d2 d3 (pack x) = pack r /\
       reg_permute_epi32 d3 d2 d1 d0 (pack x) = pack r /\ picks x [] [d0; d1; d2; d3] r)%nat) /\
  (forall d0 d1 d2 d3 (x : list (word 2)), length x = 8%nat -> (d0 <= 3 -> d1 <= 3 -> d2 <= 3 -> d3 <= 3 ->
     exists r, mem_permuteLo 8 d0 d1 d2 d3 (pack x) = pack r /\ picks x [] [d0; d1; d2; d3; 4; 5; 6; 7] r)%nat) /\
  (forall d0 d1 d2 d3 (x : list (word 2)), length x = 8%nat -> (4 <= d0 <= 7 -> 4 <= d1 <= 7 -> 4 <= d2 <= 7 -> 4 <= d3 <= 7 ->
     exists r, mem_permuteHi 8 d0 d1 d2 d3 (pack x) = pack r /\ picks x [] [0; 1; 2; 3; d0; d1; d2; d3] r)%nat) /\
  (forall d0 d1 d2 d3 d4 d5 d6 d7 (x : list (word 2)), length x = 8%nat ->
     (d0 <= 3 -> d1 <= 3 -> d2 <= 3 -> d3 <= 3 -> 4 <= d4 <= 7 -> 4 <= d5 <= 7 -> 4 <= d6 <= 7 -> 4 <= d7 <= 7 ->
     exists r, mem_permute8 8 d0 d1 d2 d3 d4 d5 d6 d7 (pack x) = pack r /\ picks x [] [d0; d1; d2; d3; d4; d5; d6; d7] r)%nat).
Proof.
  split; [|split; [|split]].
  - intros d0 d1 d2 d3 x Lx H0 H1 H2 H3. destruct (mem_permute4_pack d0 d1 d2 d3 x) as (r & E & E' & P); auto. exists r. auto.
  - intros. now apply mem_permuteLo_pack.
  - intros. now apply mem_permuteHi_pack.
  - intros. now apply mem_permute8_pack.
Qed.

Lemma C44_permute_double_partial_main :
  forall d0 (x : list (word 8)), length x = 2%nat -> (d0 <= 1)%nat ->
    exists r, mem_permute_pd 8 d0 0 (pack x) = pack r /\ picks x [] [d0; 0]%nat r.
Proof.
  intros d0 x Lx H. assert (C : d0 = 0%nat \/ d0 = 1%nat) by lia.
  destruct x as [|a [|b [|]]]; try discriminate Lx. destruct C as [->| ->].
  - exists [a; a]. split; reflexivity.
  - exists [b; a]. split; reflexivity.
Qed.

Lemma C44_permute_double_refuted_main :
  forall d0 d1 (x : list (word 8)), length x = 2%nat -> (d0 <= 1)%nat -> (d1 <= 1)%nat ->
    exists r, mem_permute_pd 8 d0 d1 (pack x) = pack r /\ picks x [] [d0; 0]%nat r /\
      (d1 = 1%nat -> nth 0 x (w0 8) <> nth 1 x (w0 8) -> ~ picks x [] [d0; d1] r).
Proof.
  intros d0 d1 x Lx H H'.
  destruct x as [|a [|b [|]]]; try discriminate Lx.
  assert (C : d0 = 0%nat \/ d0 = 1%nat) by lia. assert (C' : d1 = 0%nat \/ d1 = 1%nat) by lia.
  exists [nth d0 [a; b] a; a]. split.
  - destruct C as [->| ->]; destruct C' as [->| ->]; reflexivity.
  - split; [destruct C as [->| ->]; reflexivity|]. intros -> N P. apply N. unfold picks in P. cbn [map] in P.
    apply (f_equal (fun l => nth 1 l None)) in P. change (Some a = Some b) in P. cbn [nth]. congruence.
Qed.

Lemma C44_blend_main :
  forall sse41,
  (forall d0 d1 (x y : list (word 8)), length x = 2%nat -> length y = 2%nat -> (d0 = 0 \/ d0 = 8 -> d1 = 1 \/ d1 = 9 ->
     exists r, mem_blend_pd sse41 d0 d1 (pack x) (pack y) = Some (pack r) /\
       reg_blend_pd sse41 d1 d0 (pack x) (pack y) = Some (pack r) /\ picks x y [d0; d1] r)%nat) /\
  (forall d0 d1 d2 d3 (x y : list (word 4)), length x = 4%nat -> length y = 4%nat ->
     (d0 = 0 \/ d0 = 8 -> d1 = 1 \/ d1 = 9 -> d2 = 2 \/ d2 = 10 -> d3 = 3 \/ d3 = 11 ->
     exists r, mem_blend_ps sse41 d0 d1 d2 d3 (pack x) (pack y) = Some (pack r) /\
       reg_blend_ps sse41 d3 d2 d1 d0 (pack x) (pack y) = Some (pack r) /\ picks x y [d0; d1; d2; d3] r)%nat) /\
  (forall d0 d1 d2 d3 d4 d5 d6 d7 (x y : list (word 2)), length x = 8%nat -> length y = 8%nat ->
     (d0 = 0 \/ d0 = 8 -> d1 = 1 \/ d1 = 9 -> d2 = 2 \/ d2 = 10 -> d3 = 3 \/ d3 = 11 ->
      d4 = 4 \/ d4 = 12 -> d5 = 5 \/ d5 = 13 -> d6 = 6 \/ d6 = 14 -> d7 = 7 \/ d7 = 15 ->
     exists r, mem_blend_epi16 sse41 d0 d1 d2 d3 d4 d5 d6 d7 (pack x) (pack y) = pack r /\
       picks x y [d0; d1; d2; d3; d4; d5; d6; d7] r)%nat).
Proof.
  intros sse41. split; [|split].
  - intros d0 d1 x y Lx Ly H0 H1. destruct (mem_blend_pd_pack sse41 d0 d1 x y) as (r & E & P); auto. exists r. auto.
  - intros d0 d1 d2 d3 x y Lx Ly H0 H1 H2 H3. destruct (mem_blend_ps_pack sse41 d0 d1 d2 d3 x y) as (r & E & P); auto. exists r. auto.
  - intros. now apply mem_blend_epi16_pack.
Qed.

Lemma C44_broadcast_partial_main :
  (forall index (x : list (word 4)), length x = 4%nat ->
     exists v, nth_error x (index mod 4) = Some v /\ sse_broadcast_float index (pack x) = pack (repeat v 4)) /\
  (forall index (x : list (word 8)), length x = 2%nat -> Nat.even index = true ->
     exists v, nth_error x (index mod 2) = Some v /\ sse_broadcast_double index (pack x) = pack (repeat v 2)).
Proof.
  split.
  - intros index x L. unfold sse_broadcast_float. pose proof (Nat.mod_upper_bound index 4 ltac:(lia)) as B.
    destruct (mem_permute4_pack (index mod 4) (index mod 4) (index mod 4) (index mod 4) x) as (r & E & _ & P); auto; try lia.
    exists (nth (index mod 4) x (w0 4)). split; [apply nth_error_nth'; lia|]. cbv zeta. rewrite E. f_equal. unfold picks in P. cbn [map] in P.
    rewrite <- (nth_named_x (w0 4) x []) in P by lia. clear - P.
    change [Some (nth (index mod 4) x (w0 4)); Some (nth (index mod 4) x (w0 4)); Some (nth (index mod 4) x (w0 4)); Some (nth (index mod 4) x (w0 4))]
      with (map Some (repeat (nth (index mod 4) x (w0 4)) 4)) in P. revert P. generalize (repeat (nth (index mod 4) x (w0 4)) 4).
    induction r as [|a r IH]; intros [|b l] P; try discriminate P; auto. cbn [map] in P.
    pose proof (f_equal (hd None) P) as Q. pose proof (f_equal (@tl _) P) as R. cbn in Q, R. f_equal; [congruence|auto].
  - intros index x L Ev. unfold sse_broadcast_double. apply Nat.even_spec in Ev. destruct Ev as [k ->].
    rewrite Nat.mul_comm, Nat.mod_mul by lia. destruct x as [|a [|b [|]]]; try discriminate L. exists a. split; reflexivity.
Qed.

Lemma C44_broadcast_refuted_main :
  forall a b : word 8, sse_broadcast_double 1 (pack [a; b]) = pack [b; a].
Proof.
  reflexivity.
Qed.

Lemma C44_subscript_permutation_main :
  forall (x perm : list (word 4)), length x = 4%nat -> length perm = 4%nat -> Forall (fun i => 0 <= sval i < 4) perm ->
    exists r, v_permute true (pack x) (pack perm) = pack r /\ map Some r = map (fun i => nth_error x (Z.to_nat (sval i))) perm.
Proof.
  intros x perm Lx Lp H. unfold v_permute. rewrite !(lanes_pack 4) by (auto; rewrite ?Lx, ?Lp; reflexivity).
  eexists. split; [reflexivity|]. rewrite map_map. apply map_ext_in. intros i Hi. rewrite Forall_forall in H. specialize (H i Hi).
  assert (E : sval i = uval i).
  { revert H. unfold sval. pose proof (uval_range i) as R. change (modulus 4) with (2 ^ 32) in *.
    unfold to_signed. destruct (Z.ltb_spec (uval i) (modulus 4 / 2)); [auto|]. change (modulus 4) with (2 ^ 32) in *. lia. }
  rewrite E in *. rewrite Z.mod_small by lia. symmetry. apply nth_error_nth'. lia.
Qed.

Lemma C44_subscript_permutation_refuted_main :
  exists x perm : list (word 4), length x = 4%nat /\ length perm = 4%nat /\ Forall (fun i => 0 <= sval i < 4) perm /\
    forall r, v_permute false (pack x) (pack perm) = pack r -> length r = 4%nat ->
      map Some r <> map (fun i => nth_error x (Z.to_nat (sval i))) perm.
Proof.
  exists (map (mkw 4) [10; 11; 12; 13]), (map (mkw 4) [3; 3; 0; 1]). split; [reflexivity|]. split; [reflexivity|]. split.
  - cbn [map]. repeat constructor; vm_compute; intros; discriminate.
  - intros r E L H. cbv beta iota delta [v_permute] in E. apply (f_equal (lanes 4)) in E.
    rewrite !(lanes_pack 4) in E by (rewrite ?L; reflexivity). rewrite <- E in H.
    apply (f_equal (fun l => option_map uval (hd None l))) in H. vm_compute in H. discriminate H.
Qed.

Lemma C35_transpose_float_main :
  forall a b c d : list (word 4), length a = 4%nat -> length b = 4%nat -> length c = 4%nat -> length d = 4%nat ->
    exists cols, transpose_ps (pack a) (pack b) (pack c) (pack d) = map pack cols /\ transposed [a; b; c; d] cols.
Proof.
  exact transpose_ps_pack.
Qed.

Lemma C35_transpose_simdarray_main :
  forall (A : Type) native (x0 x1 x2 x3 : sa A), wf native 4 x0 -> wf native 4 x1 -> wf native 4 x2 -> wf native 4 x3 ->
    (forall ntr, native 4%nat = true ->
       (forall a b c d, length a = 4%nat -> length b = 4%nat -> length c = 4%nat -> length d = 4%nat -> transposed [a; b; c; d] (ntr a b c d)) ->
       exists rs, transpose_atomic ntr x0 x1 x2 x3 = Some rs /\
         transposed [to_list x0; to_list x1; to_list x2; to_list x3] (map to_list rs)) /\
    (native 1%nat = true -> native 2%nat = false -> native 4%nat = false ->
       exists rs, transpose_4x4 x0 x1 x2 x3 = Some rs /\ Forall (wf native 4) rs /\
         transposed [to_list x0; to_list x1; to_list x2; to_list x3] (map to_list rs)).
Proof.
  intros A native x0 x1 x2 x3 W0 W1 W2 W3. split.
  - intros ntr N4 H.
    assert (I : forall x : sa A, wf native 4 x -> exists l, x = Leaf l /\ length l = 4%nat).
    { intros x W. inversion W; subst; [eauto|congruence]. }
    destruct (I x0 W0) as (a & -> & La). destruct (I x1 W1) as (b & -> & Lb).
    destruct (I x2 W2) as (c & -> & Lc). destruct (I x3 W3) as (d & -> & Ld).
    eexists. split; [reflexivity|]. rewrite map_map. cbn [to_list]. rewrite map_id. now apply H.
  - intros N1 N2 N4.
    assert (I : forall x : sa A, wf native 4 x -> exists a b c d, x = Node (Node (Leaf [a]) (Leaf [b])) (Node (Leaf [c]) (Leaf [d]))).
    { assert (I1 : forall x : sa A, wf native 1 x -> exists a, x = Leaf [a]).
      { intros x W. inversion W as [n l Nn L|n l r Nn]; subst; [|congruence]. destruct l as [|a [|]]; try discriminate L. eauto. }
      assert (I2 : forall x : sa A, wf native 2 x -> exists a b, x = Node (Leaf [a]) (Leaf [b])).
      { intros x W. inversion W as [n l Nn L|n l r Nn Wl Wr]; subst; [congruence|].
        change (SplitSize.left_size 2) with 1%nat in Wl. change (SplitSize.right_size 2) with 1%nat in Wr.
        destruct (I1 _ Wl) as (a & ->). destruct (I1 _ Wr) as (b & ->). eauto. }
      intros x W. inversion W as [n l Nn L|n l r Nn Wl Wr]; subst; [congruence|].
      change (SplitSize.left_size 4) with 2%nat in Wl. change (SplitSize.right_size 4) with 2%nat in Wr.
      destruct (I2 _ Wl) as (a & b & ->). destruct (I2 _ Wr) as (c & d & ->). eauto 6. }
    assert (B : forall a b c d : A, wf native 4 (Node (Node (Leaf [a]) (Leaf [b])) (Node (Leaf [c]) (Leaf [d])))).
    { intros. apply wf_node; [auto|apply wf_node; [auto| |]|apply wf_node; [auto| |]]; apply wf_leaf; auto. }
    destruct (I x0 W0) as (a0 & a1 & a2 & a3 & ->). destruct (I x1 W1) as (b0 & b1 & b2 & b3 & ->).
    destruct (I x2 W2) as (c0 & c1 & c2 & c3 & ->). destruct (I x3 W3) as (d0 & d1 & d2 & d3 & ->).
    eexists. split; [reflexivity|]. split; [repeat constructor; auto|].
    split; [reflexivity|]. intros i j Hi Hj. cbn [length] in Hi, Hj.
    do 4 (destruct i as [|i]; [do 4 (destruct j as [|j]; [split; reflexivity|]); lia|]). lia.
Qed.

Lemma C18_mask_array_load_store_main :
  forall native n, widths_ok native -> (1 <= n)%nat ->
    (forall (m : memory bool) base (mem : Z -> bool), (forall i, 0 <= i < Z.of_nat n -> m (base + i) = Some (mem i)) ->
       exists k, mask_load native m base n = Some k /\ wf native n k /\ to_list k = tab n mem) /\
    (forall (m : memory bool) base i, 0 <= i < Z.of_nat n -> m (base + i) = None -> mask_load native m base n = None) /\
    (forall k (m : memory bool) base, wf native n k -> (forall i, 0 <= i < Z.of_nat n -> exists v, m (base + i) = Some v) ->
       exists m', mask_store k m base = Some m' /\
         (forall i, 0 <= i < Z.of_nat n -> m' (base + i) = Some (znth false (to_list k) i)) /\
         (forall a, a < base \/ base + Z.of_nat n <= a -> m' a = m a) /\
         exists k', mask_load native m' base n = Some k' /\ to_list k' = to_list k).
Proof.
  intros native n W N. split; [|split].
  - intros m base mem H. now apply C03_load_main.
  - intros m base i Hi H. now apply (C03_load_out_of_bounds_main bool native n m base i).
  - intros k m base Wk H. destruct (C03_store_main bool native n k m base false W Wk H) as (m' & E & R & F).
    exists m'. split; [exact E|]. split; [exact R|]. split; [exact F|].
    exact (C03_store_load_main bool native n k m m' base W Wk E).
Qed.

Lemma C16_popcnt_main :
  forall hw (f : bool -> Z -> Z) n, In (f, n) [(popcnt4, 4%nat); (popcnt8, 8%nat); (popcnt16, 16%nat); (popcnt32, 32%nat)] ->
  forall z, 0 <= z < 2 ^ Z.of_nat n -> f hw z = count_spec (map (fun i => Z.testbit z (Z.of_nat i)) (seq 0 n)).
Proof.
  intros hw f n H z Hz.
  assert (N : (n <= 32)%nat) by (cbn [In] in H; decompose [or] H; try contradiction; match goal with E : _ = (f, n) |- _ => injection E; intros; lia end).
  rewrite <- (popcnt_hw n z N Hz). cbn [In] in H.
  destruct H as [H|[H|[H|[H|H]]]]; try contradiction; injection H as <- <-; (destruct hw; [reflexivity|]).
  - now apply popcnt4_ok.
  - now apply popcnt8_ok.
  - now apply popcnt16_ok.
  - now apply popcnt32_ok.
Qed.
