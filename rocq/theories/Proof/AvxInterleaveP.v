(** Proofs about Model/AvxInterleave. *)
From Coq Require Import ZArith List Bool Lia.
From Verif.Spec Require Import Seq MemSpec InterleaveSpec.
From Verif.Model Require Import SimdArray SimdArrayOps Mem SseReg GatherScatter Interleave AvxReg AvxMove AvxInterleave.
From Verif.Proof Require Import SeqP BitScanP SimdArrayOpsP AlgorithmsP InterleaveP.
Import ListNotations.
Local Open Scope Z_scope.

Ltac len16 v := destruct v as [|? [|? [|? [|? [|? [|? [|? [|? [|? [|? [|? [|? [|? [|? [|? [|? [|]]]]]]]]]]]]]]]]]; try discriminate.
Ltac eqlist K :=
  rewrite ?(K 1), ?(K 2), ?(K 3), ?(K 4), ?(K 5), ?(K 6), ?(K 7), ?(K 8), ?(K 9), ?(K 10), ?(K 11), ?(K 12), ?(K 13), ?(K 14), ?(K 15) by lia;
  repeat (apply cons_pair; [cbn [length]; lia|]); reflexivity.

Lemma units_yregister {A} u (v : list A) : units (yregister u v) = v.
Proof. apply firstn_skipn. Qed.
Lemma yscatter_writes {A} (zero : A) n i u v : length v = n -> writes n i (fun data m => scatter_all zero (units (yregister u v)) data i m) [v].
Proof. rewrite units_yregister. apply scatter_writes. Qed.

(** consecutive stores are one store *)
Lemma stores_concat {A} a (bs cs : list (list A)) m : concat bs = concat cs -> stores (blocks_at a bs) m = stores (blocks_at a cs) m.
Proof. intros E. now rewrite <- !mem_store_blocks, E. Qed.

(** ** Sixteen entries *)
Lemma y16_2_ok {A} (zero : A) kind i v0 v1 : kind_ok 16 kind i -> length v0 = 16%nat -> length v1 = 16%nat ->
  writes 16 i (fun data => y16_2 zero kind data i (yregister 4 v0) (yregister 4 v1)) [v0; v1].
Proof.
  intros K L0 L1. apply (writes_stores zero) with (es := seq 0 16); [repeat constructor; assumption|upto|upto|].
  intros data m. unfold y16_2.
  assert (G : y16_2_any data i (yregister 4 v0) (yregister 4 v1) m = stores (map (struct_block zero i data [v0; v1]) (seq 0 16)) m).
  { len16 v0. len16 v1. reflexivity. }
  destruct kind as [|[|[|[|s]]]]; try exact G. clear G. cbn [kind_ok] in K. len16 v0. len16 v1. unfold y16_2_successive.
  match goal with |- context [struct_block _ _ _ [[?a0; ?a1; ?a2; ?a3; ?a4; ?a5; ?a6; ?a7; ?a8; ?a9; ?aa; ?ab; ?ac; ?ad; ?ae; ?af];
                                              [?b0; ?b1; ?b2; ?b3; ?b4; ?b5; ?b6; ?b7; ?b8; ?b9; ?ba; ?bb; ?bc; ?bd; ?be; ?bf]]] =>
    transitivity (stores (map (fun p => (fst p, concat (snd p)))
      [(data + i 0, [[a0; b0]; [a1; b1]; [a2; b2]; [a3; b3]; [a4; b4]; [a5; b5]; [a6; b6]; [a7; b7]]);
       (data + i 8, [[a8; b8]; [a9; b9]; [aa; ba]; [ab; bb]; [ac; bc]; [ad; bd]; [ae; be]; [af; bf]])]) m); [reflexivity|] end.
  rewrite stores_blocks. f_equal. cbn [flat_map blocks_at fst snd app map seq]. unfold struct_block, column. cbn [map nth].
  cbn [Z.of_nat Pos.of_succ_nat Pos.succ]. eqlist K.
Qed.
Lemma y16_4_ok {A} (zero : A) kind i v0 v1 v2 v3 : kind_ok 16 kind i -> length v0 = 16%nat -> length v1 = 16%nat -> length v2 = 16%nat -> length v3 = 16%nat ->
  writes 16 i (fun data => y16_4 zero kind data i (yregister 4 v0) (yregister 4 v1) (yregister 4 v2) (yregister 4 v3)) [v0; v1; v2; v3].
Proof.
  intros K L0 L1 L2 L3. destruct (match kind with Successive 4 => true | _ => false end) eqn:Q.
  - destruct kind as [|[|[|[|[|[|s]]]]]]; try discriminate. cbn [kind_ok] in K.
    apply (writes_stores zero) with (es := seq 0 16); [repeat constructor; assumption|upto|upto|]. intros data m. unfold y16_4, y16_4_successive.
    len16 v0. len16 v1. len16 v2. len16 v3.
    match goal with |- context [struct_block _ _ _ [[?a0; ?a1; ?a2; ?a3; ?a4; ?a5; ?a6; ?a7; ?a8; ?a9; ?aa; ?ab; ?ac; ?ad; ?ae; ?af];
                                                [?b0; ?b1; ?b2; ?b3; ?b4; ?b5; ?b6; ?b7; ?b8; ?b9; ?ba; ?bb; ?bc; ?bd; ?be; ?bf];
                                                [?c0; ?c1; ?c2; ?c3; ?c4; ?c5; ?c6; ?c7; ?c8; ?c9; ?ca; ?cb; ?cc; ?cd; ?ce; ?cf];
                                                [?d0; ?d1; ?d2; ?d3; ?d4; ?d5; ?d6; ?d7; ?d8; ?d9; ?da; ?db; ?dc; ?dd; ?de; ?df]]] =>
      transitivity (stores (map (fun p => (fst p, concat (snd p)))
        [(data + i 0, [[a0; b0; c0; d0]; [a1; b1; c1; d1]; [a2; b2; c2; d2]; [a3; b3; c3; d3]]);
         (data + i 4, [[a4; b4; c4; d4]; [a5; b5; c5; d5]; [a6; b6; c6; d6]; [a7; b7; c7; d7]]);
         (data + i 8, [[a8; b8; c8; d8]; [a9; b9; c9; d9]; [aa; ba; ca; da]; [ab; bb; cb; db]]);
         (data + i 12, [[ac; bc; cc; dc]; [ad; bd; cd; dd]; [ae; be; ce; de]; [af; bf; cf; df]])]) m); [reflexivity|] end.
    rewrite stores_blocks. f_equal. cbn [flat_map blocks_at fst snd app map seq]. unfold struct_block, column. cbn [map nth].
    cbn [Z.of_nat Pos.of_succ_nat Pos.succ]. eqlist K.
  - apply (writes_stores zero) with (es := [0; 8; 1; 9; 2; 10; 3; 11; 4; 12; 5; 13; 6; 14; 7; 15]%nat); [repeat constructor; assumption|upto|upto|]. intros data m.
    assert (G : y16_4_any data i (yregister 4 v0) (yregister 4 v1) (yregister 4 v2) (yregister 4 v3) m =
      stores (map (struct_block zero i data [v0; v1; v2; v3]) [0; 8; 1; 9; 2; 10; 3; 11; 4; 12; 5; 13; 6; 14; 7; 15]%nat) m).
    { len16 v0. len16 v1. len16 v2. len16 v3. reflexivity. }
    unfold y16_4. destruct kind as [|[|[|[|[|[|s]]]]]]; try exact G. discriminate.
Qed.
Lemma y16_3_ok {A} (zero : A) kind i v0 v1 v2 : kind_ok 16 kind i -> length v0 = 16%nat -> length v1 = 16%nat -> length v2 = 16%nat ->
  writes 16 i (fun data => y16_3 zero kind data i (yregister 4 v0) (yregister 4 v1) (yregister 4 v2)) [v0; v1; v2].
Proof.
  intros K L0 L1 L2. unfold y16_3.
  apply (writes_seq 16 i (fun data => y16_2 zero kind data i (yregister 4 v0) (yregister 4 v1)) (fun data => scatter_all zero (units (yregister 4 v2)) data i) [v0; v1] [v2]);
      [repeat constructor; assumption|reflexivity|now apply y16_2_ok|now apply yscatter_writes].
Qed.
Ltac split_forall := repeat (match goal with H : Forall _ (_ :: _) |- _ => inversion_clear H end).
Lemma interleave_y16_ok {A} (zero : A) kind i vs : kind_ok 16 kind i -> Forall (fun v => length v = 16%nat) vs -> (2 <= length vs <= 8)%nat ->
  writes 16 i (fun data => interleave_y16 zero kind data i vs) vs.
Proof.
  intros K F L.
  destruct vs as [|v0 [|v1 [|v2 [|v3 [|v4 [|v5 [|v6 [|v7 [|v8 vs]]]]]]]]]; cbn [length] in L; try lia; split_forall; unfold interleave_y16; cbn [map].
  - now apply y16_2_ok.
  - now apply y16_3_ok.
  - now apply y16_4_ok.
  - eapply (writes_seq 16 i _ (fun data => scatter_all zero _ data i) [v0; v1; v2; v3] [v4]); [repeat constructor; assumption|reflexivity|now apply y16_4_ok|now apply yscatter_writes].
  - eapply (writes_seq 16 i _ (fun data => y16_2 zero kind data i _ _) [v0; v1; v2; v3] [v4; v5]); [repeat constructor; assumption|reflexivity|now apply y16_4_ok|now apply y16_2_ok].
  - eapply (writes_seq 16 i _ (fun data => y16_3 zero kind data i _ _ _) [v0; v1; v2; v3] [v4; v5; v6]); [repeat constructor; assumption|reflexivity|now apply y16_4_ok|now apply y16_3_ok].
  - eapply (writes_seq 16 i _ (fun data => y16_4 zero kind data i _ _ _ _) [v0; v1; v2; v3] [v4; v5; v6; v7]); [repeat constructor; assumption|reflexivity|now apply y16_4_ok|now apply y16_4_ok].
Qed.

(** ** Eight entries *)
Lemma y8_2_ok {A} (zero : A) kind i (v0 v1 : list A) : kind_ok 8 kind i -> length v0 = 8%nat -> length v1 = 8%nat ->
  writes 8 i (fun data => y8_2 kind data i (yregister 2 v0) (yregister 2 v1)) [v0; v1].
Proof.
  intros K L0 L1. apply (writes_stores zero) with (es := seq 0 8); [repeat constructor; assumption|upto|upto|].
  intros data m. unfold y8_2.
  assert (G : y8_2_any data i (yregister 2 v0) (yregister 2 v1) m = stores (map (struct_block zero i data [v0; v1]) (seq 0 8)) m).
  { len8 v0. len8 v1. reflexivity. }
  destruct kind as [|[|[|[|s]]]]; try exact G. clear G. cbn [kind_ok] in K. len8 v0. len8 v1. unfold y8_2_successive.
  match goal with |- context [struct_block _ _ _ [[?a0; ?a1; ?a2; ?a3; ?a4; ?a5; ?a6; ?a7]; [?b0; ?b1; ?b2; ?b3; ?b4; ?b5; ?b6; ?b7]]] =>
    transitivity (stores (map (fun p => (fst p, concat (snd p)))
      [(data + i 0, [[a0; b0]; [a1; b1]]); (data + i 2, [[a2; b2]; [a3; b3]]); (data + i 4, [[a4; b4]; [a5; b5]]); (data + i 6, [[a6; b6]; [a7; b7]])]) m); [reflexivity|] end.
  rewrite stores_blocks. f_equal. cbn [flat_map blocks_at fst snd app map seq]. unfold struct_block, column. cbn [map nth].
  cbn [Z.of_nat Pos.of_succ_nat Pos.succ]. eqlist K.
Qed.
Lemma y8_3_any_ok {A} (zero : A) va kind i (v0 v1 v2 : list A) : kind_ok 8 kind i -> length v0 = 8%nat -> length v1 = 8%nat -> length v2 = 8%nat ->
  writes 8 i (fun data => y8_3_any zero va kind data i (yregister 2 v0) (yregister 2 v1) (yregister 2 v2)) [v0; v1; v2].
Proof.
  intros K L0 L1 L2. unfold y8_3_any. destruct (maskmov_scatter va).
  - apply (writes_stores zero) with (es := seq 0 8); [repeat constructor; assumption|upto|upto|]. intros data m. len8 v0. len8 v1. len8 v2. cbv zeta. unfold maskstore_3.
    rewrite maskmoves_3 by (repeat constructor). reflexivity.
  - apply (writes_seq 8 i (fun data => y8_2 kind data i (yregister 2 v0) (yregister 2 v1)) (fun data => scatter_all zero (units (yregister 2 v2)) data i) [v0; v1] [v2]);
      [repeat constructor; assumption|reflexivity|now apply (y8_2_ok zero)|now apply yscatter_writes].
Qed.
Lemma y8_3_ok {A} (zero : A) va kind i (v0 v1 v2 : list A) : kind_ok 8 kind i -> length v0 = 8%nat -> length v1 = 8%nat -> length v2 = 8%nat ->
  writes 8 i (fun data => y8_3 zero va kind data i (yregister 2 v0) (yregister 2 v1) (yregister 2 v2)) [v0; v1; v2].
Proof.
  intros K L0 L1 L2. pose proof (y8_3_any_ok zero va kind i v0 v1 v2 K L0 L1 L2) as G. unfold y8_3. destruct kind as [|[|[|[|[|s]]]]]; try exact G. clear G. cbn [kind_ok] in K.
  apply (writes_stores zero) with (es := seq 0 8); [repeat constructor; assumption|upto|upto|]. intros data m. len8 v0. len8 v1. len8 v2. unfold y8_3_successive.
  match goal with |- context [struct_block _ _ _ [[?a0; ?a1; ?a2; ?a3; ?a4; ?a5; ?a6; ?a7]; [?b0; ?b1; ?b2; ?b3; ?b4; ?b5; ?b6; ?b7]; [?c0; ?c1; ?c2; ?c3; ?c4; ?c5; ?c6; ?c7]]] =>
    transitivity (stores (blocks_at (data + i 0) [[a0; b0; c0; a1; b1; c1; a2; b2]; [c2; a3; b3; c3; a4; b4; c4; a5]; [b5; c5; a6; b6; c6; a7; b7; c7]]) m);
    [cbn [blocks_at]; replace (data + i 0 + Z.of_nat (length [a0; b0; c0; a1; b1; c1; a2; b2])) with (data + i 0 + 8) by reflexivity;
     replace (data + i 0 + 8 + Z.of_nat (length [c2; a3; b3; c3; a4; b4; c4; a5])) with (data + i 0 + 16) by (cbn [length]; lia); reflexivity|];
    rewrite (stores_concat (data + i 0) _ [[a0; b0; c0]; [a1; b1; c1]; [a2; b2; c2]; [a3; b3; c3]; [a4; b4; c4]; [a5; b5; c5]; [a6; b6; c6]; [a7; b7; c7]]) by reflexivity end.
  f_equal. cbn [blocks_at app map seq]. unfold struct_block, column. cbn [map nth]. cbn [Z.of_nat Pos.of_succ_nat Pos.succ]. eqlist K.
Qed.
Lemma y8_4_ok {A} (zero : A) kind i (v0 v1 v2 v3 : list A) : kind_ok 8 kind i -> length v0 = 8%nat -> length v1 = 8%nat -> length v2 = 8%nat -> length v3 = 8%nat ->
  writes 8 i (fun data => y8_4 zero kind data i (yregister 2 v0) (yregister 2 v1) (yregister 2 v2) (yregister 2 v3)) [v0; v1; v2; v3].
Proof.
  intros K L0 L1 L2 L3. apply (writes_stores zero) with (es := seq 0 8); [repeat constructor; assumption|upto|upto|]. intros data m.
  assert (G : y8_4_any data i (yregister 2 v0) (yregister 2 v1) (yregister 2 v2) (yregister 2 v3) m = stores (map (struct_block zero i data [v0; v1; v2; v3]) (seq 0 8)) m).
  { len8 v0. len8 v1. len8 v2. len8 v3. reflexivity. }
  unfold y8_4. destruct kind as [|[|[|[|[|[|s]]]]]]; try exact G. clear G. cbn [kind_ok] in K. unfold y8_4_successive. len8 v0. len8 v1. len8 v2. len8 v3.
  match goal with |- context [struct_block _ _ _ [[?a0; ?a1; ?a2; ?a3; ?a4; ?a5; ?a6; ?a7]; [?b0; ?b1; ?b2; ?b3; ?b4; ?b5; ?b6; ?b7];
                                              [?c0; ?c1; ?c2; ?c3; ?c4; ?c5; ?c6; ?c7]; [?d0; ?d1; ?d2; ?d3; ?d4; ?d5; ?d6; ?d7]]] =>
    transitivity (stores (map (fun p => (fst p, concat (snd p)))
      [(data + i 0, [[a0; b0; c0; d0]; [a1; b1; c1; d1]]); (data + i 0 + 8, [[a2; b2; c2; d2]; [a3; b3; c3; d3]]);
       (data + i 0 + 16, [[a4; b4; c4; d4]; [a5; b5; c5; d5]]); (data + i 0 + 24, [[a6; b6; c6; d6]; [a7; b7; c7; d7]])]) m); [reflexivity|] end.
  rewrite stores_blocks. f_equal. cbn [flat_map blocks_at fst snd app map seq]. unfold struct_block, column. cbn [map nth].
  cbn [Z.of_nat Pos.of_succ_nat Pos.succ]. eqlist K.
Qed.
Lemma interleave_y8_ok {A} (zero : A) va kind i vs : kind_ok 8 kind i -> Forall (fun v => length v = 8%nat) vs -> (2 <= length vs <= 8)%nat ->
  writes 8 i (fun data => interleave_y8 zero va kind data i vs) vs.
Proof.
  intros K F L.
  destruct vs as [|v0 [|v1 [|v2 [|v3 [|v4 [|v5 [|v6 [|v7 [|v8 vs]]]]]]]]]; cbn [length] in L; try lia; split_forall; unfold interleave_y8; cbn [map].
  - now apply (y8_2_ok zero).
  - now apply y8_3_ok.
  - now apply y8_4_ok.
  - eapply (writes_seq 8 i _ (fun data => scatter_all zero _ data i) [v0; v1; v2; v3] [v4]); [repeat constructor; assumption|reflexivity|now apply y8_4_ok|now apply yscatter_writes].
  - eapply (writes_seq 8 i _ (fun data => y8_2 kind data i _ _) [v0; v1; v2; v3] [v4; v5]); [repeat constructor; assumption|reflexivity|now apply y8_4_ok|now apply (y8_2_ok zero)].
  - eapply (writes_seq 8 i _ (fun data => y8_3 zero va kind data i _ _ _) [v0; v1; v2; v3] [v4; v5; v6]); [repeat constructor; assumption|reflexivity|now apply y8_4_ok|now apply y8_3_ok].
  - eapply (writes_seq 8 i _ (fun data => y8_4 zero kind data i _ _ _ _) [v0; v1; v2; v3] [v4; v5; v6; v7]); [repeat constructor; assumption|reflexivity|now apply y8_4_ok|now apply y8_4_ok].
Qed.

(** ** Four entries *)
Lemma y4_2_ok {A} (zero : A) i (v0 v1 : list A) : length v0 = 4%nat -> length v1 = 4%nat -> writes 4 i (fun data => y4_2 data i (yregister 1 v0) (yregister 1 v1)) [v0; v1].
Proof.
  intros L0 L1. apply (writes_stores zero) with (es := seq 0 4); [repeat constructor; assumption|upto|upto|]. intros data m. len4 v0. len4 v1. reflexivity.
Qed.
Lemma y4_3_ok {A} (zero : A) va i (v0 v1 v2 : list A) : length v0 = 4%nat -> length v1 = 4%nat -> length v2 = 4%nat ->
  writes 4 i (fun data => y4_3 zero va data i (yregister 1 v0) (yregister 1 v1) (yregister 1 v2)) [v0; v1; v2].
Proof.
  intros L0 L1 L2. unfold y4_3. destruct (maskmov_scatter va).
  - apply (writes_stores zero) with (es := seq 0 4); [repeat constructor; assumption|upto|upto|]. intros data m. len4 v0. len4 v1. len4 v2. cbv zeta. unfold maskstore_3.
    rewrite maskmoves_3 by (repeat constructor). reflexivity.
  - apply (writes_seq 4 i (fun data => y4_2 data i (yregister 1 v0) (yregister 1 v1)) (fun data => scatter_all zero (units (yregister 1 v2)) data i) [v0; v1] [v2]);
      [repeat constructor; assumption|reflexivity|now apply (y4_2_ok zero)|now apply yscatter_writes].
Qed.
Lemma y4_4_ok {A} (zero : A) i (v0 v1 v2 v3 : list A) : length v0 = 4%nat -> length v1 = 4%nat -> length v2 = 4%nat -> length v3 = 4%nat ->
  writes 4 i (fun data => y4_4 data i (yregister 1 v0) (yregister 1 v1) (yregister 1 v2) (yregister 1 v3)) [v0; v1; v2; v3].
Proof.
  intros L0 L1 L2 L3. apply (writes_stores zero) with (es := seq 0 4); [repeat constructor; assumption|upto|upto|]. intros data m. unfold y4_4. len4 v0. len4 v1. len4 v2. len4 v3.
  match goal with |- context [struct_block _ _ _ [[?a0; ?a1; ?a2; ?a3]; [?b0; ?b1; ?b2; ?b3]; [?c0; ?c1; ?c2; ?c3]; [?d0; ?d1; ?d2; ?d3]]] =>
    transitivity (stores (flat_map (fun p => blocks_at (fst p) (snd p))
      [(data + i 0, [[a0; b0]; [c0; d0]]); (data + i 1, [[a1; b1]; [c1; d1]]); (data + i 2, [[a2; b2]; [c2; d2]]); (data + i 3, [[a3; b3]; [c3; d3]])]) m) end.
  - cbn [flat_map blocks_at fst snd app length]. rewrite !Z.add_assoc. reflexivity.
  - rewrite <- stores_blocks. reflexivity.
Qed.
Lemma interleave_y4_ok {A} (zero : A) va i vs : Forall (fun v => length v = 4%nat) vs -> (2 <= length vs <= 8)%nat ->
  writes 4 i (fun data => interleave_y4 zero va data i vs) vs.
Proof.
  intros F L.
  destruct vs as [|v0 [|v1 [|v2 [|v3 [|v4 [|v5 [|v6 [|v7 [|v8 vs]]]]]]]]]; cbn [length] in L; try lia; split_forall; unfold interleave_y4; cbn [map].
  - now apply (y4_2_ok zero).
  - now apply y4_3_ok.
  - now apply (y4_4_ok zero).
  - eapply (writes_seq 4 i _ (fun data => scatter_all zero _ data i) [v0; v1; v2; v3] [v4]); [repeat constructor; assumption|reflexivity|now apply (y4_4_ok zero)|now apply yscatter_writes].
  - eapply (writes_seq 4 i _ (fun data => y4_2 data i _ _) [v0; v1; v2; v3] [v4; v5]); [repeat constructor; assumption|reflexivity|now apply (y4_4_ok zero)|now apply (y4_2_ok zero)].
  - eapply (writes_seq 4 i _ (fun data => y4_3 zero va data i _ _ _) [v0; v1; v2; v3] [v4; v5; v6]); [repeat constructor; assumption|reflexivity|now apply (y4_4_ok zero)|now apply y4_3_ok].
  - eapply (writes_seq 4 i _ (fun data => y4_4 data i _ _ _ _) [v0; v1; v2; v3] [v4; v5; v6; v7]); [repeat constructor; assumption|reflexivity|now apply (y4_4_ok zero)|now apply (y4_4_ok zero)].
Qed.

Theorem avx_interleave_impl_ok {A} (zero : A) va n kind i vs : In n [4; 8; 16]%nat -> kind_ok (Z.of_nat n) kind i -> Forall (fun v => length v = n) vs -> (2 <= length vs <= 8)%nat ->
  writes n i (fun data => avx_interleave_impl zero va n kind data i vs) vs.
Proof.
  intros [<-|[<-|[<-|[]]]] K F L; unfold avx_interleave_impl.
  - now apply interleave_y4_ok.
  - now apply interleave_y8_ok.
  - now apply interleave_y16_ok.
Qed.

(** ** Reading *)
Section Reads.
  Context {A : Type} (zero : A) (i : Z -> Z) (m : memory A).
  Lemma row_loads_ok n r cnt data f : available i m n r data f -> (cnt <= r)%nat -> row_loads n cnt data i m = Some (map (fun e => map (f e) (seq 0 cnt)) (seq 0 n)).
  Proof.
    intros H Hc. unfold row_loads, tab.
    assert (G : forall es, (forall e, In e es -> (e < n)%nat) -> sequence (map (fun e => mem_load m (data + i (Z.of_nat e)) cnt) es) = Some (map (fun e => map (f e) (seq 0 cnt)) es)).
    { induction es as [|e es IH]; intros Hes; [reflexivity|]. cbn [map sequence]. rewrite (load_row i m n r data f e cnt H Hc (Hes e (or_introl eq_refl))).
      rewrite IH; [reflexivity|]. intros x Hx. apply Hes. now right. }
    apply G. intros e He. apply in_seq in He. lia.
  Qed.
  Lemma dy16_2_ok data f : available i m 16 2 data f -> dy16_2 data i m = Some (rows 16 2 f).
  Proof using. intros H. unfold dy16_2. rewrite (row_loads_ok 16 2 2 data f) by (auto; lia). reflexivity. Qed.
  Lemma dy16_34_ok k data f : available i m 16 4 data f -> In k [3; 4]%nat -> dy16_34 k data i m = Some (rows 16 k f).
  Proof using. intros H Hk. unfold dy16_34. rewrite (row_loads_ok 16 4 4 data f) by (auto; lia). destruct Hk as [<-|[<-|[]]]; reflexivity. Qed.
  Lemma dy16_58_ok k data f : available i m 16 8 data f -> In k [5; 6; 7; 8]%nat -> dy16_58 k data i m = Some (rows 16 k f).
  Proof using. intros H Hk. unfold dy16_58. rewrite (row_loads_ok 16 8 8 data f) by (auto; lia). destruct Hk as [<-|[<-|[<-|[<-|[]]]]]; reflexivity. Qed.

  (** the entries of successive structs lie one after the other *)
  Lemma contiguous n s data f : available i m n s data f -> kind_ok (Z.of_nat n) (Successive s) i -> (0 < s)%nat ->
    forall j, (j < n * s)%nat -> m (data + i 0 + Z.of_nat j) = Some (f (j / s) (j mod s))%nat.
  Proof using.
    intros H K Hs j Hj. assert (Q : (j / s < n)%nat) by (apply Nat.div_lt_upper_bound; lia).
    rewrite <- (H (j / s)%nat (j mod s)%nat Q) by (apply Nat.mod_upper_bound; lia). f_equal. unfold member.
    rewrite (K (Z.of_nat (j / s))) by lia. pose proof (Nat.div_mod j s ltac:(lia)). nia.
  Qed.
  Lemma yload_at s data f o a : available i m 8 s data f -> kind_ok 8 (Successive s) i -> (0 < s)%nat -> a = data + i 0 + Z.of_nat o -> (o + 8 <= 8 * s)%nat ->
    yload m a = Some (yregister 2 (map (fun j => f (j / s)%nat (j mod s)%nat) (seq o 8))).
  Proof using.
    intros H K Hs -> Ho. unfold yload. rewrite (mem_load_f m (fun j => f (j / s)%nat (j mod s)%nat) 8 _ o); [reflexivity|].
    intros c Hc. rewrite <- (contiguous 8 s data f H K Hs (o + c)) by lia. f_equal. lia.
  Qed.
  Lemma dy8_2_ok kind data f : kind_ok 8 kind i -> available i m 8 2 data f -> dy8_2 zero kind data i m = Some (rows 8 2 f).
  Proof using.
    intros K H. assert (G : dy8_2_any data i m = Some (rows 8 2 f)).
    { unfold dy8_2_any. rewrite (row_loads_ok 8 2 2 data f) by (auto; lia). reflexivity. }
    unfold dy8_2. destruct kind as [|[|[|[|s]]]]; try exact G. clear G. unfold dy8_2_successive.
    pose proof K as K'. cbn [kind_ok] in K'.
    rewrite (yload_at 2 data f 0) by (auto; lia). rewrite (yload_at 2 data f 8) by (auto; try lia; rewrite (K' 4) by lia; lia). reflexivity.
  Qed.
  Lemma dy8_34_any_ok k data f : available i m 8 4 data f -> In k [3; 4]%nat -> dy8_34_any k data i m = Some (rows 8 k f).
  Proof using. intros H Hk. unfold dy8_34_any. rewrite (row_loads_ok 8 4 4 data f) by (auto; lia). destruct Hk as [<-|[<-|[]]]; reflexivity. Qed.
  Definition packed3 (kind : index_kind) : bool := match kind with Successive 3 => true | _ => false end.
  Lemma dy8_3_ok kind data f : kind_ok 8 kind i -> available i m 8 (if packed3 kind then 3 else 4) data f -> dy8_3 zero kind data i m = Some (rows 8 3 f).
  Proof using.
    intros K H. unfold dy8_3. destruct kind as [|[|[|[|[|s]]]]]; cbn [packed3] in H; try (apply dy8_34_any_ok; [exact H|cbn; auto]).
    unfold dy8_3_successive. rewrite (yload_at 3 data f 0) by (auto; lia). rewrite (yload_at 3 data f 8) by (auto; lia).
    rewrite (yload_at 3 data f 16) by (auto; lia). reflexivity.
  Qed.
  Lemma dy8_4_ok kind data f : kind_ok 8 kind i -> available i m 8 4 data f -> dy8_4 zero kind data i m = Some (rows 8 4 f).
  Proof using.
    intros K H. unfold dy8_4. destruct kind as [|[|[|[|[|[|s]]]]]]; try (apply dy8_34_any_ok; [exact H|cbn; auto]).
    unfold dy8_4_successive. pose proof K as K'. cbn [kind_ok] in K'.
    rewrite (yload_at 4 data f 0) by (auto; lia). rewrite (yload_at 4 data f 8) by (auto; try lia; rewrite (K' 2) by lia; lia).
    rewrite (yload_at 4 data f 16) by (auto; try lia; rewrite (K' 4) by lia; lia). rewrite (yload_at 4 data f 24) by (auto; try lia; rewrite (K' 6) by lia; lia). reflexivity.
  Qed.
  Lemma dy8_6_ok data f : kind_ok 8 (Successive 6) i -> available i m 8 6 data f -> dy8_6_successive zero data i m = Some (rows 8 6 f).
  Proof using.
    intros K H. unfold dy8_6_successive.
    rewrite (yload_at 6 data f 0) by (auto; lia). rewrite (yload_at 6 data f 8) by (auto; lia). rewrite (yload_at 6 data f 16) by (auto; lia).
    rewrite (yload_at 6 data f 24) by (auto; lia). rewrite (yload_at 6 data f 32) by (auto; lia). rewrite (yload_at 6 data f 40) by (auto; lia). reflexivity.
  Qed.
  Lemma dy4_2_ok data f : available i m 4 2 data f -> dy4_2 data i m = Some (rows 4 2 f).
  Proof using. intros H. unfold dy4_2. rewrite (row_loads_ok 4 2 2 data f) by (auto; lia). reflexivity. Qed.

  Lemma avx_members_read_ge n k kind : (k <= avx_members_read n k kind)%nat.
  Proof using.
    unfold avx_members_read. fold (packed3 kind).
    do 17 (destruct n as [|n]; [try apply Nat.le_refl; do 8 (destruct k as [|k]; [try destruct (packed3 kind); lia|]); lia|]). apply Nat.le_refl.
  Qed.
  Theorem avx_deinterleave_ok n k kind data f : In n [4; 8; 16]%nat -> (2 <= k <= 8)%nat -> kind_ok (Z.of_nat n) kind i ->
    available i m n (avx_members_read n k kind) data f -> avx_deinterleave_impl zero n k kind data i m = Some (rows n k f).
  Proof using.
    intros Hn Hk K H.
    assert (Ks : In k [2; 3; 4; 5; 6; 7; 8]%nat) by (do 9 (destruct k as [|k]; [cbn; lia|]); lia).
    destruct Hn as [<-|[<-|[<-|[]]]]; unfold avx_deinterleave_impl.
    - assert (R : avx_members_read 4 k kind = k) by reflexivity. rewrite R in H.
      assert (P : forall j, (j + 2 <= k)%nat -> dy4_2 (data + Z.of_nat j) i m = Some (rows 4 2 (fun e c => f e (j + c)%nat))).
      { intros j Hj. apply dy4_2_ok. eapply available_le; [|apply available_shift; [|exact H]; lia]. lia. }
      assert (P0 : dy4_2 data i m = Some (rows 4 2 f)) by (apply dy4_2_ok; eapply available_le; [|exact H]; lia).
      pose proof (P 2%nat) as P2. pose proof (P 4%nat) as P4. pose proof (P 6%nat) as P6.
      pose proof (gather_at zero i m 4 k data f 2 H) as G2. pose proof (gather_at zero i m 4 k data f 4 H) as G4. pose proof (gather_at zero i m 4 k data f 6 H) as G6.
      change (Z.of_nat 2) with 2 in *. change (Z.of_nat 4) with 4 in *. change (Z.of_nat 6) with 6 in *. clear P.
      destruct Ks as [<-|[<-|[<-|[<-|[<-|[<-|[<-|[]]]]]]]]; unfold deinterleave_y4;
        rewrite ?G2, ?G4, ?G6, ?P0, ?P2, ?P4, ?P6 by lia; cbn [obind]; reflexivity.
    - change (Z.of_nat 8) with 8 in K.
      destruct (Nat.eq_dec k 2) as [->|N2]; [now apply dy8_2_ok|]. destruct (Nat.eq_dec k 3) as [->|N3]; [now apply dy8_3_ok|].
      assert (R4 : (4 <= avx_members_read 8 k kind)%nat) by (destruct Ks as [<-|[<-|[<-|[<-|[<-|[<-|[<-|[]]]]]]]]; try congruence; unfold avx_members_read; fold (packed3 kind); try destruct (packed3 kind); lia).
      pose proof (dy8_4_ok kind data f K (available_le i m 8 _ 4 data f R4 H)) as P0.
      pose proof (available_shift i m 8 _ data f 4 R4 H) as HS. change (Z.of_nat 4) with 4 in HS.
      pose proof (gather_at zero i m 8 _ data f 4 H) as G4. change (Z.of_nat 4) with 4 in G4.
      destruct Ks as [<-|[<-|[<-|[<-|[<-|[<-|[<-|[]]]]]]]]; try congruence; unfold deinterleave_y8.
      + exact P0.
      + rewrite P0, G4 by (unfold avx_members_read; lia). reflexivity.
      + assert (G : (r <-- dy8_4 zero kind data i m; s <-- dy8_2 zero kind (data + 4) i m; Some (r ++ s)) = Some (rows 8 6 f)).
        { rewrite P0. cbn [obind]. rewrite (dy8_2_ok kind (data + 4) _ K HS). reflexivity. }
        destruct kind as [|[|[|[|[|[|[|[|s]]]]]]]]; try exact G. now apply dy8_6_ok.
      + rewrite P0. cbn [obind]. rewrite (dy8_3_ok kind (data + 4) (fun e c => f e (4 + c)%nat) K); [reflexivity|].
        unfold avx_members_read in HS; fold (packed3 kind) in HS. destruct (packed3 kind); exact HS.
      + rewrite P0. cbn [obind]. rewrite (dy8_4_ok kind (data + 4) _ K HS). reflexivity.
    - destruct Ks as [<-|[<-|[<-|[<-|[<-|[<-|[<-|[]]]]]]]]; unfold deinterleave_y16; cbn [avx_members_read] in H;
        [now apply dy16_2_ok|apply dy16_34_ok|apply dy16_34_ok|apply dy16_58_ok|apply dy16_58_ok|apply dy16_58_ok|apply dy16_58_ok]; auto; cbn; auto 10.
  Qed.
End Reads.
