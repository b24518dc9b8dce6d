(** the shuffle helpers of the 256-bit registers (proofs). *)
From Coq Require Import ZArith List Bool Lia.
From Verif.Spec Require Import Seq ShuffleSpec.
From Verif.Model Require Import Word SseReg SseMove SseInt Shuffle AvxReg AvxMove AvxShuffle.
Import ListNotations.
Local Open Scope Z_scope.
From Verif.Proof Require Import WordP SeqP SseMoveP SseIntP SseEmulP ShuffleP AvxMoveP AvxVecP AvxShuffleP.

Lemma C44_avx_halves_main :
  forall w (x y : list (word w)), w = 2%nat \/ w = 4%nat \/ w = 8%nat ->
    length x = (32 / w)%nat -> length y = (32 / w)%nat ->
    (forall l h, In l [0; 1; 16]%nat -> In h [0; 1; 16]%nat ->
       ymem_permute128 8 0 l h (ypack x) = ypack (half_named (w0 w) (16 / w) x y l ++ half_named (w0 w) (16 / w) x y h)) /\
    (forall l h, In l [0; 1; 8; 9]%nat -> In h [0; 1; 8; 9]%nat ->
       ymem_shuffle128 8 0 l h (ypack x) (ypack y) = ypack (half_named (w0 w) (16 / w) x y l ++ half_named (w0 w) (16 / w) x y h) /\
       yreg_permute128 h l (ypack x) (ypack y) = ypack (half_named (w0 w) (16 / w) x y l ++ half_named (w0 w) (16 / w) x y h)).
Proof.
  intros w x y Hw Lx Ly.
  assert (Z : pack (repeat (w0 w) (16 / w)) = setzero 8 0) by (destruct Hw as [->|[->| ->]]; reflexivity).
  destruct (split_halves x Hw Lx) as (a & b & -> & La & Lb & Ex). destruct (split_halves y Hw Ly) as (c & d & -> & Lc & Ld & Ey).
  assert (H0 : firstn (16 / w) (a ++ b) = a) by (rewrite <- La, firstn_app, firstn_all, Nat.sub_diag; apply app_nil_r).
  assert (H1 : skipn (16 / w) (a ++ b) = b) by (rewrite <- La, skipn_app, skipn_all, Nat.sub_diag; reflexivity).
  assert (H8 : firstn (16 / w) (c ++ d) = c) by (rewrite <- Lc, firstn_app, firstn_all, Nat.sub_diag; apply app_nil_r).
  assert (H9 : skipn (16 / w) (c ++ d) = d) by (rewrite <- Lc, skipn_app, skipn_all, Nat.sub_diag; reflexivity).
  assert (LZ : length (repeat (w0 w) (16 / w)) = (16 / w)%nat) by apply repeat_length.
  rewrite Ex, Ey. split.
  - intros l h Hl Hh. cbn [In] in Hl, Hh.
    destruct Hl as [<-|[<-|[<-|[]]]]; destruct Hh as [<-|[<-|[<-|[]]]]; cbn [half_named]; rewrite ?H0, ?H1, ypack_app, ?Z by auto; reflexivity.
  - intros l h Hl Hh. cbn [In] in Hl, Hh.
    destruct Hl as [<-|[<-|[<-|[<-|[]]]]]; destruct Hh as [<-|[<-|[<-|[<-|[]]]]]; cbn [half_named]; rewrite ?H0, ?H1, ?H8, ?H9, ypack_app by auto; split; reflexivity.
Qed.

Lemma C44_avx_shuffle_main :
  (forall d0 d1 d2 d3 (x y : list (word 8)), length x = 4%nat -> length y = 4%nat ->
     (d0 <= 1 -> 8 <= d1 <= 9 -> 2 <= d2 <= 3 -> 10 <= d3 <= 11 ->
     exists r, ymem_shuffle_pd 8 d0 d1 d2 d3 (ypack x) (ypack y) = ypack r /\
       yreg_shuffle_pd d3 d2 d1 d0 (ypack x) (ypack y) = ypack r /\ picks x y [d0; d1; d2; d3] r)%nat) /\
  (forall d0 d1 d2 d3 (x y : list (word 4)), length x = 8%nat -> length y = 8%nat ->
     (d0 <= 3 -> d1 <= 3 -> 8 <= d2 <= 11 -> 8 <= d3 <= 11 ->
     exists r, ymem_shuffle_ps 8 d0 d1 d2 d3 (ypack x) (ypack y) = ypack r /\
       yreg_shuffle_ps d3 d2 d1 d0 (ypack x) (ypack y) = ypack r /\
       picks (firstn 4 x) (firstn 4 y) [d0; d1; d2; d3] (firstn 4 r) /\
       picks (skipn 4 x) (skipn 4 y) [d0; d1; d2; d3] (skipn 4 r))%nat).
Proof.
  split.
  - intros d0 d1 d2 d3 x y Lx Ly H0 H1 H2 H3. destruct (yshuffle_pd d0 d1 d2 d3 x y) as (r & E & P); auto. exists r. auto.
  - intros d0 d1 d2 d3 x y Lx Ly H0 H1 H2 H3. destruct (yshuffle_ps d0 d1 d2 d3 x y) as (r & E & P & Q); auto. exists r. auto.
Qed.

Lemma C44_avx_permute_main :
  (forall d0 d1 d2 d3 (x : list (word 8)), length x = 4%nat -> (d0 <= 1 -> d1 <= 1 -> 2 <= d2 <= 3 -> 2 <= d3 <= 3 ->
     exists r, ymem_permute_pd 8 d0 d1 d2 d3 (ypack x) = ypack r /\ yreg_permute_pd d3 d2 d1 d0 (ypack x) = ypack r /\
       picks x [] [d0; d1; d2; d3] r)%nat) /\
  (forall d0 d1 d2 d3 (x : list (word 8)), length x = 4%nat -> (d0 <= 3 -> d1 <= 3 -> d2 <= 3 -> d3 <= 3 ->
     exists r, ymem_permute4x64 8 d0 d1 d2 d3 (ypack x) = ypack r /\ picks x [] [d0; d1; d2; d3] r)%nat) /\
  (forall d0 d1 d2 d3 (x : list (word 4)), length x = 8%nat -> (d0 <= 3 -> d1 <= 3 -> d2 <= 3 -> d3 <= 3 ->
     exists r, ymem_permute_ps 8 d0 d1 d2 d3 (ypack x) = ypack r /\ yreg_permute_ps d3 d2 d1 d0 (ypack x) = ypack r /\
       picks (firstn 4 x) [] [d0; d1; d2; d3] (firstn 4 r) /\ picks (skipn 4 x) [] [d0; d1; d2; d3] (skipn 4 r))%nat) /\
  (forall d0 d1 d2 d3 (x : list (word 2)), length x = 16%nat -> (d0 <= 3 -> d1 <= 3 -> d2 <= 3 -> d3 <= 3 ->
     exists r, ymem_permuteLo 8 d0 d1 d2 d3 (ypack x) = ypack r /\
       picks (firstn 8 x) [] [d0; d1; d2; d3; 4; 5; 6; 7] (firstn 8 r) /\
       picks (skipn 8 x) [] [d0; d1; d2; d3; 4; 5; 6; 7] (skipn 8 r))%nat) /\
  (forall d0 d1 d2 d3 (x : list (word 2)), length x = 16%nat -> (4 <= d0 <= 7 -> 4 <= d1 <= 7 -> 4 <= d2 <= 7 -> 4 <= d3 <= 7 ->
     exists r, ymem_permuteHi 8 d0 d1 d2 d3 (ypack x) = ypack r /\
       picks (firstn 8 x) [] [0; 1; 2; 3; d0; d1; d2; d3] (firstn 8 r) /\
       picks (skipn 8 x) [] [0; 1; 2; 3; d0; d1; d2; d3] (skipn 8 r))%nat) /\
  (forall d0 d1 (x : list (word 8)), length x = 2%nat -> (d0 <= 1 -> d1 <= 1 ->
     exists r, reg_permute_pd d1 d0 (pack x) = pack r /\ picks x [] [d0; d1] r)%nat) /\
  (forall d0 d1 d2 d3 (x : list (word 4)), length x = 4%nat -> (d0 <= 3 -> d1 <= 3 -> d2 <= 3 -> d3 <= 3 ->
     exists r, reg_permute_ps d3 d2 d1 d0 (pack x) = pack r /\ picks x [] [d0; d1; d2; d3] r)%nat).
Proof.
  split; [|split; [|split; [|split; [|split; [|split]]]]].
  - intros d0 d1 d2 d3 x Lx H0 H1 H2 H3. destruct (ypermute_pd d0 d1 d2 d3 x) as (r & E & P); auto. exists r. auto.
  - intros. now apply ypermute4x64.
  - intros d0 d1 d2 d3 x Lx H0 H1 H2 H3. destruct (ypermute_ps d0 d1 d2 d3 x) as (r & E & P & Q); auto. exists r. auto.
  - intros. now apply ypermuteLo.
  - intros. now apply ypermuteHi.
  - intros d0 d1 x Lx H0 H1. explode_to 2%nat x Lx. assert (C0 : d0 = 0%nat \/ d0 = 1%nat) by lia. assert (C1 : d1 = 0%nat \/ d1 = 1%nat) by lia.
    match goal with |- context [picks ?l _ _ _] => exists (map (fun p => nth p l (w0 8)) [d0; d1]) end.
    two C0; two C1; split; reflexivity.
  - intros d0 d1 d2 d3 x Lx H0 H1 H2 H3. destruct (mem_permute4_pack d0 d1 d2 d3 x) as (r & E & _ & P); auto. exists r. auto.
Qed.

Lemma C44_avx_blend_main :
  forall d0 d1 d2 d3 d4 d5 d6 d7 (x y : list (word 4)), length x = 8%nat -> length y = 8%nat ->
     (d0 = 0 \/ d0 = 8 -> d1 = 1 \/ d1 = 9 -> d2 = 2 \/ d2 = 10 -> d3 = 3 \/ d3 = 11 ->
      d4 = 4 \/ d4 = 12 -> d5 = 5 \/ d5 = 13 -> d6 = 6 \/ d6 = 14 -> d7 = 7 \/ d7 = 15 ->
     exists r, ymem_blend d0 d1 d2 d3 d4 d5 d6 d7 (ypack x) (ypack y) = ypack r /\
       picks x y [d0; d1; d2; d3; d4; d5; d6; d7] r)%nat.
Proof.
  intros. now apply yblend8.
Qed.

Lemma C44_avx_blend16_refuted_main :
  forall sels (x y : list (word 2)), length sels = 16%nat -> Forall (fun s => s = 0%nat \/ s = 1%nat) sels ->
    length x = 16%nat -> length y = 16%nat ->
    exists r, detail_blend16 sels (ypack x) (ypack y) = ypack r /\ length r = 16%nat /\
      forall i, (i < 16)%nat -> nth i r (w0 2) = if Nat.eqb (nth (i mod 8) sels 0%nat) 1 then nth i y (w0 2) else nth i x (w0 2).
Proof.
  intros. now apply detail_blend16_pack.
Qed.

Lemma C44_avx_broadcast_main :
  forall index (x : list (word 4)), length x = 8%nat ->
    exists v, nth_error x (index mod 8) = Some v /\ avx_broadcast_float 0 index (ypack x) = ypack (repeat v 8).
Proof.
  intros index x L. explode_to 8%nat x L. unfold avx_broadcast_float.
  assert (E : Nat.modulo index 4 = Nat.modulo (Nat.modulo index 8) 4).
  { rewrite (Nat.div_mod index 8) at 1 by lia. replace (8 * (index / 8) + index mod 8)%nat with (index mod 8 + 2 * (index / 8) * 4)%nat by lia.
    now rewrite Nat.mod_add by lia. }
  rewrite E. pose proof (Nat.mod_upper_bound index 8 ltac:(lia)) as B. clear E. revert B. generalize (index mod 8)%nat. intros i B.
  do 8 (destruct i as [|i]; [eexists; split; reflexivity|]). lia.
Qed.

Lemma C44_avx_permutation_refuted_main :
  forall (x : list (word 4)) perm i, length x = 8%nat -> (i < 8)%nat ->
    nth i x (w0 4) <> nth (Z.to_nat (nth i perm 0)) x (w0 4) ->
    exists r, avx_v_permute (ypack x) perm = ypack r /\ nth i r (w0 4) <> nth (Z.to_nat (nth i perm 0)) x (w0 4).
Proof.
  intros x perm i L Hi N. exists x. split; [reflexivity|exact N].
Qed.
