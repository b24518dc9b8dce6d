(** The AVX shuffle helpers as functions of the vector entries. *)
From Coq Require Import ZArith List Bool Lia.
From Verif.Spec Require Import Seq VectorSpec ShuffleSpec.
From Verif.Model Require Import Word SseReg SseMove SimdArray SseInt SseMask Shuffle AvxReg AvxMove AvxShuffle.
From Verif.Proof Require Import WordP SseMoveP SseIntP SseEmulP SeqP ShuffleP AvxMoveP AvxVecP.
Import ListNotations.
Local Open Scope nat_scope.

Lemma ypack_app {w} (l h : list (word w)) : length l = 16 / w -> ypack (l ++ h) = Ymm (pack l) (pack h).
Proof.
  intros L. unfold ypack, to_ymm. rewrite <- L, firstn_app, skipn_app, firstn_all, skipn_all, Nat.sub_diag. cbn [firstn skipn].
  now rewrite app_nil_r.
Qed.
Lemma ypack_halves {w} (x : list (word w)) : ypack x = Ymm (pack (firstn (16 / w) x)) (pack (skipn (16 / w) x)).
Proof. reflexivity. Qed.
Lemma split_halves {w} (x : list (word w)) : width_ok w -> length x = 32 / w ->
  exists l h, x = l ++ h /\ length l = 16 / w /\ length h = 16 / w /\ ypack x = Ymm (pack l) (pack h).
Proof.
  intros Hw L. exists (firstn (16 / w) x), (skipn (16 / w) x).
  assert (32 / w = 16 / w + 16 / w) by (destruct Hw as [->|[->| ->]]; reflexivity).
  rewrite firstn_skipn, firstn_length, skipn_length. repeat split; lia.
Qed.
Lemma ypack_inj_app {w} (l h : list (word w)) : length l = 16 / w -> Ymm (pack l) (pack h) = ypack (l ++ h).
Proof. intros. now rewrite ypack_app. Qed.

Lemma map_named_x {A} (x y : list A) ps r : picks x y ps r -> map Some r = map (named x y) ps.
Proof. auto. Qed.

(** both halves *)
Lemma halves1 {w} f (g : list (word w) -> list (word w) -> Prop) (x : list (word w)) :
  width_ok w -> length x = 32 / w ->
  (forall l, length l = 16 / w -> exists r, f (pack l) = pack r /\ length r = 16 / w /\ g l r) ->
  exists r, ymap1 f (ypack x) = ypack r /\ g (firstn (16 / w) x) (firstn (16 / w) r) /\ g (skipn (16 / w) x) (skipn (16 / w) r).
Proof.
  intros Hw L H. destruct (split_halves x Hw L) as (l & h & -> & Ll & Lh & ->).
  destruct (H l Ll) as (r & E & Lr & G). destruct (H h Lh) as (r' & E' & Lr' & G').
  exists (r ++ r'). rewrite ypack_app by auto. unfold ymap1. cbn [lo128 hi128]. rewrite E, E'. split; auto.
  rewrite <- Ll at 1 3. rewrite <- Lr at 1 2. rewrite !firstn_app, !skipn_app, !firstn_all, !skipn_all, !Nat.sub_diag. cbn [firstn skipn app].
  now rewrite !app_nil_r.
Qed.
Lemma halves2 {w} f (g : list (word w) -> list (word w) -> list (word w) -> Prop) (x y : list (word w)) :
  width_ok w -> length x = 32 / w -> length y = 32 / w ->
  (forall l m, length l = 16 / w -> length m = 16 / w -> exists r, f (pack l) (pack m) = pack r /\ length r = 16 / w /\ g l m r) ->
  exists r, ymap2 f (ypack x) (ypack y) = ypack r /\ g (firstn (16 / w) x) (firstn (16 / w) y) (firstn (16 / w) r) /\
    g (skipn (16 / w) x) (skipn (16 / w) y) (skipn (16 / w) r).
Proof.
  intros Hw L L' H. destruct (split_halves x Hw L) as (l & h & -> & Ll & Lh & ->).
  destruct (split_halves y Hw L') as (m & k & -> & Lm & Lk & ->).
  destruct (H l m Ll Lm) as (r & E & Lr & G). destruct (H h k Lh Lk) as (r' & E' & Lr' & G').
  exists (r ++ r'). rewrite ypack_app by auto. unfold ymap2. cbn [lo128 hi128]. rewrite E, E'. split; auto.
  rewrite !firstn_app, !skipn_app, Ll, Lm, Lr, Nat.sub_diag. cbn [firstn skipn app].
  rewrite !app_nil_r, !firstn_all2, !skipn_all2 by lia. cbn [app]. auto.
Qed.
Lemma picks_length {A} (x y : list A) ps r : picks x y ps r -> length r = length ps.
Proof. unfold picks. intros H. apply (f_equal (@length _)) in H. now rewrite !map_length in H. Qed.

Lemma ypermuteLo d0 d1 d2 d3 (x : list (word 2)) : length x = 16 -> d0 <= 3 -> d1 <= 3 -> d2 <= 3 -> d3 <= 3 ->
  exists r, ymem_permuteLo 8 d0 d1 d2 d3 (ypack x) = ypack r /\
    picks (firstn 8 x) [] [d0; d1; d2; d3; 4; 5; 6; 7] (firstn 8 r) /\ picks (skipn 8 x) [] [d0; d1; d2; d3; 4; 5; 6; 7] (skipn 8 r).
Proof.
  intros L H0 H1 H2 H3. apply (halves1 (w := 2) (mem_permuteLo 8 d0 d1 d2 d3) (fun l r => picks l [] _ r)); [unfold width_ok; auto|exact L|].
  intros l Ll. destruct (mem_permuteLo_pack d0 d1 d2 d3 l) as (r & E & P); auto. exists r. split; auto. split; auto. exact (picks_length _ _ _ _ P).
Qed.
Lemma ypermuteHi d0 d1 d2 d3 (x : list (word 2)) : length x = 16 -> 4 <= d0 <= 7 -> 4 <= d1 <= 7 -> 4 <= d2 <= 7 -> 4 <= d3 <= 7 ->
  exists r, ymem_permuteHi 8 d0 d1 d2 d3 (ypack x) = ypack r /\
    picks (firstn 8 x) [] [0; 1; 2; 3; d0; d1; d2; d3] (firstn 8 r) /\ picks (skipn 8 x) [] [0; 1; 2; 3; d0; d1; d2; d3] (skipn 8 r).
Proof.
  intros L H0 H1 H2 H3. apply (halves1 (w := 2) (mem_permuteHi 8 d0 d1 d2 d3) (fun l r => picks l [] _ r)); [unfold width_ok; auto|exact L|].
  intros l Ll. destruct (mem_permuteHi_pack d0 d1 d2 d3 l) as (r & E & P); auto. exists r. split; auto. split; auto. exact (picks_length _ _ _ _ P).
Qed.
Lemma ypermute_ps d0 d1 d2 d3 (x : list (word 4)) : length x = 8 -> d0 <= 3 -> d1 <= 3 -> d2 <= 3 -> d3 <= 3 ->
  exists r, ymem_permute_ps 8 d0 d1 d2 d3 (ypack x) = ypack r /\
    picks (firstn 4 x) [] [d0; d1; d2; d3] (firstn 4 r) /\ picks (skipn 4 x) [] [d0; d1; d2; d3] (skipn 4 r).
Proof.
  intros L H0 H1 H2 H3. apply (halves1 (w := 4) (mem_permute_ps 8 d0 d1 d2 d3) (fun l r => picks l [] _ r)); [unfold width_ok; auto|exact L|].
  intros l Ll. destruct (mem_permute4_pack d0 d1 d2 d3 l) as (r & E & _ & P); auto. exists r. split; auto. split; auto. exact (picks_length _ _ _ _ P).
Qed.
Lemma yshuffle_ps d0 d1 d2 d3 (x y : list (word 4)) : length x = 8 -> length y = 8 -> d0 <= 3 -> d1 <= 3 -> 8 <= d2 <= 11 -> 8 <= d3 <= 11 ->
  exists r, ymem_shuffle_ps 8 d0 d1 d2 d3 (ypack x) (ypack y) = ypack r /\
    picks (firstn 4 x) (firstn 4 y) [d0; d1; d2; d3] (firstn 4 r) /\ picks (skipn 4 x) (skipn 4 y) [d0; d1; d2; d3] (skipn 4 r).
Proof.
  intros L L' H0 H1 H2 H3. apply (halves2 (w := 4) (mem_shuffle4 8 d0 d1 d2 d3) (fun l m r => picks l m _ r)); [unfold width_ok; auto|exact L|exact L'|].
  intros l m Ll Lm. destruct (mem_shuffle4_pack d0 d1 d2 d3 l m) as (r & E & P); auto. exists r. split; auto. split; auto. exact (picks_length _ _ _ _ P).
Qed.

Lemma ypermute_pd d0 d1 d2 d3 (x : list (word 8)) : length x = 4 -> d0 <= 1 -> d1 <= 1 -> 2 <= d2 <= 3 -> 2 <= d3 <= 3 ->
  exists r, ymem_permute_pd 8 d0 d1 d2 d3 (ypack x) = ypack r /\ picks x [] [d0; d1; d2; d3] r.
Proof.
  intros L H0 H1 H2 H3. explode_to 4 x L.
  assert (C0 : d0 = 0 \/ d0 = 1) by lia. assert (C1 : d1 = 0 \/ d1 = 1) by lia.
  assert (C2 : d2 = 2 \/ d2 = 3) by lia. assert (C3 : d3 = 2 \/ d3 = 3) by lia.
  match goal with |- context [picks ?l _ _ _] => exists (map (fun p => nth p l (w0 8)) [d0; d1; d2; d3]) end.
  two C0; two C1; two C2; two C3; split; reflexivity.
Qed.
Lemma yshuffle_pd d0 d1 d2 d3 (x y : list (word 8)) : length x = 4 -> length y = 4 -> d0 <= 1 -> 8 <= d1 <= 9 -> 2 <= d2 <= 3 -> 10 <= d3 <= 11 ->
  exists r, ymem_shuffle_pd 8 d0 d1 d2 d3 (ypack x) (ypack y) = ypack r /\ picks x y [d0; d1; d2; d3] r.
Proof.
  intros L L' H0 H1 H2 H3. explode_to 4 x L. explode_to 4 y L'.
  assert (C0 : d0 = 0 \/ d0 = 1) by lia. assert (C1 : d1 = 8 \/ d1 = 9) by lia.
  assert (C2 : d2 = 2 \/ d2 = 3) by lia. assert (C3 : d3 = 10 \/ d3 = 11) by lia.
  match goal with |- context [picks ?l ?m _ _] => exists [nth d0 l (w0 8); nth (d1 - 8) m (w0 8); nth d2 l (w0 8); nth (d3 - 8) m (w0 8)] end.
  two C0; two C1; two C2; two C3; split; reflexivity.
Qed.
Lemma ypermute4x64 d0 d1 d2 d3 (x : list (word 8)) : length x = 4 -> d0 <= 3 -> d1 <= 3 -> d2 <= 3 -> d3 <= 3 ->
  exists r, ymem_permute4x64 8 d0 d1 d2 d3 (ypack x) = ypack r /\ picks x [] [d0; d1; d2; d3] r.
Proof.
  intros L H0 H1 H2 H3. unfold ymem_permute4x64, permute4x64.
  destruct (imm2_fields d0 d1 d2 d3) as (-> & -> & -> & ->); try lia.
  assert (U : units (ypack x) = pack x).
  { unfold units, ypack, to_ymm, pack, to_reg. cbn [lo128 hi128]. rewrite <- concat_app, <- map_app, firstn_skipn. reflexivity. }
  rewrite U, !lane_pack by lia.
  exists (map (fun p => nth p x (w0 8)) [d0; d1; d2; d3]). split.
  - unfold ypack, to_ymm, to_reg. cbn [map firstn skipn Nat.div Nat.divmod fst snd concat Nat.sub]. now rewrite !app_nil_r.
  - unfold picks. cbn [map]. rewrite <- !(nth_named_x (w0 8) x []) by lia. reflexivity.
Qed.

Lemma blend_pack (a b : list (word 4)) imm : length a = 4 -> length b = 4 ->
  blend 8 4 (pack a) (pack b) imm = pack (map (fun i => if Nat.odd (imm / Nat.pow 2 i) then nth i b (w0 4) else nth i a (w0 4)) [0; 1; 2; 3]).
Proof.
  intros La Lb. unfold blend. change (2 * 8 / 4) with 4. cbn [seq flat_map map]. unfold pack at 9, to_reg. cbn [map concat].
  assert (G : forall i, i < 4 -> lane 4 (if Nat.odd (imm / Nat.pow 2 i) then pack b else pack a) i = enc (if Nat.odd (imm / Nat.pow 2 i) then nth i b (w0 4) else nth i a (w0 4))).
  { intros i Hi. destruct (Nat.odd _); apply lane_pack; lia. }
  rewrite !G by lia. reflexivity.
Qed.
Lemma yblend8 d0 d1 d2 d3 d4 d5 d6 d7 (x y : list (word 4)) : length x = 8 -> length y = 8 ->
  d0 = 0 \/ d0 = 8 -> d1 = 1 \/ d1 = 9 -> d2 = 2 \/ d2 = 10 -> d3 = 3 \/ d3 = 11 ->
  d4 = 4 \/ d4 = 12 -> d5 = 5 \/ d5 = 13 -> d6 = 6 \/ d6 = 14 -> d7 = 7 \/ d7 = 15 ->
  exists r, ymem_blend d0 d1 d2 d3 d4 d5 d6 d7 (ypack x) (ypack y) = ypack r /\ picks x y [d0; d1; d2; d3; d4; d5; d6; d7] r.
Proof.
  intros L L' H0 H1 H2 H3 H4 H5 H6 H7. explode_to 8 x L. explode_to 8 y L'.
  unfold ymem_blend, yblend. rewrite !ypack_halves. cbn [lo128 hi128 firstn skipn Nat.div Nat.divmod fst snd Nat.sub].
  rewrite !blend_pack by reflexivity. eexists. split; [symmetry; apply ypack_app; reflexivity|].
  two H0; two H1; two H2; two H3; two H4; two H5; two H6; two H7; reflexivity.
Qed.
Lemma blend16_pack (a b : list (word 2)) imm : length a = 8 -> length b = 8 ->
  blend 8 2 (pack a) (pack b) imm = pack (map (fun i => if Nat.odd (imm / Nat.pow 2 i) then nth i b (w0 2) else nth i a (w0 2)) [0; 1; 2; 3; 4; 5; 6; 7]).
Proof.
  intros La Lb. unfold blend. change (2 * 8 / 2) with 8. cbn [seq flat_map map]. unfold pack at 17, to_reg. cbn [map concat].
  assert (G : forall i, i < 8 -> lane 2 (if Nat.odd (imm / Nat.pow 2 i) then pack b else pack a) i = enc (if Nat.odd (imm / Nat.pow 2 i) then nth i b (w0 2) else nth i a (w0 2))).
  { intros i Hi. destruct (Nat.odd _); apply lane_pack; lia. }
  rewrite !G by lia. reflexivity.
Qed.
Lemma odd_div_testbit a i : Nat.odd (a / 2 ^ i) = Nat.testbit a i.
Proof. now rewrite <- Nat.bit0_odd, Nat.div_pow2_bits. Qed.
Lemma selector_testbit sels : Forall (fun s => s = 0 \/ s = 1) sels -> forall i, Nat.testbit (selector_bits sels) i = Nat.eqb (nth i sels 0) 1.
Proof.
  induction 1 as [|s ss Hs _ IH]; intros i.
  - cbn [selector_bits]. rewrite Nat.bits_0. now destruct i.
  - cbn [selector_bits]. destruct i as [|i]; cbn [nth].
    + rewrite Nat.bit0_odd, Nat.odd_add_mul_2. now destruct Hs as [->| ->].
    + rewrite <- IH. destruct Hs as [->| ->]; [apply Nat.testbit_even_succ'|rewrite Nat.add_comm; apply Nat.testbit_odd_succ'].
Qed.
(** entry i of the result is selected by selector i mod 8 *)
Lemma detail_blend16_pack sels (x y : list (word 2)) : length sels = 16 -> Forall (fun s => s = 0 \/ s = 1) sels ->
  length x = 16 -> length y = 16 ->
  exists r, detail_blend16 sels (ypack x) (ypack y) = ypack r /\ length r = 16 /\
    forall i, i < 16 -> nth i r (w0 2) = if Nat.eqb (nth (Nat.modulo i 8) sels 0) 1 then nth i y (w0 2) else nth i x (w0 2).
Proof.
  intros Ls Fs Lx Ly. unfold detail_blend16, yblend_epi16, ymap2. rewrite !ypack_halves. cbn [lo128 hi128]. change (16 / 2) with 8. change (8 / 4) with 2.
  rewrite !blend16_pack by (rewrite ?firstn_length, ?skipn_length; lia).
  eexists. split; [symmetry; apply ypack_app; reflexivity|]. split; [reflexivity|].
  rewrite Nat.mod_mod by lia.
  assert (B : forall i, i < 8 -> Nat.odd (selector_bits sels mod 256 / 2 ^ i) = Nat.eqb (nth i sels 0) 1).
  { intros i Hi. rewrite odd_div_testbit. change 256 with (2 ^ 8). rewrite Nat.mod_pow2_bits_low by auto. now apply selector_testbit. }
  intros i Hi. destruct (Nat.ltb_spec i 8) as [H8|H8].
  - rewrite (Nat.mod_small i 8) by auto. rewrite app_nth1 by (cbn; lia).
    rewrite <- (B i H8).
    assert (F : forall l : list (word 2), length l = 16 -> nth i l (w0 2) = nth i (firstn 8 l) (w0 2)).
    { intros l Ll. rewrite <- (firstn_skipn 8 l) at 1. apply app_nth1. rewrite firstn_length. lia. }
    rewrite (F x Lx), (F y Ly).
    do 8 (destruct i as [|i]; [reflexivity|]). lia.
  - assert (Q : exists j, i = 8 + j /\ j < 8) by (exists (i - 8); lia). destruct Q as (j & -> & Hj).
    replace ((8 + j) mod 8) with j by (rewrite (Nat.add_comm 8 j), <- (Nat.mul_1_l 8) at 1; rewrite Nat.mod_add by lia; now rewrite Nat.mod_small).
    rewrite app_nth2 by (cbn; lia). rewrite map_length. cbn [length]. replace (8 + j - 8) with j by lia.
    rewrite <- (B j Hj).
    assert (F : forall l : list (word 2), length l = 16 -> nth (8 + j) l (w0 2) = nth j (skipn 8 l) (w0 2)).
    { intros l Ll. rewrite <- (firstn_skipn 8 l) at 1. rewrite app_nth2; rewrite firstn_length, Ll; [f_equal|]; cbn [Nat.min]; lia. }
    rewrite (F x Lx), (F y Ly).
    do 8 (destruct j as [|j]; [reflexivity|]). lia.
Qed.
