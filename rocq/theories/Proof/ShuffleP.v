(** Shuffles, blends and transposes as functions of the vector entries. *)
From Coq Require Import ZArith List Bool Lia.
From Verif.Spec Require Import Seq VectorSpec ShuffleSpec.
From Verif.Model Require Import Word SseReg SseMove SimdArray SseInt SseMask Shuffle.
From Verif.Proof Require Import WordP SseMoveP SseIntP SseEmulP SeqP.
Import ListNotations.
Local Open Scope nat_scope.

Lemma shuffle_ps_pack (xs ys : list (word 4)) imm : length xs = 4 -> length ys = 4 ->
  shuffle_ps 8 (pack xs) (pack ys) imm =
  pack [nth (imm2 imm 0) xs (w0 4); nth (imm2 imm 1) xs (w0 4); nth (imm2 imm 2) ys (w0 4); nth (imm2 imm 3) ys (w0 4)].
Proof.
  intros H H'. unfold shuffle_ps. change (8 / 2) with 4. unfold pack at 5, to_reg.
  assert (B : forall j, imm2 imm j < length xs) by (intros; rewrite H; apply Nat.mod_upper_bound; lia).
  assert (B' : forall j, imm2 imm j < length ys) by (intros; rewrite H'; apply Nat.mod_upper_bound; lia).
  cbn [map concat]. rewrite !lane_pack by (apply B || apply B'). now rewrite app_nil_r.
Qed.
Lemma shuffle_pd_pack (xs ys : list (word 8)) imm : length xs = 2 -> length ys = 2 ->
  shuffle_pd 8 (pack xs) (pack ys) imm = pack [nth (imm mod 2) xs (w0 8); nth ((imm / 2) mod 2) ys (w0 8)].
Proof.
  intros H H'. unfold shuffle_pd. unfold pack at 3, to_reg. cbn [map concat].
  rewrite !lane_pack by (rewrite ?H, ?H'; apply Nat.mod_upper_bound; lia). now rewrite app_nil_r.
Qed.
Lemma shufflelo_pack (xs : list (word 2)) imm : length xs = 8 ->
  shufflelo_epi16 8 (pack xs) imm = pack (map (fun j => nth (imm2 imm j) xs (w0 2)) [0; 1; 2; 3] ++ skipn 4 xs).
Proof.
  intros H. unfold shufflelo_epi16. change (8 / 4) with 2.
  assert (B : forall j, imm2 imm j < length xs) by (intros j; rewrite H; pose proof (Nat.mod_upper_bound (imm / 4 ^ j) 4); unfold imm2; lia).
  unfold pack at 3, to_reg. rewrite map_app, concat_app. cbn [flat_map map concat]. rewrite !lane_pack by apply B.
  f_equal. explode_to 8 xs H. reflexivity.
Qed.
Lemma shufflehi_pack (xs : list (word 2)) imm : length xs = 8 ->
  shufflehi_epi16 8 (pack xs) imm = pack (firstn 4 xs ++ map (fun j => nth (4 + imm2 imm j) xs (w0 2)) [0; 1; 2; 3]).
Proof.
  intros H. unfold shufflehi_epi16. change (8 / 4) with 2.
  assert (B : forall j, 4 + imm2 imm j < length xs) by (intros j; rewrite H; pose proof (Nat.mod_upper_bound (imm / 4 ^ j) 4); unfold imm2; lia).
  unfold pack at 3, to_reg. rewrite map_app, concat_app. cbn [flat_map map concat]. rewrite !lane_pack by apply B.
  f_equal. explode_to 8 xs H. reflexivity.
Qed.

Lemma imm2_fields d0 d1 d2 d3 : d0 < 4 -> d1 < 4 -> d2 < 4 -> d3 < 4 ->
  let imm := d0 + d1 * 4 + d2 * 16 + d3 * 64 in imm2 imm 0 = d0 /\ imm2 imm 1 = d1 /\ imm2 imm 2 = d2 /\ imm2 imm 3 = d3.
Proof.
  intros H0 H1 H2 H3 imm. unfold imm2, imm. cbn [Nat.pow Nat.mul Nat.add].
  destruct d0 as [|[|[|[|d0]]]]; try lia; destruct d1 as [|[|[|[|d1]]]]; try lia;
  destruct d2 as [|[|[|[|d2]]]]; try lia; destruct d3 as [|[|[|[|d3]]]]; try lia; vm_compute; auto.
Qed.
Lemma nth_named_x {A} (d : A) x y p : p < length x -> p < 8 -> Some (nth p x d) = named x y p.
Proof.
  intros H H8. unfold named. destruct (Nat.ltb_spec p 8); [|lia]. symmetry. now apply nth_error_nth'.
Qed.
Lemma nth_named_y {A} (d : A) x y p : 8 <= p -> p - 8 < length y -> Some (nth (p - 8) y d) = named x y p.
Proof.
  intros H H8. unfold named. destruct (Nat.ltb_spec p 8); [lia|]. symmetry. now apply nth_error_nth'.
Qed.

Lemma mem_shuffle4_pack d0 d1 d2 d3 (x y : list (word 4)) : length x = 4 -> length y = 4 ->
  d0 <= 3 -> d1 <= 3 -> 8 <= d2 <= 11 -> 8 <= d3 <= 11 ->
  exists r, mem_shuffle4 8 d0 d1 d2 d3 (pack x) (pack y) = pack r /\ picks x y [d0; d1; d2; d3] r.
Proof.
  intros Hx Hy H0 H1 H2 H3. unfold mem_shuffle4, Y0. rewrite shuffle_ps_pack by auto.
  destruct (imm2_fields d0 d1 (d2 - 8) (d3 - 8)) as (-> & -> & -> & ->); try lia.
  eexists. split; [reflexivity|]. unfold picks. cbn [map].
  rewrite <- (nth_named_x (w0 4) x y d0), <- (nth_named_x (w0 4) x y d1), <- (nth_named_y (w0 4) x y d2), <- (nth_named_y (w0 4) x y d3) by lia.
  reflexivity.
Qed.
Lemma mem_shuffle2_pack d0 d1 (x y : list (word 8)) : length x = 2 -> length y = 2 ->
  d0 <= 1 -> 8 <= d1 <= 9 ->
  exists r, mem_shuffle2 8 d0 d1 (pack x) (pack y) = pack r /\ picks x y [d0; d1] r.
Proof.
  intros Hx Hy H0 H1. unfold mem_shuffle2, Y0. rewrite shuffle_pd_pack by auto.
  assert (E0 : (d0 + (d1 - 8) * 2) mod 2 = d0) by (rewrite Nat.mod_add by lia; apply Nat.mod_small; lia).
  assert (E1 : ((d0 + (d1 - 8) * 2) / 2) mod 2 = d1 - 8)
    by (rewrite Nat.div_add, Nat.div_small by lia; apply Nat.mod_small; lia).
  rewrite E0, E1. eexists. split; [reflexivity|]. unfold picks. cbn [map].
  rewrite <- (nth_named_x (w0 8) x y d0), <- (nth_named_y (w0 8) x y d1) by lia. reflexivity.
Qed.
Lemma mem_permute4_pack d0 d1 d2 d3 (x : list (word 4)) : length x = 4 -> d0 <= 3 -> d1 <= 3 -> d2 <= 3 -> d3 <= 3 ->
  exists r, mem_permute_ps 8 d0 d1 d2 d3 (pack x) = pack r /\ mem_permute_epi32 8 d0 d1 d2 d3 (pack x) = pack r /\
    picks x [] [d0; d1; d2; d3] r.
Proof.
  intros Hx H0 H1 H2 H3. unfold mem_permute_ps, mem_permute_epi32. rewrite shuffle_ps_pack, shuffle_epi32_pack by auto.
  cbn [map]. destruct (imm2_fields d0 d1 d2 d3) as (-> & -> & -> & ->); try lia.
  eexists. split; [reflexivity|]. split; [reflexivity|]. unfold picks. cbn [map].
  rewrite <- !(nth_named_x (w0 4) x []) by lia. reflexivity.
Qed.
Lemma mem_permuteLo_pack d0 d1 d2 d3 (x : list (word 2)) : length x = 8 -> d0 <= 3 -> d1 <= 3 -> d2 <= 3 -> d3 <= 3 ->
  exists r, mem_permuteLo 8 d0 d1 d2 d3 (pack x) = pack r /\ picks x [] [d0; d1; d2; d3; 4; 5; 6; 7] r.
Proof.
  intros Hx H0 H1 H2 H3. unfold mem_permuteLo. rewrite shufflelo_pack by auto.
  cbn [map]. destruct (imm2_fields d0 d1 d2 d3) as (-> & -> & -> & ->); try lia.
  eexists. split; [reflexivity|]. unfold picks. cbn [map app].
  rewrite <- !(nth_named_x (w0 2) x []) by lia. explode_to 8 x Hx. reflexivity.
Qed.
Lemma mem_permuteHi_pack d0 d1 d2 d3 (x : list (word 2)) : length x = 8 -> 4 <= d0 <= 7 -> 4 <= d1 <= 7 -> 4 <= d2 <= 7 -> 4 <= d3 <= 7 ->
  exists r, mem_permuteHi 8 d0 d1 d2 d3 (pack x) = pack r /\ picks x [] [0; 1; 2; 3; d0; d1; d2; d3] r.
Proof.
  intros Hx H0 H1 H2 H3. unfold mem_permuteHi. rewrite shufflehi_pack by auto.
  cbn [map]. destruct (imm2_fields (d0 - 4) (d1 - 4) (d2 - 4) (d3 - 4)) as (-> & -> & -> & ->); try lia.
  replace (4 + (d0 - 4)) with d0 by lia. replace (4 + (d1 - 4)) with d1 by lia.
  replace (4 + (d2 - 4)) with d2 by lia. replace (4 + (d3 - 4)) with d3 by lia.
  eexists. split; [reflexivity|]. unfold picks. rewrite map_app. cbn [map].
  rewrite <- !(nth_named_x (w0 2) x []) by lia. explode_to 8 x Hx. reflexivity.
Qed.
Lemma permute8_lo d0 d1 d2 d3 (x : list (word 2)) : length x = 8 -> d0 <= 3 -> d1 <= 3 -> d2 <= 3 -> d3 <= 3 ->
  (if negb (Nat.eqb d0 0 && Nat.eqb d1 1 && Nat.eqb d2 2 && Nat.eqb d3 3)
   then shufflelo_epi16 8 (pack x) (d0 + d1 * 4 + d2 * 16 + d3 * 64) else pack x) =
  pack (map (fun j => nth j x (w0 2)) [d0; d1; d2; d3] ++ skipn 4 x).
Proof.
  intros Hx H0 H1 H2 H3.
  destruct (negb _) eqn:E.
  - rewrite shufflelo_pack by auto. cbn [map]. destruct (imm2_fields d0 d1 d2 d3) as (-> & -> & -> & ->); try lia. reflexivity.
  - apply negb_false_iff in E. rewrite !andb_true_iff, !Nat.eqb_eq in E. destruct E as (((-> & ->) & ->) & ->).
    explode_to 8 x Hx. reflexivity.
Qed.
Lemma permute8_hi d4 d5 d6 d7 (x : list (word 2)) : length x = 8 -> 4 <= d4 <= 7 -> 4 <= d5 <= 7 -> 4 <= d6 <= 7 -> 4 <= d7 <= 7 ->
  (if negb (Nat.eqb d4 4 && Nat.eqb d5 5 && Nat.eqb d6 6 && Nat.eqb d7 7)
   then shufflehi_epi16 8 (pack x) ((d4 - 4) + (d5 - 4) * 4 + (d6 - 4) * 16 + (d7 - 4) * 64) else pack x) =
  pack (firstn 4 x ++ map (fun j => nth j x (w0 2)) [d4; d5; d6; d7]).
Proof.
  intros Hx H0 H1 H2 H3.
  destruct (negb _) eqn:E.
  - rewrite shufflehi_pack by auto. cbn [map]. destruct (imm2_fields (d4 - 4) (d5 - 4) (d6 - 4) (d7 - 4)) as (-> & -> & -> & ->); try lia.
    replace (4 + (d4 - 4)) with d4 by lia. replace (4 + (d5 - 4)) with d5 by lia.
    replace (4 + (d6 - 4)) with d6 by lia. replace (4 + (d7 - 4)) with d7 by lia. reflexivity.
  - apply negb_false_iff in E. rewrite !andb_true_iff, !Nat.eqb_eq in E. destruct E as (((-> & ->) & ->) & ->).
    explode_to 8 x Hx. reflexivity.
Qed.
Lemma mem_permute8_pack d0 d1 d2 d3 d4 d5 d6 d7 (x : list (word 2)) : length x = 8 ->
  d0 <= 3 -> d1 <= 3 -> d2 <= 3 -> d3 <= 3 -> 4 <= d4 <= 7 -> 4 <= d5 <= 7 -> 4 <= d6 <= 7 -> 4 <= d7 <= 7 ->
  exists r, mem_permute8 8 d0 d1 d2 d3 d4 d5 d6 d7 (pack x) = pack r /\ picks x [] [d0; d1; d2; d3; d4; d5; d6; d7] r.
Proof.
  intros Hx H0 H1 H2 H3 H4 H5 H6 H7. unfold mem_permute8. rewrite permute8_lo by auto.
  assert (Lx : length (map (fun j => nth j x (w0 2)) [d0; d1; d2; d3] ++ skipn 4 x) = 8).
  { rewrite app_length, map_length, skipn_length. cbn [length]. lia. }
  assert (G : forall j, 4 <= j <= 7 -> nth j (map (fun j => nth j x (w0 2)) [d0; d1; d2; d3] ++ skipn 4 x) (w0 2) = nth j x (w0 2)).
  { intros j Hj. rewrite app_nth2 by (rewrite map_length; cbn [length]; lia). rewrite map_length. cbn [length].
    rewrite <- (firstn_skipn 4 x) at 2. rewrite app_nth2 by (rewrite firstn_length; lia). f_equal. rewrite firstn_length. lia. }
  cbv zeta. rewrite permute8_hi by auto. eexists. split; [reflexivity|]. unfold picks. cbn [map app firstn].
  rewrite !G by auto. rewrite <- !(nth_named_x (w0 2) x []) by lia. reflexivity.
Qed.

(** blends *)
Ltac two H := destruct H as [->| ->].
Lemma mem_blend_pd_pack sse41 d0 d1 (x y : list (word 8)) : length x = 2 -> length y = 2 ->
  d0 = 0 \/ d0 = 8 -> d1 = 1 \/ d1 = 9 ->
  exists r, mem_blend_pd sse41 d0 d1 (pack x) (pack y) = Some (pack r) /\ picks x y [d0; d1] r.
Proof.
  intros Hx Hy H0 H1. unfold mem_blend_pd.
  assert (E : exists m, d0 / 8 + d1 / 8 * 2 = Z.to_nat m /\ (0 <= m < 4)%Z /\ picks x y [d0; d1] (blend_spec m x y)).
  { explode_to 2 x Hx. explode_to 2 y Hy. exists (Z.of_nat (d0 / 8 + d1 / 8 * 2)). two H0; two H1; (split; [reflexivity|split; [split; [discriminate|reflexivity]|reflexivity]]). }
  destruct E as (m & -> & Hm & P). exists (blend_spec m x y). split; [now apply blend_pd_pack|exact P].
Qed.
Lemma mem_blend_ps_pack sse41 d0 d1 d2 d3 (x y : list (word 4)) : length x = 4 -> length y = 4 ->
  d0 = 0 \/ d0 = 8 -> d1 = 1 \/ d1 = 9 -> d2 = 2 \/ d2 = 10 -> d3 = 3 \/ d3 = 11 ->
  exists r, mem_blend_ps sse41 d0 d1 d2 d3 (pack x) (pack y) = Some (pack r) /\ picks x y [d0; d1; d2; d3] r.
Proof.
  intros Hx Hy H0 H1 H2 H3. unfold mem_blend_ps. set (imm := d0 / 8 * 1 + d1 / 9 * 2 + d2 / 10 * 4 + d3 / 11 * 8).
  assert (E : exists m, imm = Z.to_nat m /\ (0 <= m < 16)%Z /\ picks x y [d0; d1; d2; d3] (blend_spec m x y)).
  { explode_to 4 x Hx. explode_to 4 y Hy. exists (Z.of_nat imm). unfold imm. two H0; two H1; two H2; two H3; (split; [reflexivity|split; [split; [discriminate|reflexivity]|reflexivity]]). }
  destruct E as (m & -> & Hm & P). exists (blend_spec m x y). split; [now apply blend_ps_pack|exact P].
Qed.
Lemma mem_blend_epi16_pack sse41 d0 d1 d2 d3 d4 d5 d6 d7 (x y : list (word 2)) : length x = 8 -> length y = 8 ->
  d0 = 0 \/ d0 = 8 -> d1 = 1 \/ d1 = 9 -> d2 = 2 \/ d2 = 10 -> d3 = 3 \/ d3 = 11 ->
  d4 = 4 \/ d4 = 12 -> d5 = 5 \/ d5 = 13 -> d6 = 6 \/ d6 = 14 -> d7 = 7 \/ d7 = 15 ->
  exists r, mem_blend_epi16 sse41 d0 d1 d2 d3 d4 d5 d6 d7 (pack x) (pack y) = pack r /\
    picks x y [d0; d1; d2; d3; d4; d5; d6; d7] r.
Proof.
  intros Hx Hy H0 H1 H2 H3 H4 H5 H6 H7. unfold mem_blend_epi16.
  set (imm := (_ + _)%nat).
  assert (E : (0 <= Z.of_nat imm < 256)%Z /\ picks x y [d0; d1; d2; d3; d4; d5; d6; d7] (blend_spec (Z.of_nat imm) x y)).
  { explode_to 8 x Hx. explode_to 8 y Hy. unfold imm. two H0; two H1; two H2; two H3; two H4; two H5; two H6; two H7; (split; [split; [discriminate|reflexivity]|reflexivity]). }
  destruct E as (Hm & P). exists (blend_spec (Z.of_nat imm) x y). split; [now apply blend_epi16_pack|exact P].
Qed.

Lemma transpose_ps_pack (a b c d : list (word 4)) : length a = 4 -> length b = 4 -> length c = 4 -> length d = 4 ->
  exists cols, transpose_ps (pack a) (pack b) (pack c) (pack d) = map pack cols /\ transposed [a; b; c; d] cols.
Proof.
  intros Ha Hb Hc Hd. explode_to 4 a Ha. explode_to 4 b Hb. explode_to 4 c Hc. explode_to 4 d Hd.
  match goal with |- context [transposed [[?a0; ?a1; ?a2; ?a3]; [?b0; ?b1; ?b2; ?b3]; [?c0; ?c1; ?c2; ?c3]; [?d0; ?d1; ?d2; ?d3]] _] =>
    exists [[a0; b0; c0; d0]; [a1; b1; c1; d1]; [a2; b2; c2; d2]; [a3; b3; c3; d3]] end.
  split; [reflexivity|]. split; [reflexivity|]. intros i j Hi Hj. cbn [length] in Hi, Hj.
  do 4 (destruct i as [|i]; [do 4 (destruct j as [|j]; [split; reflexivity|]); lia|]). lia.
Qed.
