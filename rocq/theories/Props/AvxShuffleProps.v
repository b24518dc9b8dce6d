(** the shuffle helpers of the 256-bit registers *)
From Coq Require Import ZArith List Bool Lia.
From Verif.Spec Require Import Seq ShuffleSpec.
From Verif.Model Require Import Word SseReg SseMove SseInt Shuffle AvxReg AvxMove AvxShuffle.
Import ListNotations.
Local Open Scope Z_scope.
From Verif.Proof Require AvxShuffleMain.

(** C44: for every entry type, all register contents and all template arguments that name a half, Mem::permute128,
    Mem::shuffle128 and Reg::permute128 consist of the two named halves (Const0: zeros). *)
Theorem C44_avx_halves :
  forall w (x y : list (word w)), w = 2%nat \/ w = 4%nat \/ w = 8%nat ->
    length x = (32 / w)%nat -> length y = (32 / w)%nat ->
    (forall l h, In l [0; 1; 16]%nat -> In h [0; 1; 16]%nat ->
       ymem_permute128 8 0 l h (ypack x) = ypack (half_named (w0 w) (16 / w) x y l ++ half_named (w0 w) (16 / w) x y h)) /\
    (forall l h, In l [0; 1; 8; 9]%nat -> In h [0; 1; 8; 9]%nat ->
       ymem_shuffle128 8 0 l h (ypack x) (ypack y) = ypack (half_named (w0 w) (16 / w) x y l ++ half_named (w0 w) (16 / w) x y h) /\
       yreg_permute128 h l (ypack x) (ypack y) = ypack (half_named (w0 w) (16 / w) x y l ++ half_named (w0 w) (16 / w) x y h)).
Proof. exact AvxShuffleMain.C44_avx_halves_main. Qed.
Print Assumptions C44_avx_halves.

Example C44_avx_halves_ex :
  map uval (ylanes 8 (ymem_permute128 8 0 16 0 (ypack (map (mkw 8) [1; 2; 3; 4])))) = [0; 0; 1; 2] /\
  map uval (ylanes 8 (ymem_shuffle128 8 0 1 8 (ypack (map (mkw 8) [1; 2; 3; 4])) (ypack (map (mkw 8) [5; 6; 7; 8])))) = [3; 4; 5; 6].
Proof.
  vm_compute. auto.
Qed.

(** C44: Mem::shuffle and Reg::shuffle of 256-bit registers, for all template arguments that pass the static_asserts: the
    double version consists of the named entries; the float version does so in each half. *)
Theorem C44_avx_shuffle :
  (forall d0 d1 d2 d3 (x y : list (word 8)), length x = 4%nat -> length y = 4%nat ->
     (d0 <= 1 -> 8 <= d1 <= 9 -> 2 <= d2 <= 3 -> 10 <= d3 <= 11 ->
     exists r, ymem_shuffle_pd 8 d0 d1 d2 d3 (ypack x) (ypack y) = ypack r /\
       yreg_shuffle_pd d3 d2 d1 d0 (ypack x) (ypack y) = ypack r /\ picks x y [d0; d1; d2; d3] r)%nat) /\
  (forall d0 d1 d2 d3 (x y : list (word 4)), length x = 8%nat -> length y = 8%nat ->
     (d0 <= 3 -> d1 <= 3 -> 8 <= d2 <= 11 -> 8 <= d3 <= 11 ->
     exists r, ymem_shuffle_ps 8 d0 d1 d2 d3 (ypack x) (ypack y) = ypack r /\
       yreg_shuffle_ps d3 d2 d1 d0 (ypack x) (ypack y) = ypack r /\
       picks (firstn 4 x) (firstn 4 y) [d0; d1; d2; d3] (firstn 4 r) /\
       picks (skipn 4 x) (skipn 4 y) [d0; d1; d2; d3] (skipn 4 r))%nat).
Proof. exact AvxShuffleMain.C44_avx_shuffle_main. Qed.
Print Assumptions C44_avx_shuffle.

Example C44_avx_shuffle_ex :
  map uval (ylanes 8 (ymem_shuffle_pd 8 1 8 3 10 (ypack (map (mkw 8) [1; 2; 3; 4])) (ypack (map (mkw 8) [5; 6; 7; 8])))) = [2; 5; 4; 7] /\
  picks [1; 2; 3; 4] [5; 6; 7; 8] [1; 8; 3; 10]%nat [2; 5; 4; 7].
Proof.
  split; vm_compute; reflexivity.
Qed.

(** C44: the permutations of one 256-bit register, for all template arguments that pass the static_asserts: permute of
    doubles and permute4x64 consist of the named entries; permute of floats, permuteLo and permuteHi do so in each half.
    Reg::permute takes the same positions in reverse order, also for 128-bit registers. *)
Theorem C44_avx_permute :
  (forall d0 d1 d2 d3 (x : list (word 8)), length x = 4%nat -> (d0 <= 1 -> d1 <= 1 -> 2 <= d2 <= 3 -> 2 <= d3 <= 3 ->
     exists r, ymem_permute_pd 8 d0 d1 d2 d3 (ypack x) = ypack r /\ yreg_permute_pd d3 d2 d1 d0 (ypack x) = ypack r /\
       picks x [] [d0; d1; d2; d3] r)%nat) /\
  (forall d0 d1 d2 d3 (x : list (word 8)), length x = 4%nat -> (d0 <= 3 -> d1 <= 3 -> d2 <= 3 -> d3 <= 3 ->
     exists r, ymem_permute4x64 8 d0 d1 d2 d3 (ypack x) = ypack r /\ picks x [] [d0; d1; d2; d3] r)%nat) /\
  (forall d0 d1 d2 d3 (x : list (word 4)), length x = 8%nat -> (d0 <= 3 -> d1 <= 3 -> d2 <= 3 -> d3 <= 3 ->
     exists r, ymem_permute_ps 8 d0 d1 d2 d3 (ypack x) = ypack r /\ yreg_permute_ps d3 d2 d1 d0 (ypack x) = ypack r /\
       picks (firstn 4 x) [] [d0; d1; d2; d3] (firstn 4 r) /\ picks (skipn 4 x) [] [d0; d1; d2; d3] (skipn 4 r))%nat) /\
  (forall d0 d1 d2 d3 (x : list (word 2)), length x = 16%nat -> (d0 <= 3 -> d1 <= 3 -> d2 <= 3 -> d3 <= 3 ->
     exists r, ymem_permuteLo 8 d0 d1 d2 d3 (ypack x) = ypack r /\
       picks (firstn 8 x) [] [d0; d1; d2; d3; 4; 5; 6; 7] (firstn 8 r) /\
       picks (skipn 8 x) [] [d0; d1; d2; d3; 4; 5; 6; 7] (skipn 8 r))%nat) /\
  (forall d0 d1 d2 d3 (x : list (word 2)), length x = 16%nat -> (4 <= d0 <= 7 -> 4 <= d1 <= 7 -> 4 <= d2 <= 7 -> 4 <= d3 <= 7 ->
     exists r, ymem_permuteHi 8 d0 d1 d2 d3 (ypack x) = ypack r /\
       picks (firstn 8 x) [] [0; 1; 2; 3; d0; d1; d2; d3] (firstn 8 r) /\
       picks (skipn 8 x) [] [0; 1; 2; 3; d0; d1; d2; d3] (skipn 8 r))%nat) /\
  (forall d0 d1 (x : list (word 8)), length x = 2%nat -> (d0 <= 1 -> d1 <= 1 ->
     exists r, reg_permute_pd d1 d0 (pack x) = pack r /\ picks x [] [d0; d1] r)%nat) /\
  (forall d0 d1 d2 d3 (x : list (word 4)), length x = 4%nat -> (d0 <= 3 -> d1 <= 3 -> d2 <= 3 -> d3 <= 3 ->
     exists r, reg_permute_ps d3 d2 d1 d0 (pack x) = pack r /\ picks x [] [d0; d1; d2; d3] r)%nat).
Proof. exact AvxShuffleMain.C44_avx_permute_main. Qed.
Print Assumptions C44_avx_permute.

Example C44_avx_permute_ex :
  map uval (ylanes 8 (ymem_permute4x64 8 3 0 0 2 (ypack (map (mkw 8) [5; 6; 7; 8])))) = [8; 5; 5; 7] /\
  map uval (ylanes 4 (ymem_permute_ps 8 3 2 1 0 (ypack (map (mkw 4) [1; 2; 3; 4; 5; 6; 7; 8])))) = [4; 3; 2; 1; 8; 7; 6; 5].
Proof.
  vm_compute. auto.
Qed.

(** C44: Mem::blend of 256-bit float and 32-bit integer registers takes entry i from the named operand. *)
Theorem C44_avx_blend :
  forall d0 d1 d2 d3 d4 d5 d6 d7 (x y : list (word 4)), length x = 8%nat -> length y = 8%nat ->
     (d0 = 0 \/ d0 = 8 -> d1 = 1 \/ d1 = 9 -> d2 = 2 \/ d2 = 10 -> d3 = 3 \/ d3 = 11 ->
      d4 = 4 \/ d4 = 12 -> d5 = 5 \/ d5 = 13 -> d6 = 6 \/ d6 = 14 -> d7 = 7 \/ d7 = 15 ->
     exists r, ymem_blend d0 d1 d2 d3 d4 d5 d6 d7 (ypack x) (ypack y) = ypack r /\
       picks x y [d0; d1; d2; d3; d4; d5; d6; d7] r)%nat.
Proof. exact AvxShuffleMain.C44_avx_blend_main. Qed.
Print Assumptions C44_avx_blend.

Example C44_avx_blend_ex :
  map uval (ylanes 4 (ymem_blend 0 9 10 3 4 5 6 15 (ypack (map (mkw 4) [1; 2; 3; 4; 5; 6; 7; 8])) (ypack (map (mkw 4) [11; 12; 13; 14; 15; 16; 17; 18])))) =
  [1; 12; 13; 4; 5; 6; 7; 18].
Proof.
  vm_compute. reflexivity.
Qed.

(** Finding: Detail::blend with sixteen selectors for 16-bit entries truncates the selectors to eight bits, which the
    instruction applies to both halves: for all selectors and operands, entry i is selected by selector i modulo 8, and
    the selectors 8 to 15 have no effect. *)
Theorem C44_avx_blend16_refuted :
  forall sels (x y : list (word 2)), length sels = 16%nat -> Forall (fun s => s = 0%nat \/ s = 1%nat) sels ->
    length x = 16%nat -> length y = 16%nat ->
    exists r, detail_blend16 sels (ypack x) (ypack y) = ypack r /\ length r = 16%nat /\
      forall i, (i < 16)%nat -> nth i r (w0 2) = if Nat.eqb (nth (i mod 8) sels 0%nat) 1 then nth i y (w0 2) else nth i x (w0 2).
Proof. exact AvxShuffleMain.C44_avx_blend16_refuted_main. Qed.
Print Assumptions C44_avx_blend16_refuted.

Example C44_avx_blend16_refuted_ex :
  map uval (ylanes 2 (detail_blend16 (repeat 0%nat 8 ++ repeat 1%nat 8) (ypack (repeat (mkw 2 5) 16)) (ypack (repeat (mkw 2 6) 16)))) = repeat 5 16.
Proof.
  vm_compute. reflexivity.
Qed.

(** C44: broadcast<Index>() of the 8-entry float_v fills the vector with entry Index modulo 8. *)
Theorem C44_avx_broadcast :
  forall index (x : list (word 4)), length x = 8%nat ->
    exists v, nth_error x (index mod 8) = Some v /\ avx_broadcast_float 0 index (ypack x) = ypack (repeat v 8).
Proof. exact AvxShuffleMain.C44_avx_broadcast_main. Qed.
Print Assumptions C44_avx_broadcast.

Example C44_avx_broadcast_ex :
  map uval (ylanes 4 (avx_broadcast_float 0 14 (ypack (map (mkw 4) [1; 2; 3; 4; 5; 6; 7; 8])))) = repeat 7 8.
Proof.
  vm_compute. reflexivity.
Qed.

(** Finding: float_v::operator[] with a permutation (the 256-bit float_v) returns the vector unchanged, for every permutation
    and every vector with different entries at the named positions. *)
Theorem C44_avx_permutation_refuted :
  forall (x : list (word 4)) perm i, length x = 8%nat -> (i < 8)%nat ->
    nth i x (w0 4) <> nth (Z.to_nat (nth i perm 0)) x (w0 4) ->
    exists r, avx_v_permute (ypack x) perm = ypack r /\ nth i r (w0 4) <> nth (Z.to_nat (nth i perm 0)) x (w0 4).
Proof. exact AvxShuffleMain.C44_avx_permutation_refuted_main. Qed.
Print Assumptions C44_avx_permutation_refuted.

Example C44_avx_permutation_refuted_ex :
  map uval (ylanes 4 (avx_v_permute (ypack (map (mkw 4) [1; 2; 3; 4; 5; 6; 7; 8])) [7; 6; 5; 4; 3; 2; 1; 0])) = [1; 2; 3; 4; 5; 6; 7; 8].
Proof.
  vm_compute. reflexivity.
Qed.
