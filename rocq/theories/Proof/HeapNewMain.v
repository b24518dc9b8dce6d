(** operator new of vectors, of SimdArray and of the helper classes for aligned objects (proofs). *)
From Coq Require Import ZArith List Bool Lia.
From Verif.Spec Require Import NativeSpec LayoutSpec HeapSpec.
From Verif.Model Require Import SplitSize SimdArray SseBuild SseMove MemoryClass Malloc ElementRef HeapNew.
Import ListNotations.
Local Open Scope Z_scope.
From Verif.Proof Require Import SplitSizeP SimdArrayP ElementRefP HeapNewP.

Lemma base_pow2 i t : exists k, 0 <= k <= 5 /\ aligned_base i = 2 ^ k /\ exists j, 0 <= j <= k /\ vector_align i t = 2 ^ j.
Proof.
  destruct (detail_max_ok (vector_align i TFloat) (map (vector_align i) [TDouble; TULLong; TLLong; TULong; TLong; TUInt; TInt; TUShort; TShort; TUChar; TSChar])) as (I & M).
    change (detail_max (vector_align i TFloat) _) with (aligned_base i) in I, M.
    assert (P : forall u, exists j, 0 <= j <= 5 /\ vector_align i u = 2 ^ j).
    { intros u. destruct i, u; ((exists 0; split; [lia|reflexivity]) || (exists 1; split; [lia|reflexivity]) || (exists 2; split; [lia|reflexivity]) || (exists 3; split; [lia|reflexivity]) || (exists 4; split; [lia|reflexivity]) || (exists 5; split; [lia|reflexivity])). }
    assert (Q : exists u, aligned_base i = vector_align i u). { change (vector_align i TFloat :: map (vector_align i) ?l) with (map (vector_align i) (TFloat :: l)) in I. apply in_map_iff in I as (u & U & _). now exists u. }
    destruct Q as (u & U). destruct (P u) as (k & K & E). exists k. split; [exact K|]. split; [congruence|]. destruct (P t) as (j & J & F). exists j. split; [|exact F]. split; [lia|].
    assert (L : vector_align i t <= aligned_base i). { apply M. change (vector_align i TFloat :: map (vector_align i) ?l) with (map (vector_align i) (TFloat :: l)). apply in_map. destruct t; cbn; tauto. }
    rewrite F, U, E in L. apply (Z.pow_le_mono_r_iff 2); lia.
Qed.

Lemma C85_aligned_base_main :
  forall posix_memalign owned i size p, system_ok posix_memalign owned -> 0 <= size -> size + 32 <= 2 ^ 64 ->
    aligned_base_new posix_memalign i size = Some p -> forall t, room_for owned p size (vector_align i t).
Proof.
  intros posix owned i size p S N B H t.
  pose proof (base_pow2 i t) as A.
  destruct A as (k & K & E & j & J & F). unfold aligned_base_new in H. rewrite E in H.
  assert (P5 : 2 ^ k <= 2 ^ 5) by (apply Z.pow_le_mono_r; lia). change (2 ^ 5) with 32 in P5.
  destruct (operator_new_ok posix owned k size p S ltac:(lia) N ltac:(lia) H) as (D & O). split; [|exact O].
  rewrite F. apply Z.divide_trans with (2 ^ Z.max k 3); [apply pow2_divide; lia|exact D].
Qed.

Lemma C85_malloc_vector_main :
  forall posix_memalign owned i sizeof_t n p, system_ok posix_memalign owned -> 0 <= n -> 1 <= sizeof_t -> n * sizeof_t + 32 <= 2 ^ 64 ->
    malloc posix_memalign (aligned_base i) sizeof_t AlignOnVector n = Some p -> forall t, room_for owned p (n * sizeof_t) (vector_align i t).
Proof.
  intros posix owned i st n p S N St B H t. destruct (base_pow2 i t) as (k & K & E & j & J & F). unfold malloc, malloc_bytes in H. cbn [alignment_of] in H. rewrite E in H.
  assert (P5 : 2 ^ k <= 2 ^ 5) by (apply Z.pow_le_mono_r; lia). change (2 ^ 5) with 32 in P5.
  assert (SZ : size_t (n * st) = n * st) by (unfold size_t; apply Z.mod_small; split; [nia|lia]). rewrite SZ in H.
  destruct (operator_new_ok posix owned k (n * st) p S ltac:(lia) ltac:(nia) ltac:(lia) H) as (D & O). split; [|exact O].
  rewrite F. apply Z.divide_trans with (2 ^ Z.max k 3); [apply pow2_divide; lia|exact D].
Qed.

Lemma C85_array_new_partial_main :
  forall posix_memalign owned native bound e n k p, system_ok posix_memalign owned ->
    widths_ok native -> (forall b, bound = Some b -> 0 <= b) -> 0 <= e -> (1 <= n)%nat ->
    (forall b m, bound = Some b -> native m = true -> Z.of_nat m * 2 ^ e <= 2 ^ b) ->
    0 <= k -> Z.of_nat n <= 2 ^ k < 2 * Z.of_nat n -> 2 ^ k * 2 ^ e <= 2 ^ 62 ->
    native n = true \/ 2 ^ k * 2 ^ e <= 8 \/ (exists b, bound = Some b /\ 2 ^ b < 2 ^ k * 2 ^ e) ->
    array_new posix_memalign native bound (2 ^ e) n = Some p ->
    let object := simdarray_placement native bound (2 ^ e) n in room_for owned p (p_size object) (p_align object).
Proof.
  intros posix owned native bound e n k p S Hw Hb He N V K Hk L C H. cbv zeta. unfold array_new in H.
  destruct (placement_ok native bound e Hw Hb He n n ltac:(lia)) as (q & j & Q & J & A & Sz & _). fold (simdarray_placement native bound (2 ^ e) n) in A, Sz.
  pose proof (np2 n k N Hk K) as E. rewrite Q, Nat2Z.inj_pow in E. apply Z.pow_inj_r in E; [|lia|lia|lia]. rewrite <- Z.pow_add_r in L, C by lia.
  assert (J62 : 2 ^ j <= 2 ^ 62) by (etransitivity; [apply Z.pow_le_mono_r; [lia|]|exact L]; lia).
  assert (SB : 0 <= p_size (simdarray_placement native bound (2 ^ e) n) <= 2 ^ 63).
  { rewrite Sz. assert (P : 0 < 2 ^ j) by (apply Z.pow_pos_nonneg; lia). destruct (round_up_spec (Z.of_nat n * 2 ^ e) (2 ^ j) P) as (R & _). assert (0 < 2 ^ e) by (apply Z.pow_pos_nonneg; lia).
    assert (Z.of_nat n * 2 ^ e <= 2 ^ 62). { etransitivity; [|exact L]. rewrite Z.pow_add_r by lia. apply Z.mul_le_mono_nonneg_r; lia. } change (2 ^ 63) with (2 ^ 62 + 2 ^ 62). split; [nia|lia]. }
  assert (G : exists a, 0 <= a /\ 2 ^ a <= 2 ^ 62 /\ array_new_alignment native bound (2 ^ e) n = 2 ^ a /\ j <= Z.max a 3).
  { unfold array_new_alignment. destruct (native n) eqn:NV.
    - destruct Hw as [_ W]. destruct (W n NV) as (r & R). exists (Z.of_nat r + e). assert (E2 : Z.of_nat n * 2 ^ e = 2 ^ (Z.of_nat r + e)) by (rewrite R, Nat2Z.inj_pow, Z.pow_add_r by lia; reflexivity).
      assert (E3 : Z.of_nat r = k). { destruct (next_pow2_spec n N) as (x & X1 & X2 & X3). rewrite Q in X1. apply Nat.pow_inj_r in X1; [|lia]. subst x. assert (r = q) by (apply (pow2_range_unique r q n); rewrite R in *; lia). lia. }
      split; [lia|]. split; [rewrite E3; exact L|]. split; [exact E2|]. lia.
    - assert (N2 : (2 <= n)%nat) by (apply (not_native_ge2 native Hw); [lia|exact NV]). destruct (half n k N2 Hk K) as (K1 & LS). set (l := left_size n) in *.
      assert (L1 : (1 <= l)%nat). { assert (0 < 2 ^ (k - 1)) by (apply Z.pow_pos_nonneg; lia). lia. }
      destruct (placement_ok native bound e Hw Hb He l l ltac:(lia)) as (q' & a & Q' & JA & AA & _). exists a. split; [lia|].
      assert (LK : Z.of_nat l <= 2 ^ (k - 1) < 2 * Z.of_nat l) by lia. pose proof (np2 l (k - 1) L1 LK ltac:(lia)) as E'. 
      split; [|split; [exact AA|]].
      + rewrite Q', Nat2Z.inj_pow in E'. apply Z.pow_inj_r in E'; [|lia|lia|lia]. etransitivity; [apply Z.pow_le_mono_r; [lia|]|exact L]; lia.
      + destruct C as [C|[C|(b & B & C)]]; [discriminate C| |].
        * change 8 with (2 ^ 3) in C. apply Z.pow_le_mono_r_iff in C; lia.
        * pose proof (Hb b B) as B0. apply Z.pow_lt_mono_r_iff in C; [|lia|lia]. pose proof (align_given native bound e He l l ltac:(lia)) as GV. rewrite AA, E', <- Z.pow_add_r, B, bounded_pow2, Z.min_r in GV by lia.
          pose proof (align_bound native bound e Hw Hb He b n n B (fun m => V b m B) ltac:(lia)) as UB. fold (simdarray_placement native bound (2 ^ e) n) in UB. rewrite A in UB.
          apply Z.pow_le_mono_r_iff in GV; [|lia|lia]. apply Z.pow_le_mono_r_iff in UB; lia. }
  destruct G as (a & A0 & A62 & AE & JA). rewrite AE in H.
  destruct (operator_new_ok posix owned a _ p S A0 (proj1 SB) ltac:(change (2 ^ 64) with (2 ^ 63 + 2 ^ 62 + 2 ^ 62); lia) H) as (D & O). split; [|exact O].
  rewrite A. apply Z.divide_trans with (2 ^ Z.max a 3); [apply pow2_divide; lia|exact D].
Qed.

Lemma C85_array_new_refuted_main :
  forall native bound e n k, widths_ok native -> (forall b, bound = Some b -> 0 <= b) -> 0 <= e -> (1 <= n)%nat ->
    0 <= k -> Z.of_nat n <= 2 ^ k < 2 * Z.of_nat n ->
    native n = false -> 8 < 2 ^ k * 2 ^ e -> (forall b, bound = Some b -> 2 ^ k * 2 ^ e <= 2 ^ b) ->
    exists posix_memalign p, system_ok posix_memalign (fun _ _ => True) /\
      array_new posix_memalign native bound (2 ^ e) n = Some p /\ ~ (p_align (simdarray_placement native bound (2 ^ e) n) | p).
Proof.
  intros native bound e n k Hw Hb He N K Hk NV C B. exists (fun al _ => Some al). eexists. split; [|split; [reflexivity|]].
  { intros j s q J Hs H. injection H as <-. split; [exists 1; lia|exact I]. }
  rewrite <- Z.pow_add_r in C, B by lia. assert (N2 : (2 <= n)%nat) by (apply (not_native_ge2 native Hw); [lia|exact NV]). destruct (half n k N2 Hk K) as (K1 & LS).
  assert (A : 2 ^ (k + e) <= p_align (simdarray_placement native bound (2 ^ e) n)).
  { pose proof (align_given native bound e He n n ltac:(lia)) as GV. rewrite (np2 n k N Hk K), <- Z.pow_add_r in GV by lia. etransitivity; [|exact GV].
    destruct bound as [b|]; [|apply Z.le_refl]. pose proof (Hb b eq_refl). specialize (B b eq_refl). apply Z.pow_le_mono_r_iff in B; [|lia|lia]. rewrite bounded_pow2, Z.min_l by lia. apply Z.le_refl. }
  unfold array_new_alignment. rewrite NV. set (l := left_size n) in *. assert (L1 : (1 <= l)%nat). { assert (0 < 2 ^ (k - 1)) by (apply Z.pow_pos_nonneg; lia). lia. }
  pose proof (align_le native bound e Hw Hb He l l (k - 1) ltac:(lia) ltac:(lia) ltac:(lia)) as U. fold (simdarray_placement native bound (2 ^ e) l) in U.
  destruct (placement_ok native bound e Hw Hb He l l ltac:(lia)) as (q & j & _ & J & AA & _). fold (simdarray_placement native bound (2 ^ e) l) in AA. assert (P : 0 < 2 ^ j) by (apply Z.pow_pos_nonneg; lia). rewrite AA in *.
  assert (E2 : 2 ^ (k + e) = 2 * 2 ^ (k - 1 + e)) by (rewrite <- Z.pow_succ_r by lia; f_equal; lia).
  intros D. apply Z.divide_pos_le in D; [|destruct (Z.ltb_spec (2 ^ j) 8); lia]. destruct (Z.ltb_spec (2 ^ j) 8); lia.
Qed.

Lemma C85_mask_array_new_main :
  forall posix_memalign owned native bound e ms n p, system_ok posix_memalign owned ->
    widths_ok native -> (forall b, bound = Some b -> 0 <= b) -> 0 <= e -> (1 <= n)%nat ->
    (forall m, native m = true -> (exists j, 0 <= j /\ ms m = 2 ^ j) /\ Z.of_nat m * 2 ^ e <= Z.max 8 (ms m)) ->
    let object := mask_placement n native bound (2 ^ e) ms n in fst object + snd object <= 2 ^ 64 ->
    mask_new posix_memalign native bound (2 ^ e) ms n = Some p -> room_for owned p (fst object) (snd object).
Proof.
  intros posix owned native bound e ms n p S Hw Hb He N M object B H.
  destruct (mask_align native bound e Hw Hb He ms (fun m V => proj1 (M m V)) n n ltac:(lia)) as (Sz & j & J & A). fold object in Sz, A. unfold mask_new in H. fold object in H.
  destruct (native n) eqn:NV.
  - destruct (M n NV) as ((q & Q & E) & L). destruct Hw as [_ W]. destruct (W n NV) as (r & R).
    assert (AE : snd object = Z.max (ms n) (bounded bound (Z.of_nat (next_pow2 n) * 2 ^ e))) by (unfold object; destruct n as [|n']; [lia|]; cbn [mask_placement]; rewrite NV; reflexivity).
    assert (G : bounded bound (Z.of_nat (next_pow2 n) * 2 ^ e) <= Z.of_nat n * 2 ^ e).
    { rewrite (np2 n (Z.of_nat r) N ltac:(rewrite R, Nat2Z.inj_pow; assert (0 < 2 ^ Z.of_nat r) by (apply Z.pow_pos_nonneg; lia); change (Z.of_nat 2) with 2; lia) ltac:(lia)). rewrite R at 1. rewrite Nat2Z.inj_pow. change (Z.of_nat 2) with 2.
      rewrite <- Z.pow_add_r by lia. destruct (bounded_le bound (Z.of_nat r + e) ltac:(lia) Hb) as (g & G & ->). apply Z.pow_le_mono_r; lia. }
    destruct object as (size, a) eqn:O. cbn [fst snd] in *. rewrite E in H, AE, L.
    destruct (operator_new_ok posix owned q size p S Q Sz ltac:(lia) H) as (D & OO). split; [|exact OO]. rewrite A. apply Z.divide_trans with (2 ^ Z.max q 3); [|exact D]. apply pow2_divide. split; [exact J|].
    assert (2 ^ j <= 2 ^ Z.max q 3). { rewrite <- max_pow2 by lia. change (2 ^ 3) with 8. lia. } apply (Z.pow_le_mono_r_iff 2); lia.
  - destruct object as (size, a) eqn:O. cbn [fst snd] in *. rewrite A in H, B. destruct (operator_new_ok posix owned j size p S J Sz B H) as (D & OO). split; [|exact OO].
    rewrite A. apply Z.divide_trans with (2 ^ Z.max j 3); [apply pow2_divide; lia|exact D].
Qed.

Lemma C85_mask_array_new_array_main :
  forall posix_memalign owned native bound e ms n count p, system_ok posix_memalign owned ->
    widths_ok native -> (forall b, bound = Some b -> 0 <= b) -> 0 <= e -> (1 <= n)%nat -> 0 <= count ->
    (forall m, native m = true -> (exists j, 0 <= j /\ ms m = 2 ^ j) /\ Z.of_nat m * 2 ^ e <= Z.max 8 (ms m)) ->
    let object := mask_placement n native bound (2 ^ e) ms n in 8 + count * fst object + 2 * snd object <= 2 ^ 64 ->
    mask_new_array posix_memalign native bound (2 ^ e) ms n count = Some p ->
    (exists start s, owned start s /\ start <= p /\ p + count * fst object <= start + s) /\
    forall i, 0 <= i < count -> (snd object | p + i * fst object).
Proof.
  intros posix owned native bound e ms n count p S Hw Hb He N C M object B H.
  pose proof (mask_size_multiple native bound e Hw Hb He ms (fun m V => proj1 (M m V)) n N) as MU. fold object in MU.
  destruct (mask_align native bound e Hw Hb He ms (fun m V => proj1 (M m V)) n n ltac:(lia)) as (Sz & j & J & A). fold object in Sz, A. unfold mask_new_array in H. fold object in H.
  assert (PJ : 0 < 2 ^ j) by (apply Z.pow_pos_nonneg; lia). assert (CK : array_cookie (snd object) = 2 ^ Z.max 3 j) by (unfold array_cookie; rewrite A; change 8 with (2 ^ 3); apply max_pow2; lia).
  assert (CL : array_cookie (snd object) <= 8 + snd object) by (unfold array_cookie; lia).
  assert (CP : 0 <= array_cookie (snd object)) by (unfold array_cookie; lia).
  destruct (operator_new posix (if native n then ms n else snd object) (array_cookie (snd object) + count * fst object)) as [r|] eqn:W; [|destruct object; cbn [fst snd] in *; rewrite W in H; discriminate H].
  assert (R : room_for owned r (array_cookie (snd object) + count * fst object) (snd object)); cycle 1.
  { assert (HP : p = r + array_cookie (snd object)) by (destruct object; cbn [fst snd] in *; rewrite W in H; now injection H as <-). subst p. destruct R as (R1 & s & R2 & R3). split; [exists r, s; split; [exact R2|lia]|]. intros i I.
    apply Z.divide_add_r; [|apply Z.divide_mul_r; exact MU]. apply Z.divide_add_r; [exact R1|]. rewrite CK, A. apply pow2_divide. lia. }
  clear H. set (total := array_cookie (snd object) + count * fst object) in *. assert (T : 0 <= total) by (unfold total; nia). assert (B' : total + snd object <= 2 ^ 64) by (unfold total; lia).
  destruct (native n) eqn:NV.
  - destruct (M n NV) as ((q & Q & E) & L). destruct Hw as [_ WW]. destruct (WW n NV) as (x & X).
    assert (AE : snd object = Z.max (ms n) (bounded bound (Z.of_nat (next_pow2 n) * 2 ^ e))) by (unfold object; destruct n as [|n']; [lia|]; cbn [mask_placement]; rewrite NV; reflexivity).
    assert (G : bounded bound (Z.of_nat (next_pow2 n) * 2 ^ e) <= Z.of_nat n * 2 ^ e).
    { rewrite (np2 n (Z.of_nat x) N ltac:(rewrite X, Nat2Z.inj_pow; assert (0 < 2 ^ Z.of_nat x) by (apply Z.pow_pos_nonneg; lia); change (Z.of_nat 2) with 2; lia) ltac:(lia)). rewrite X at 1. rewrite Nat2Z.inj_pow. change (Z.of_nat 2) with 2.
      rewrite <- Z.pow_add_r by lia. destruct (bounded_le bound (Z.of_nat x + e) ltac:(lia) Hb) as (g & G & ->). apply Z.pow_le_mono_r; lia. }
    rewrite E in W, AE, L. destruct (operator_new_ok posix owned q total r S Q T ltac:(lia) W) as (D & OO). split; [|exact OO]. rewrite A. apply Z.divide_trans with (2 ^ Z.max q 3); [|exact D]. apply pow2_divide. split; [exact J|].
    assert (2 ^ j <= 2 ^ Z.max q 3). { rewrite <- max_pow2 by lia. change (2 ^ 3) with 8. lia. } apply (Z.pow_le_mono_r_iff 2); lia.
  - rewrite A in W, B'. destruct (operator_new_ok posix owned j total r S J T B' W) as (D & OO). split; [|exact OO].
    rewrite A. apply Z.divide_trans with (2 ^ Z.max j 3); [apply pow2_divide; lia|exact D].
Qed.
