(** Proofs for Model/HeapNew.v *)
From Coq Require Import ZArith List Bool Lia.
From Verif.Spec Require Import Seq NativeSpec LayoutSpec HeapSpec.
From Verif.Model Require Import SplitSize SimdArray MemoryClass Malloc ElementRef HeapNew.
From Verif.Proof Require Import SeqP SplitSizeP SimdArrayP SimdArrayOpsP ElementRefP MemoryMain.
Import ListNotations.
Local Open Scope Z_scope.

(** the largest argument *)
Lemma detail_max_ok a rest : In (detail_max a rest) (a :: rest) /\ forall x, In x (a :: rest) -> x <= detail_max a rest.
Proof.
  revert a. induction rest as [|b rest IH]; intros a; cbn [detail_max]; [split; [now left|intros x [<-|[]]; lia]|].
  destruct (a >? b) eqn:E; rewrite Z.gtb_ltb in E.
  - apply Z.ltb_lt in E. destruct (IH a) as (I & M). split; [destruct I as [I|I]; [left; exact I|right; right; exact I]|]. intros x [<-|[<-|H]]; [apply M; now left|specialize (M a ltac:(now left)); lia|apply M; now right].
  - apply Z.ltb_ge in E. destruct (IH b) as (I & M). split; [now right|]. intros x [<-|H]; [specialize (M b ltac:(now left)); lia|now apply M].
Qed.
Lemma pow2_le_divide a b : 0 <= a -> 0 <= b -> 2 ^ a <= 2 ^ b -> (2 ^ a | 2 ^ b).
Proof. intros A B H. apply pow2_divide. split; [exact A|]. apply (Z.pow_le_mono_r_iff 2); lia. Qed.

(** operator new *)
Lemma operator_new_ok posix owned k n p : system_ok posix owned -> 0 <= k -> 0 <= n -> n + 2 ^ k <= 2 ^ 64 -> operator_new posix (2 ^ k) n = Some p ->
  (2 ^ Z.max k 3 | p) /\ exists s, owned p s /\ n <= s.
Proof.
  intros S K N B H. assert (P : 0 < 2 ^ k) by (apply Z.pow_pos_nonneg; lia). destruct (next_multiple_ok (2 ^ k) n P N B) as (M & _). pose proof (next_multiple_bound (2 ^ k) n ltac:(lia)) as NB.
  unfold operator_new, aligned_malloc in H. destruct (Z.ltb_spec (2 ^ k) 8) as [Q|Q]; change 8 with (2 ^ 3) in *.
  - apply Z.pow_lt_mono_r_iff in Q; [|lia|lia]. rewrite Z.max_r by lia. destruct (S 3 _ p ltac:(lia) NB H) as (A & O). split; [exact A|]. eexists. split; [exact O|lia].
  - assert (3 <= k) by (apply (Z.pow_le_mono_r_iff 2); lia). rewrite Z.max_l by lia. destruct (S k _ p ltac:(lia) NB H) as (A & O). split; [exact A|]. eexists. split; [exact O|lia].
Qed.

Section Array.
  Context (native : nat -> bool) (bound : option Z) (e : Z) (Hw : widths_ok native) (Hb : forall b, bound = Some b -> 0 <= b) (He : 0 <= e).
  Lemma np2 n k : (1 <= n)%nat -> Z.of_nat n <= 2 ^ k < 2 * Z.of_nat n -> 0 <= k -> Z.of_nat (next_pow2 n) = 2 ^ k.
  Proof using.
    intros N H K. destruct (next_pow2_spec n N) as (q & Q1 & Q2 & Q3). rewrite <- (Z2Nat.id k) in H |- * by lia. set (j := Z.to_nat k) in *.
    assert (Hp : 2 ^ Z.of_nat j = Z.of_nat (2 ^ j)) by (now rewrite Nat2Z.inj_pow). rewrite Hp in *. rewrite Q1. f_equal. f_equal. apply (pow2_range_unique q j n); lia.
  Qed.
  Lemma half n k : (2 <= n)%nat -> Z.of_nat n <= 2 ^ k < 2 * Z.of_nat n -> 0 <= k -> 1 <= k /\ Z.of_nat (left_size n) = 2 ^ (k - 1).
  Proof using.
    intros N H K. assert (K1 : 1 <= k). { destruct (Z.eq_dec k 0) as [->|]; [|lia]. change (2 ^ 0) with 1 in H. lia. } split; [exact K1|].
    destruct (left_size_spec n N) as (q & Q1 & Q2 & Q3). assert (E : 2 ^ k = 2 * 2 ^ (k - 1)) by (rewrite <- Z.pow_succ_r by lia; f_equal; lia).
    rewrite E in H. rewrite <- (Z2Nat.id (k - 1)) in H |- * by lia. set (j := Z.to_nat (k - 1)) in *.
    assert (Hp : 2 ^ Z.of_nat j = Z.of_nat (2 ^ j)) by (now rewrite Nat2Z.inj_pow). rewrite Hp in *. rewrite Q1 in *. f_equal. f_equal.
    destruct (Nat.lt_trichotomy q j) as [L|[L|L]]; [|exact L|].
    - assert (Nat.pow 2 (S q) <= Nat.pow 2 j)%nat by (apply Nat.pow_le_mono_r; lia). cbn [Nat.pow] in *. lia.
    - assert (Nat.pow 2 (S j) <= Nat.pow 2 q)%nat by (apply Nat.pow_le_mono_r; lia). cbn [Nat.pow] in *. lia.
  Qed.
  Lemma align_given f n : (1 <= n <= f)%nat -> bounded bound (Z.of_nat (next_pow2 n) * 2 ^ e) <= p_align (placement f native bound (2 ^ e) n).
  Proof using He. clear Hw Hb. destruct f as [|f]; [lia|]. intros N. cbn [placement]. destruct (native n); cbn [p_align]; lia. Qed.
  Lemma align_le f n k : (1 <= n <= f)%nat -> Z.of_nat n <= 2 ^ k < 2 * Z.of_nat n -> 0 <= k -> p_align (placement f native bound (2 ^ e) n) <= 2 ^ (k + e).
  Proof using Hw Hb He.
    intros N H K. destruct (placement_ok native bound e Hw Hb He f n N) as (q & j & Q & J & A & _). rewrite A. apply Z.pow_le_mono_r; [lia|].
    pose proof (np2 n k ltac:(lia) H K) as E. rewrite Q, Nat2Z.inj_pow in E. apply Z.pow_inj_r in E; lia.
  Qed.
  Lemma align_bound b f n : bound = Some b -> (forall m, native m = true -> Z.of_nat m * 2 ^ e <= 2 ^ b) -> (1 <= n <= f)%nat -> p_align (placement f native bound (2 ^ e) n) <= 2 ^ b.
  Proof using Hw Hb He.
    intros B V. revert n. induction f as [|f IH]; intros n N; [lia|]. cbn [placement].
    assert (G : bounded bound (Z.of_nat (next_pow2 n) * 2 ^ e) <= 2 ^ b).
    { destruct (next_pow2_spec n ltac:(lia)) as (k & K1 & _). rewrite K1, Nat2Z.inj_pow, <- Z.pow_add_r by lia. rewrite B. pose proof (Hb b B). rewrite bounded_pow2 by lia. apply Z.pow_le_mono_r; lia. }
    destruct (native n) eqn:NV; cbn [p_align]; [specialize (V n NV); lia|].
    assert (N2 : (2 <= n)%nat) by (apply (not_native_ge2 native Hw); [lia|exact NV]). destruct (right_left n N2) as (R1 & R2). destruct (left_size_spec n N2) as (k0 & L1 & L2 & L3).
    pose proof (IH (left_size n) ltac:(lia)). pose proof (IH (right_size n) ltac:(lia)). lia.
  Qed.
End Array.

Section Masks.
  Context (native : nat -> bool) (bound : option Z) (e : Z) (Hw : widths_ok native) (Hb : forall b, bound = Some b -> 0 <= b) (He : 0 <= e).
  Context (ms : nat -> Z) (Hm : forall n, native n = true -> exists j, 0 <= j /\ ms n = 2 ^ j).
  Lemma given_pow2 n : (1 <= n)%nat -> exists g, 0 <= g /\ bounded bound (Z.of_nat (next_pow2 n) * 2 ^ e) = 2 ^ g.
  Proof using Hb He.
    intros N. destruct (next_pow2_spec n N) as (k & K & _). rewrite K, Nat2Z.inj_pow, <- Z.pow_add_r by lia. destruct (bounded_le bound (Z.of_nat k + e) ltac:(lia) Hb) as (g & G & E). exists g. split; [lia|exact E].
  Qed.
  Lemma round_up_nonneg x j : 0 <= j -> 0 <= x -> 0 <= round_up x (2 ^ j).
  Proof using. intros J X. destruct (round_up_spec x (2 ^ j) ltac:(apply Z.pow_pos_nonneg; lia)) as (R & _). lia. Qed.
  Lemma mask_align f n : (1 <= n <= f)%nat -> 0 <= fst (mask_placement f native bound (2 ^ e) ms n) /\ exists j, 0 <= j /\ snd (mask_placement f native bound (2 ^ e) ms n) = 2 ^ j.
  Proof using Hw Hb He Hm.
    revert n. induction f as [|f IH]; intros n N; [lia|]. cbn [mask_placement]. destruct (given_pow2 n ltac:(lia)) as (g & G & ->). destruct (native n) eqn:NV.
    - destruct (Hm n NV) as (j & J & ->). rewrite max_pow2 by lia. cbn [fst snd]. split; [apply round_up_nonneg; [lia|apply Z.pow_nonneg; lia]|]. exists (Z.max j g). split; [lia|reflexivity].
    - assert (N2 : (2 <= n)%nat) by (apply (not_native_ge2 native Hw); [lia|exact NV]). destruct (right_left n N2) as (R1 & R2). destruct (left_size_spec n N2) as (k0 & L1 & L2 & L3).
      destruct (IH (left_size n) ltac:(lia)) as (S0 & j0 & J0 & A0). destruct (IH (right_size n) ltac:(lia)) as (S1 & j1 & J1 & A1).
      destruct (mask_placement f native bound (2 ^ e) ms (left_size n)) as (s0 & a0). destruct (mask_placement f native bound (2 ^ e) ms (right_size n)) as (s1 & a1). cbn [fst snd] in *. subst a0 a1.
      rewrite (max_pow2 j0 j1), max_pow2 by lia. split; [|exists (Z.max g (Z.max j0 j1)); split; [lia|reflexivity]]. apply round_up_nonneg; [lia|]. pose proof (round_up_nonneg s0 j1 J1 S0). lia.
  Qed.
  Lemma mask_size_multiple n : (1 <= n)%nat -> (snd (mask_placement n native bound (2 ^ e) ms n) | fst (mask_placement n native bound (2 ^ e) ms n)).
  Proof using Hw Hb He Hm.
    intros N. destruct (mask_align n n ltac:(lia)) as (_ & j & J & A). assert (P : 0 < 2 ^ j) by (apply Z.pow_pos_nonneg; lia). destruct n as [|n']; [lia|]. cbn [mask_placement] in A |- *. destruct (native (S n')); cbn [fst snd] in A |- *.
    - apply round_up_spec. lia.
    - destruct (mask_placement n' native bound (2 ^ e) ms (left_size (S n'))) as (s0 & a0). destruct (mask_placement n' native bound (2 ^ e) ms (right_size (S n'))) as (s1 & a1). cbn [fst snd] in A |- *. apply round_up_spec. lia.
  Qed.
End Masks.
