(** Proofs for Model/ElementRef.v *)
From Coq Require Import ZArith List Bool Lia.
From Verif.Spec Require Import Seq NativeSpec LayoutSpec.
From Verif.Model Require Import SplitSize SimdArray SimdArrayOps ElementRef.
From Verif.Proof Require Import SeqP SplitSizeP SimdArrayP SimdArrayOpsP.
Import ListNotations.
Local Open Scope Z_scope.

Lemma round_up_multiple x a : 0 < a -> (a | x) -> round_up x a = x.
Proof. intros H (q & ->). unfold round_up. replace (q * a + a - 1) with (a - 1 + q * a) by lia. rewrite Z.div_add by lia. rewrite Z.div_small by lia. lia. Qed.
Lemma round_up_spec x a : 0 < a -> rounded_up x a (round_up x a).
Proof. intros H. unfold rounded_up, round_up. pose proof (Z.div_mod (x + a - 1) a ltac:(lia)). pose proof (Z.mod_pos_bound (x + a - 1) a H). split; [lia|]. exists ((x + a - 1) / a). reflexivity. Qed.
Lemma rounded_up_unique x a r r' : 0 < a -> rounded_up x a r -> rounded_up x a r' -> r = r'.
Proof.
  intros H (A & (p & ->)) (B & (q & ->)). assert (p < q \/ p = q \/ q < p) as [C|[->|C]] by lia; [|reflexivity|].
  - assert (p * a + a <= q * a) by nia. lia.
  - assert (q * a + a <= p * a) by nia. lia.
Qed.
Lemma round_up_nested x y a1 a : 0 < a1 -> 0 < a -> (a1 | a) -> (a1 | x) -> round_up (x + round_up y a1) a = round_up (x + y) a.
Proof.
  intros H1 H (c & ->) (q & ->). apply (rounded_up_unique (q * a1 + y) (c * a1)); [lia| |apply round_up_spec; lia].
  destruct (round_up_spec y a1 H1) as (R1 & (r & R2)). destruct (round_up_spec (q * a1 + round_up y a1) (c * a1) H) as (S1 & (t & S2)).
  split; [|exists t; exact S2]. rewrite S2 in *. rewrite R2 in *. assert (0 < c) by nia. split; [lia|].
  assert (q + r <= t * c) by nia. assert (t * c < q + r + c) by nia. nia.
Qed.
Lemma bounded_pow2 b k : 0 <= k -> 0 <= b -> bounded (Some b) (2 ^ k) = 2 ^ Z.min k b.
Proof.
  intros K B. unfold bounded. assert (E : Z.land (2 ^ k - 1) (2 ^ b - 1) = 2 ^ Z.min k b - 1); [|rewrite E; lia].
  replace (2 ^ k - 1) with (Z.ones k) by (rewrite Z.ones_equiv; lia). replace (2 ^ b - 1) with (Z.ones b) by (rewrite Z.ones_equiv; lia).
  replace (2 ^ Z.min k b - 1) with (Z.ones (Z.min k b)) by (rewrite Z.ones_equiv; lia).
  apply Z.bits_inj'. intros i I. rewrite Z.land_spec. rewrite !Z.testbit_ones_nonneg by lia. destruct (Z.ltb_spec i k), (Z.ltb_spec i b), (Z.ltb_spec i (Z.min k b)); cbn; auto; lia.
Qed.
Lemma bounded_le bound k : 0 <= k -> (forall b, bound = Some b -> 0 <= b) -> exists j, 0 <= j <= k /\ bounded bound (2 ^ k) = 2 ^ j.
Proof.
  intros K B. destruct bound as [b|]; [|exists k; cbn; lia]. specialize (B b eq_refl). exists (Z.min k b). rewrite bounded_pow2 by lia. split; [lia|reflexivity].
Qed.
Lemma max_pow2 a b : 0 <= a -> 0 <= b -> Z.max (2 ^ a) (2 ^ b) = 2 ^ Z.max a b.
Proof.
  intros A B. destruct (Z.le_ge_cases a b) as [H|H].
  - rewrite (Z.max_r a b) by lia. apply Z.max_r. apply Z.pow_le_mono_r; lia.
  - rewrite (Z.max_l a b) by lia. apply Z.max_l. apply Z.pow_le_mono_r; lia.
Qed.
Lemma pow2_divide a b : 0 <= a <= b -> (2 ^ a | 2 ^ b).
Proof. intros H. exists (2 ^ (b - a)). rewrite <- Z.pow_add_r by lia. f_equal. lia. Qed.

Section Placement.
  Variables (native : nat -> bool) (bound : option Z) (e : Z).
  Hypothesis Hw : widths_ok native.
  Hypothesis Hb : forall b, bound = Some b -> 0 <= b.
  Hypothesis He : 0 <= e.
  Lemma placement_ok f n : (1 <= n <= f)%nat ->
    exists k j, next_pow2 n = Nat.pow 2 k /\ 0 <= j <= Z.of_nat k + e /\ p_align (placement f native bound (2 ^ e) n) = 2 ^ j /\
      p_size (placement f native bound (2 ^ e) n) = round_up (Z.of_nat n * 2 ^ e) (2 ^ j) /\
      p_offsets (placement f native bound (2 ^ e) n) = tab n (fun i => i * 2 ^ e).
  Proof.
    revert n. induction f as [|f IH]; intros n N; [lia|]. destruct (next_pow2_spec n ltac:(lia)) as (k & K1 & K2 & K3). cbn [placement]. rewrite K1.
    assert (P : Z.of_nat (2 ^ k) * 2 ^ e = 2 ^ (Z.of_nat k + e)) by (rewrite Nat2Z.inj_pow, Z.pow_add_r by lia; reflexivity).
    rewrite P. destruct (bounded_le bound (Z.of_nat k + e) ltac:(lia) Hb) as (g & G1 & G2). rewrite G2.
    destruct (native n) eqn:NV.
    - destruct Hw as [_ W]. destruct (W n NV) as (q & Q). assert (q = k) by (apply (pow2_range_unique q k n); subst n; cbn; lia). subst q. rewrite Q. rewrite P.
      rewrite max_pow2 by lia. exists k, (Z.max (Z.of_nat k + e) g). rewrite Z.max_l by lia. repeat split; auto; try lia.
    - assert (N2 : (2 <= n)%nat) by (apply (not_native_ge2 native Hw); [lia|exact NV]). destruct (right_left n N2) as (R1 & R2). destruct (left_size_spec n N2) as (k0 & L1 & L2 & L3).
      destruct (IH (left_size n) ltac:(lia)) as (q0 & j0 & Q0 & J0 & A0 & S0 & O0). destruct (IH (right_size n) ltac:(lia)) as (q1 & j1 & Q1 & J1 & A1 & S1 & O1).
      rewrite A0, A1, S0, S1, O0, O1.
      assert (E0 : q0 = k0). { destruct (next_pow2_spec (left_size n) ltac:(lia)) as (x & X1 & X2 & X3). rewrite Q0 in X1. apply Nat.pow_inj_r in X1; [|lia]. subst x. apply (pow2_range_unique q0 k0 (left_size n)); lia. }
      subst q0.
      assert (E1 : (q1 <= k0)%nat). { destruct (next_pow2_spec (right_size n) ltac:(lia)) as (x & X1 & X2 & X3). rewrite Q1 in X1. apply Nat.pow_inj_r in X1; [|lia]. subst x.
        destruct (Nat.le_gt_cases q1 k0) as [|H]; [assumption|exfalso]. assert (Nat.pow 2 (S k0) <= Nat.pow 2 q1)%nat by (apply Nat.pow_le_mono_r; lia). cbn in *. lia. }
      assert (E2 : (k0 <= k)%nat). { destruct (Nat.le_gt_cases k0 k) as [|H]; [assumption|exfalso]. assert (Nat.pow 2 k < Nat.pow 2 k0)%nat by (apply Nat.pow_lt_mono_r; lia). lia. }
      assert (PL : Z.of_nat (left_size n) * 2 ^ e = 2 ^ (Z.of_nat k0 + e)) by (rewrite L1, Nat2Z.inj_pow, Z.pow_add_r by lia; reflexivity).
      rewrite PL. rewrite (round_up_multiple (2 ^ (Z.of_nat k0 + e)) (2 ^ j0)) by (try (apply Z.pow_pos_nonneg; lia); apply pow2_divide; lia).
      rewrite (round_up_multiple (2 ^ (Z.of_nat k0 + e)) (2 ^ j1)) by (try (apply Z.pow_pos_nonneg; lia); apply pow2_divide; lia).
      rewrite (max_pow2 j0 j1) by lia. rewrite max_pow2 by lia. exists k, (Z.max g (Z.max j0 j1)). split; [reflexivity|]. split; [lia|]. split; [reflexivity|]. split.
      + rewrite round_up_nested; [|apply Z.pow_pos_nonneg; lia|apply Z.pow_pos_nonneg; lia|apply pow2_divide; lia|apply pow2_divide; lia]. rewrite <- PL. rewrite <- Z.mul_add_distr_r. rewrite <- Nat2Z.inj_add. now rewrite R1.
      + rewrite <- PL. transitivity (tab (left_size n + right_size n) (fun i => i * 2 ^ e)); [|now rewrite R1]. cbn [p_offsets]. rewrite tab_app. f_equal. unfold tab. rewrite map_map. apply map_ext. intros i. ring.
  Qed.
End Placement.
