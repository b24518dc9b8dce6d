(** The population count functions of sse/detail.h. *)
From Coq Require Import ZArith List Bool Lia.
From Verif.Spec Require Import Seq MaskSpec.
From Verif.Model Require Import SseInt SseMask.
From Verif.Proof Require Import SseEmulP SseMaskP MathP.
Import ListNotations.
Local Open Scope Z_scope.

(** * population count *)
Lemma popcnt_split a : forall b z, popcnt (a + b) z = popcnt a z + popcnt b (z / 2 ^ Z.of_nat a).
Proof.
  induction a as [|a IH]; intros b z.
  - cbn [Nat.add popcnt]. change (2 ^ Z.of_nat 0) with 1. now rewrite Z.div_1_r.
  - cbn [Nat.add popcnt]. rewrite IH. rewrite Nat2Z.inj_succ, Z.pow_succ_r, Z.div_div by lia. lia.
Qed.
Lemma popcnt_zero k : popcnt k 0 = 0.
Proof. induction k as [|k IH]; cbn [popcnt]; [reflexivity|]. now rewrite Z.div_0_l, IH. Qed.
Lemma popcnt_small n k z : 0 <= z < 2 ^ Z.of_nat n -> popcnt (n + k) z = popcnt n z.
Proof. intros H. rewrite popcnt_split, Z.div_small, popcnt_zero by exact H. lia. Qed.
Lemma popcnt_mod n : forall z, popcnt n (z mod 2 ^ Z.of_nat n) = popcnt n z.
Proof.
  induction n as [|n IH]; intros z; [reflexivity|]. cbn [popcnt]. rewrite Nat2Z.inj_succ, Z.pow_succ_r by lia.
  assert (P : 0 < 2 ^ Z.of_nat n) by (apply Z.pow_pos_nonneg; lia).
  rewrite Z.rem_mul_r by lia. rewrite (Z.mul_comm 2 (_ mod _)), Z.mod_add, Z.mod_mod by lia.
  rewrite Z.div_add, (Z.div_small (z mod 2)) by (try apply Z.mod_pos_bound; lia). now rewrite Z.add_0_l, IH.
Qed.
Lemma popcnt_count n : forall z, popcnt n z = count_spec (map (fun i => Z.testbit z (Z.of_nat i)) (seq 0 n)).
Proof.
  induction n as [|n IH]; intros z; [reflexivity|]. cbn [popcnt seq map count_spec].
  rewrite IH. change (Z.testbit z (Z.of_nat 0)) with (Z.odd z). rewrite Zmod_odd. f_equal. f_equal.
  rewrite <- seq_shift, map_map. apply map_ext. intros i. rewrite Nat2Z.inj_succ. now rewrite Z.div2_bits by lia.
Qed.

(** the two halves of a number are processed independently *)
Lemma pop_step_halves h k a b m : 0 < k <= h -> 0 <= a < 2 ^ h -> 0 <= m < 2 ^ (h - k) ->
  pop_step (b * 2 ^ h + a) (m * 2 ^ h + m) k = pop_step b m k * 2 ^ h + pop_step a m k.
Proof.
  intros Hk Ha Hm.
  assert (P : 2 ^ (h - k) <= 2 ^ h) by (apply Z.pow_le_mono_r; lia).
  unfold pop_step. rewrite land_split by lia.
  assert (S : Z.land (Z.shiftr (b * 2 ^ h + a) k) (m * 2 ^ h + m) = Z.land (Z.shiftr b k) m * 2 ^ h + Z.land (Z.shiftr a k) m).
  { assert (B : 0 <= Z.land (Z.shiftr a k) m < 2 ^ h).
    { apply (small_op andb); auto using Z.land_spec; try lia; [intros; apply Z.land_nonneg; now left|].
      rewrite Z.shiftr_div_pow2 by lia. split; [apply Z.div_pos; lia|]. apply Z.le_lt_trans with a; [|lia]. pose proof (Z.pow_pos_nonneg 2 k ltac:(lia) ltac:(lia)); apply Z.div_le_upper_bound; nia. }
    apply Z.bits_inj'. intros i Hi. rewrite Z.land_spec, Z.shiftr_spec, !testbit_split by lia.
    destruct (Z.ltb_spec i h); destruct (Z.ltb_spec (i + k) h); try lia.
    - now rewrite Z.land_spec, Z.shiftr_spec by lia.
    - rewrite Z.land_spec. assert (Z.testbit m i = false) as ->; [|now rewrite !andb_false_r].
      destruct (Z.eq_dec m 0) as [->|N]; [apply Z.bits_0|]. apply Z.bits_above_log2; [lia|].
      apply Z.lt_le_trans with (h - k); [apply Z.log2_lt_pow2; lia|lia].
    - rewrite Z.land_spec, Z.shiftr_spec by lia. do 2 f_equal. lia. }
  rewrite S. ring.
Qed.
Lemma pop_step_bound h k a m : 0 <= a -> 0 <= k -> 0 <= m -> 2 * m < 2 ^ h -> 0 <= pop_step a m k < 2 ^ h.
Proof.
  intros Ha Hk Hm H. unfold pop_step.
  assert (L : forall x, 0 <= x -> 0 <= Z.land x m <= m).
  { intros x Hx. split; [apply Z.land_nonneg; now left|]. rewrite Z.land_comm. apply Z.ldiff_le; [lia|].
    apply Z.bits_inj'. intros i Hi. rewrite Z.ldiff_spec, Z.land_spec, Z.bits_0. destruct (Z.testbit m i), (Z.testbit x i); reflexivity. }
  pose proof (L a Ha). pose proof (L (Z.shiftr a k) ltac:(apply Z.shiftr_nonneg; lia)). lia.
Qed.
Lemma pop_step_nonneg k a m : 0 <= a -> 0 <= k -> 0 <= m -> 0 <= pop_step a m k.
Proof.
  intros Ha Hk Hm. unfold pop_step.
  pose proof (proj2 (Z.land_nonneg a m) ltac:(now left)). pose proof (proj2 (Z.land_nonneg (Z.shiftr a k) m) ltac:(now right)). lia.
Qed.
Ltac ps := repeat first [lia|apply pop_step_bound|apply pop_step_nonneg].

Lemma popcnt16_halves a b : 0 <= a < 2 ^ 8 -> 0 <= b < 2 ^ 8 ->
  popcnt16 false (b * 2 ^ 8 + a) = popcnt8 false b + popcnt8 false a.
Proof.
  intros Ha Hb. unfold popcnt16, popcnt8.
  change 0x5555 with (0x55 * 2 ^ 8 + 0x55). change 0x3333 with (0x33 * 2 ^ 8 + 0x33). change 0x0f0f with (0x0f * 2 ^ 8 + 0x0f).
  rewrite (pop_step_halves 8 1 a b 0x55) by lia.
  rewrite (pop_step_halves 8 2 (pop_step a 0x55 1) _ 0x33) by ps.
  rewrite (pop_step_halves 8 4 (pop_step (pop_step a 0x55 1) 0x33 2) _ 0x0f) by ps.
  assert (X : forall z, 0 <= z -> 0 <= pop_step (pop_step (pop_step z 0x55 1) 0x33 2) 0x0f 4 < 2 ^ 8).
  { intros z Hz. ps. }
  pose proof (X a ltac:(lia)) as Xa. pose proof (X b ltac:(lia)) as Xb. revert Xa Xb.
  generalize (pop_step (pop_step (pop_step a 0x55 1) 0x33 2) 0x0f 4), (pop_step (pop_step (pop_step b 0x55 1) 0x33 2) 0x0f 4).
  intros p q Hp Hq. unfold pop_step. change 0x00ff with (Z.ones 8). rewrite !Z.land_ones, Z.shiftr_div_pow2 by lia.
  rewrite Z.div_add_l, (Z.div_small p), Z.add_0_r by lia. rewrite Z.add_comm, (Z.add_comm (q * _)), Z.mod_add by lia. rewrite !Z.mod_small by lia. reflexivity.
Qed.
Lemma popcnt16_ok z : 0 <= z < 2 ^ 16 -> popcnt16 false z = mm_popcnt_u32 z.
Proof.
  intros H. pose proof (Z.div_mod z (2 ^ 8) ltac:(lia)) as E. pose proof (Z.mod_pos_bound z (2 ^ 8) ltac:(lia)) as M.
  assert (D : 0 <= z / 2 ^ 8 < 2 ^ 8) by (split; [apply Z.div_pos; lia|apply Z.div_lt_upper_bound; lia]).
  rewrite E at 1. rewrite Z.mul_comm, popcnt16_halves, !popcnt8_ok by lia. unfold mm_popcnt_u32.
  change 32%nat with (8 + 24)%nat. rewrite (popcnt_small 8 24 (z mod _)), popcnt_mod by lia.
  rewrite (popcnt_split 8 24 z). change (8 + 24)%nat with (24 + 8)%nat. rewrite (popcnt_small 24 8 (z / _)) by (change (2 ^ Z.of_nat 24) with (2 ^ 24); lia).
  change (2 ^ Z.of_nat 8) with (2 ^ 8). lia.
Qed.
Lemma popcnt32_halves a b : 0 <= a < 2 ^ 16 -> 0 <= b < 2 ^ 16 ->
  popcnt32 false (b * 2 ^ 16 + a) = popcnt16 false b + popcnt16 false a.
Proof.
  intros Ha Hb. unfold popcnt32, popcnt16.
  change 0x55555555 with (0x5555 * 2 ^ 16 + 0x5555). change 0x33333333 with (0x3333 * 2 ^ 16 + 0x3333).
  change 0x0f0f0f0f with (0x0f0f * 2 ^ 16 + 0x0f0f). change 0x00ff00ff with (0x00ff * 2 ^ 16 + 0x00ff).
  rewrite (pop_step_halves 16 1 a b 0x5555) by lia.
  rewrite (pop_step_halves 16 2 (pop_step a 0x5555 1) _ 0x3333) by ps.
  rewrite (pop_step_halves 16 4 (pop_step (pop_step a 0x5555 1) 0x3333 2) _ 0x0f0f) by ps.
  rewrite (pop_step_halves 16 8 (pop_step (pop_step (pop_step a 0x5555 1) 0x3333 2) 0x0f0f 4) _ 0x00ff)
    by ps.
  assert (X : forall z, 0 <= z -> 0 <= pop_step (pop_step (pop_step (pop_step z 0x5555 1) 0x3333 2) 0x0f0f 4) 0x00ff 8 < 2 ^ 16).
  { intros z Hz. ps. }
  pose proof (X a ltac:(lia)) as Xa. pose proof (X b ltac:(lia)) as Xb. revert Xa Xb.
  generalize (pop_step (pop_step (pop_step (pop_step a 0x5555 1) 0x3333 2) 0x0f0f 4) 0x00ff 8),
    (pop_step (pop_step (pop_step (pop_step b 0x5555 1) 0x3333 2) 0x0f0f 4) 0x00ff 8).
  intros p q Hp Hq. unfold pop_step. change 0x0000ffff with (Z.ones 16). rewrite !Z.land_ones, Z.shiftr_div_pow2 by lia.
  rewrite Z.div_add_l, (Z.div_small p), Z.add_0_r by lia. rewrite Z.add_comm, (Z.add_comm (q * _)), Z.mod_add by lia. rewrite !Z.mod_small by lia. reflexivity.
Qed.
Lemma popcnt32_ok z : 0 <= z < 2 ^ 32 -> popcnt32 false z = mm_popcnt_u32 z.
Proof.
  intros H. pose proof (Z.div_mod z (2 ^ 16) ltac:(lia)) as E. pose proof (Z.mod_pos_bound z (2 ^ 16) ltac:(lia)) as M.
  assert (D : 0 <= z / 2 ^ 16 < 2 ^ 16) by (split; [apply Z.div_pos; lia|apply Z.div_lt_upper_bound; lia]).
  rewrite E at 1. rewrite Z.mul_comm, popcnt32_halves, !popcnt16_ok by lia. unfold mm_popcnt_u32.
  change 32%nat with (16 + 16)%nat. rewrite (popcnt_small 16 16 (z mod _)), popcnt_mod by lia.
  rewrite (popcnt_split 16 16 z). rewrite (popcnt_small 16 16 (z / _)) by (change (2 ^ Z.of_nat 16) with (2 ^ 16); lia).
  change (2 ^ Z.of_nat 16) with (2 ^ 16). lia.
Qed.
Lemma popcnt_hw n z : (n <= 32)%nat -> 0 <= z < 2 ^ Z.of_nat n -> mm_popcnt_u32 z = count_spec (map (fun i => Z.testbit z (Z.of_nat i)) (seq 0 n)).
Proof.
  intros Hn H. rewrite <- popcnt_count. unfold mm_popcnt_u32. replace 32%nat with (n + (32 - n))%nat by lia. now apply popcnt_small.
Qed.
