(** Facts about the size arithmetic: termination and values. *)
From Coq Require Import ZArith List Bool Lia.
From Verif.Model Require Import SplitSize.
Local Open Scope Z_scope.

Lemma log2_bounds x : 0 < x -> 2 ^ Z.log2 x <= x < 2 ^ (Z.log2 x + 1).
Proof. intros H. pose proof (Z.log2_spec x H). rewrite Z.add_1_r. lia. Qed.

(** x land (x-1) = 0 exactly for powers of two (and 0). *)
Lemma npot_done_pow2 k : 0 <= k -> npot_done (2 ^ k) = true.
Proof.
  intros Hk. unfold npot_done. apply Z.eqb_eq. rewrite Z.sub_1_r, <- Z.ones_equiv.
  rewrite Z.land_ones by lia. apply Z.mod_same. lia.
Qed.

Lemma npot_done_inv x : 0 < x -> npot_done x = true -> x = 2 ^ Z.log2 x.
Proof.
  intros Hx H. unfold npot_done in H. apply Z.eqb_eq in H.
  destruct (Z.eq_dec x (2 ^ Z.log2 x)) as [|Hne]; auto. exfalso.
  pose proof (log2_bounds x Hx) as B. pose proof (Z.log2_nonneg x).
  assert (T1 : Z.testbit x (Z.log2 x) = true) by (apply Z.bit_log2; lia).
  assert (L : Z.log2 (x - 1) = Z.log2 x).
  { apply Z.log2_unique; [lia|]. rewrite Z.add_1_r in B. lia. }
  assert (T2 : Z.testbit (x - 1) (Z.log2 x) = true).
  { rewrite <- L. apply Z.bit_log2.
    assert (0 < 2 ^ Z.log2 x) by (apply Z.pow_pos_nonneg; lia). lia. }
  assert (T : Z.testbit (Z.land x (x - 1)) (Z.log2 x) = true) by (rewrite Z.land_spec, T1, T2; auto).
  rewrite H, Z.testbit_0_l in T. discriminate.
Qed.

Lemma top_bits_lower k m x :
  0 <= m <= k -> 2 ^ k - 2 ^ m <= x < 2 ^ k ->
  forall i, m <= i < k -> Z.testbit x i = true.
Proof.
  intros Hm Hx i Hi.
  assert (E : x / 2 ^ m = Z.ones (k - m)).
  { rewrite Z.ones_equiv. symmetry. apply Z.div_unique with (r := x - (2 ^ k - 2 ^ m)).
    - left. lia.
    - replace (2 ^ k) with (2 ^ m * 2 ^ (k - m)) by (rewrite <- Z.pow_add_r by lia; f_equal; lia).
      lia. }
  replace i with ((i - m) + m) by lia.
  rewrite <- Z.div_pow2_bits by lia. rewrite E. apply Z.ones_spec_low. lia.
Qed.

Lemma top_bits_upper k m x :
  0 <= m <= k -> 0 <= x < 2 ^ k ->
  (forall i, m <= i < k -> Z.testbit x i = true) -> 2 ^ k - 2 ^ m <= x.
Proof.
  intros Hm Hx H.
  assert (E : x / 2 ^ m = Z.ones (k - m)).
  { apply Z.bits_inj'. intros i Hi. rewrite Z.div_pow2_bits by lia.
    destruct (Z.ltb_spec i (k - m)).
    - rewrite H by lia. rewrite Z.ones_spec_low; auto; lia.
    - rewrite Z.ones_spec_high by lia.
      destruct (Z.eq_dec x 0) as [->|]; [apply Z.testbit_0_l|].
      apply Z.bits_above_log2; [lia|]. apply Z.log2_lt_pow2; [lia|].
      apply Z.lt_le_trans with (2 ^ k); [lia|]. apply Z.pow_le_mono_r; lia. }
  rewrite Z.ones_equiv in E.
  pose proof (Z.mul_div_le x (2 ^ m) ltac:(apply Z.pow_pos_nonneg; lia)) as M. rewrite E in M.
  replace (2 ^ k) with (2 ^ m * 2 ^ (k - m)) by (rewrite <- Z.pow_add_r by lia; f_equal; lia).
  lia.
Qed.

Lemma step_or_bounds x k :
  2 ^ k <= x < 2 ^ (k + 1) -> 0 <= k -> x + 1 <= npot_step x <= 2 ^ (k + 1).
Proof.
  intros Hx Hk. unfold npot_step.
  assert (0 < 2 ^ k) by (apply Z.pow_pos_nonneg; lia).
  set (o := Z.lor _ _).
  assert (Ho : 0 <= o) by (unfold o; rewrite !Z.lor_nonneg, !Z.shiftr_nonneg; lia).
  assert (L : Z.log2 x = k) by (apply Z.log2_unique; rewrite ?Z.add_1_r in *; lia).
  assert (S : forall j, 0 <= j -> Z.log2 (Z.shiftr x j) <= k).
  { intros j Hj. rewrite <- L. apply Z.log2_le_mono. rewrite Z.shiftr_div_pow2 by lia.
    apply Z.div_le_upper_bound; [apply Z.pow_pos_nonneg; lia|].
    assert (1 <= 2 ^ j) by (pose proof (Z.pow_pos_nonneg 2 j); lia). nia. }
  split.
  - apply Zplus_le_compat_r. apply Z.ldiff_le; auto.
    apply Z.bits_inj'. intros i Hi. unfold o. rewrite Z.ldiff_spec, !Z.lor_spec, Z.testbit_0_l.
    destruct (Z.testbit x i); auto.
  - assert (o < 2 ^ (k + 1)); [|lia].
    destruct (Z.eq_dec o 0) as [->|]; [apply Z.pow_pos_nonneg; lia|].
    apply Z.log2_lt_pow2; [lia|]. unfold o.
    rewrite !Z.log2_lor by (rewrite ?Z.lor_nonneg, ?Z.shiftr_nonneg; lia).
    pose proof (S 1 ltac:(lia)). pose proof (S 2 ltac:(lia)). pose proof (S 5 ltac:(lia)). lia.
Qed.

Lemma step_top_bits x k m :
  0 <= k -> 0 < m <= k + 1 -> 2 ^ k <= x < 2 ^ (k + 1) -> 2 ^ (k + 1) - 2 ^ m <= x ->
  2 ^ (k + 1) - 2 ^ (m - 1) <= npot_step x.
Proof.
  intros Hk Hm Hx Hlo.
  pose proof (step_or_bounds x k Hx Hk) as B. unfold npot_step in *. set (o := Z.lor _ _) in *.
  assert (0 < 2 ^ k) by (apply Z.pow_pos_nonneg; lia).
  assert (Ho : 0 <= o) by (unfold o; rewrite !Z.lor_nonneg, !Z.shiftr_nonneg; lia).
  enough (2 ^ (k + 1) - 2 ^ (m - 1) <= o) by lia.
  apply top_bits_upper; [lia|lia|].
  intros i Hi. unfold o. rewrite !Z.lor_spec.
  destruct (Z.leb_spec m i).
  - rewrite (top_bits_lower (k + 1) m x) by lia. reflexivity.
  - rewrite Z.shiftr_spec by lia.
    destruct (Z.eq_dec m (k + 1)).
    + (* only the top bit is known *)
      assert (i = k) as -> by lia.
      assert (T : Z.testbit x k = true).
      { apply (top_bits_lower (k + 1) k x); try lia.
        assert (2 ^ (k + 1) = 2 ^ k * 2) by (rewrite Z.pow_add_r by lia; lia). lia. }
      rewrite T. reflexivity.
    + rewrite (top_bits_lower (k + 1) m x (ltac:(lia)) ltac:(lia) (i + 1)) by lia.
      now rewrite orb_true_r.
Qed.

Lemma npot_pow2 fuel k : 0 <= k -> npot fuel (2 ^ k) = Some (2 ^ k).
Proof. intros. destruct fuel; cbn [npot]; rewrite npot_done_pow2; auto. Qed.

Lemma npot_run : forall fuel x k m,
  0 <= k -> 0 <= m <= k + 1 -> 2 ^ k < x < 2 ^ (k + 1) -> 2 ^ (k + 1) - 2 ^ m <= x ->
  (Z.to_nat m < fuel)%nat -> npot fuel x = Some (2 ^ (k + 1)).
Proof.
  induction fuel as [|fuel IH]; intros x k m Hk Hm Hx Hlo Hf; [lia|].
  assert (0 < 2 ^ k) by (apply Z.pow_pos_nonneg; lia).
  cbn [npot].
  assert (ND : npot_done x = false).
  { destruct (npot_done x) eqn:E; auto. apply npot_done_inv in E; [|lia].
    assert (L : Z.log2 x = k) by (apply Z.log2_unique; rewrite ?Z.add_1_r in *; lia).
    rewrite L in E. lia. }
  rewrite ND.
  pose proof (step_or_bounds x k ltac:(lia) Hk) as B.
  assert (m = 0 \/ 0 < m) as [->|Hm0] by lia.
  { rewrite Z.pow_0_r in Hlo. replace (npot_step x) with (2 ^ (k + 1)) by lia. apply npot_pow2; lia. }
  pose proof (step_top_bits x k m Hk ltac:(lia) ltac:(lia) Hlo) as T.
  destruct (Z.eq_dec (npot_step x) (2 ^ (k + 1))) as [->|].
  - apply npot_pow2; lia.
  - apply IH with (m := m - 1); lia.
Qed.

(** NextPowerOfTwo<x> terminates and is the least power of two >= x. *)
Lemma npot_correct fuel x :
  0 < x -> (Z.to_nat (Z.log2 x) + 2 <= fuel)%nat ->
  npot fuel x = Some (if npot_done x then x else 2 ^ (Z.log2 x + 1)).
Proof.
  intros Hx Hf. destruct (npot_done x) eqn:E.
  - destruct fuel; cbn [npot]; rewrite E; auto.
  - pose proof (log2_bounds x Hx). pose proof (Z.log2_nonneg x).
    assert (2 ^ Z.log2 x <> x).
    { intros C. rewrite <- C in E. rewrite npot_done_pow2 in E by auto. discriminate. }
    rewrite npot_run with (k := Z.log2 x) (m := Z.log2 x + 1); try lia; auto.
Qed.

Lemma next_pow2_spec n :
  (0 < n)%nat ->
  exists k, (next_pow2 n = Nat.pow 2 k /\ n <= Nat.pow 2 k /\ Nat.pow 2 k < 2 * n)%nat.
Proof.
  intros Hn. unfold next_pow2. rewrite npot_correct by lia.
  set (x := Z.of_nat n). assert (Hx : 0 < x) by lia.
  pose proof (log2_bounds x Hx) as B. pose proof (Z.log2_nonneg x).
  assert (P : forall k, 0 <= k -> 2 ^ k = Z.of_nat (Nat.pow 2 (Z.to_nat k))).
  { intros k Hk. rewrite Nat2Z.inj_pow. rewrite Z2Nat.id by lia. reflexivity. }
  destruct (npot_done x) eqn:E.
  - apply npot_done_inv in E; auto. exists (Z.to_nat (Z.log2 x)).
    rewrite P in E by lia. lia.
  - assert (2 ^ Z.log2 x <> x).
    { intros C. rewrite <- C in E. rewrite npot_done_pow2 in E by auto. discriminate. }
    exists (Z.to_nat (Z.log2 x + 1)). rewrite Z.pow_add_r in B by lia.
    assert (Q : 2 ^ (Z.log2 x + 1) = Z.of_nat (Nat.pow 2 (Z.to_nat (Z.log2 x + 1)))) by (apply P; lia).
    rewrite Z.pow_add_r in * by lia. lia.
Qed.

Lemma pow2_range_unique a b n :
  (n <= Nat.pow 2 a)%nat -> (Nat.pow 2 a < 2 * n)%nat ->
  (n <= Nat.pow 2 b)%nat -> (Nat.pow 2 b < 2 * n)%nat -> a = b.
Proof.
  intros. assert (a < b \/ a = b \/ b < a)%nat as [|[|]] by lia; auto.
  - assert (Nat.pow 2 (S a) <= Nat.pow 2 b)%nat by (apply Nat.pow_le_mono_r; lia). cbn in *. lia.
  - assert (Nat.pow 2 (S b) <= Nat.pow 2 a)%nat by (apply Nat.pow_le_mono_r; lia). cbn in *. lia.
Qed.

Lemma left_size_spec n :
  (2 <= n)%nat ->
  exists k, (left_size n = Nat.pow 2 k /\ n <= 2 * left_size n /\ left_size n < n)%nat.
Proof.
  intros Hn. unfold left_size.
  pose proof (Nat.div_mod (n + 1) 2 ltac:(lia)) as D. pose proof (Nat.mod_upper_bound (n + 1) 2 ltac:(lia)).
  destruct (next_pow2_spec (Nat.div (n + 1) 2)) as (k & E1 & E2 & E3); [lia|].
  exists k. rewrite E1. repeat split; try lia.
  (* 2^k < 2*((n+1)/2) <= n+1, and for 2^k = n we would need n odd, so n = 1 *)
  assert (Nat.pow 2 k <= n)%nat by lia.
  destruct (Nat.eq_dec (Nat.pow 2 k) n) as [C|]; [|lia]. exfalso.
  destruct k; [cbn in C; lia|]. rewrite Nat.pow_succ_r' in *. lia.
Qed.

Lemma left_size_lt n : (2 <= n -> left_size n < n)%nat.
Proof. intros. destruct (left_size_spec n) as (k & ?); lia. Qed.
Lemma left_size_ge n : (2 <= n -> n - left_size n <= left_size n)%nat.
Proof. intros. destruct (left_size_spec n) as (k & ?); lia. Qed.
Lemma left_size_pos n : (2 <= n -> 1 <= left_size n)%nat.
Proof.
  intros. destruct (left_size_spec n) as (k & -> & _); auto.
  pose proof (Nat.pow_nonzero 2 k). lia.
Qed.

Lemma left_size_pow2 k : left_size (Nat.pow 2 (S k)) = Nat.pow 2 k.
Proof.
  assert (P : (0 < Nat.pow 2 k)%nat) by (pose proof (Nat.pow_nonzero 2 k); lia).
  unfold left_size.
  assert (E : Nat.div (Nat.pow 2 (S k) + 1) 2 = Nat.pow 2 k).
  { symmetry. apply Nat.div_unique with 1%nat; cbn; lia. }
  rewrite E. destruct (next_pow2_spec (Nat.pow 2 k) P) as (j & -> & H1 & H2).
  f_equal. apply pow2_range_unique with (Nat.pow 2 k); lia.
Qed.

Lemma equal_halves_pow2 n : (2 <= n -> n = 2 * left_size n -> exists k, n = Nat.pow 2 (S k))%nat.
Proof. intros H E. destruct (left_size_spec n H) as (k & E1 & _). exists k. cbn. lia. Qed.

(** With 64-bit arithmetic nothing changes up to 2^63. *)
Lemma npot64_eq : forall fuel x, 0 <= x <= 2 ^ 63 -> npot64 fuel x = npot fuel x.
Proof.
  induction fuel as [|fuel IH]; intros x Hx; cbn [npot64 npot].
  - assert (D : npot_done64 x = npot_done x).
    { unfold npot_done64, npot_done. destruct (Z.eq_dec x 0) as [->|]; [reflexivity|].
      rewrite Z.mod_small by lia. reflexivity. }
    now rewrite D.
  - assert (D : npot_done64 x = npot_done x).
    { unfold npot_done64, npot_done. destruct (Z.eq_dec x 0) as [->|]; [reflexivity|].
      rewrite Z.mod_small by lia. reflexivity. }
    rewrite D. destruct (npot_done x) eqn:E; auto.
    assert (0 < x).
    { destruct (Z.eq_dec x 0) as [->|]; [discriminate E|lia]. }
    pose proof (log2_bounds x ltac:(lia)) as B. pose proof (Z.log2_nonneg x).
    assert (Z.log2 x < 63).
    { assert (x <> 2 ^ 63) by (intros ->; discriminate E). apply Z.log2_lt_pow2; lia. }
    pose proof (step_or_bounds x (Z.log2 x) B ltac:(lia)) as S.
    assert (2 ^ (Z.log2 x + 1) <= 2 ^ 63) by (apply Z.pow_le_mono_r; lia).
    unfold npot_step64. rewrite Z.mod_small by lia. apply IH. lia.
Qed.
