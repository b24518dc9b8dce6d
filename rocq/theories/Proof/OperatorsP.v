(** Facts about conversions of integers. *)
From Coq Require Import ZArith List Bool Lia.
From Verif.Spec Require Import OperatorSpec.
From Verif.Model Require Import Operators.
Local Open Scope Z_scope.

Lemma bits_pos ls t : long_size_ok ls -> 8 <= bits ls t.
Proof. intros [-> | ->]; destruct t; cbn; lia. Qed.
Lemma to_mod ls t z : long_size_ok ls -> t <> Bool -> to ls t z mod 2 ^ bits ls t = z mod 2 ^ bits ls t.
Proof.
  intros L B. pose proof (bits_pos ls t L) as P. assert (0 < 2 ^ bits ls t) by (apply Z.pow_pos_nonneg; lia).
  assert (E : to ls t z = if is_unsigned t then z mod 2 ^ bits ls t else (z + 2 ^ (bits ls t - 1)) mod 2 ^ bits ls t - 2 ^ (bits ls t - 1)) by (destruct t; congruence || reflexivity).
  rewrite E. destruct (is_unsigned t); [apply Z.mod_mod; lia|]. rewrite Zminus_mod_idemp_l. f_equal. lia.
Qed.
Lemma to_cong ls t x y : long_size_ok ls -> t <> Bool -> x mod 2 ^ bits ls t = y mod 2 ^ bits ls t -> to ls t x = to ls t y.
Proof.
  intros L B E. destruct t; try congruence; cbn [to is_unsigned]; try exact E; f_equal;
    rewrite <- Zplus_mod_idemp_l, E, Zplus_mod_idemp_l; reflexivity.
Qed.
Lemma to_id ls t z : long_size_ok ls -> holds ls t z -> to ls t z = z.
Proof.
  intros L H. pose proof (bits_pos ls t L) as P. assert (E : 2 ^ bits ls t = 2 * 2 ^ (bits ls t - 1)) by (rewrite <- Z.pow_succ_r by lia; f_equal; lia).
  destruct t; cbn [to holds is_unsigned] in *; try (apply Z.mod_small; lia); try (rewrite Z.mod_small by lia; lia).
  destruct (Z.eqb_spec z 0); lia.
Qed.
Lemma mod_trans m n x y : 0 <= m <= n -> x mod 2 ^ n = y mod 2 ^ n -> x mod 2 ^ m = y mod 2 ^ m.
Proof.
  intros H E. assert (D : (2 ^ m | 2 ^ n)) by (exists (2 ^ (n - m)); rewrite <- Z.pow_add_r by lia; f_equal; lia). assert (0 < 2 ^ m) by (apply Z.pow_pos_nonneg; lia). assert (0 < 2 ^ n) by (apply Z.pow_pos_nonneg; lia).
  rewrite (Znumtheory.Zmod_div_mod (2 ^ m) (2 ^ n) x), (Znumtheory.Zmod_div_mod (2 ^ m) (2 ^ n) y) by auto. now rewrite E.
Qed.
Lemma land_cong n a b c d : 0 <= n -> a mod 2 ^ n = c mod 2 ^ n -> b mod 2 ^ n = d mod 2 ^ n ->
  Z.land a b mod 2 ^ n = Z.land c d mod 2 ^ n /\ Z.lor a b mod 2 ^ n = Z.lor c d mod 2 ^ n /\ Z.lxor a b mod 2 ^ n = Z.lxor c d mod 2 ^ n.
Proof.
  intros N E F. assert (T : forall k, k < n -> Z.testbit a k = Z.testbit c k /\ Z.testbit b k = Z.testbit d k).
  { intros k K. destruct (Z.neg_nonneg_cases k) as [K0|K0]; [rewrite !Z.testbit_neg_r by lia; auto|].
    rewrite <- (Z.mod_pow2_bits_low a n k), <- (Z.mod_pow2_bits_low b n k), <- (Z.mod_pow2_bits_low c n k), <- (Z.mod_pow2_bits_low d n k) by lia. rewrite E, F. auto. }
  repeat split; apply Z.bits_inj'; intros k K; (destruct (Z.lt_ge_cases k n) as [K1|K1];
    [rewrite !Z.mod_pow2_bits_low by lia; destruct (T k K1) as (T1 & T2); rewrite ?Z.land_spec, ?Z.lor_spec, ?Z.lxor_spec, T1, T2; reflexivity|rewrite !Z.mod_pow2_bits_high by lia; reflexivity]).
Qed.
Lemma exact_cong o n a b c d : 0 <= n -> a mod 2 ^ n = c mod 2 ^ n -> b mod 2 ^ n = d mod 2 ^ n -> exact o a b mod 2 ^ n = exact o c d mod 2 ^ n.
Proof.
  intros N E F. assert (0 < 2 ^ n) by (apply Z.pow_pos_nonneg; lia). destruct o; cbn [exact]; try (destruct (land_cong n a b c d N E F) as (X & Y & Z); assumption).
  - rewrite (Z.add_mod a b), (Z.add_mod c d), E, F by lia. reflexivity.
  - rewrite Zminus_mod, E, F, <- Zminus_mod. reflexivity.
  - rewrite (Z.mul_mod a b), (Z.mul_mod c d), E, F by lia. reflexivity.
Qed.
Lemma value_narrow ls o r w x y : long_size_ok ls -> r <> Bool -> w <> Bool -> bits ls r <= bits ls w -> vector_value ls o r x y = to ls r (to ls w (exact o (to ls w x) (to ls w y))).
Proof.
  intros L Hr Hw B. pose proof (bits_pos ls r L). unfold vector_value. apply to_cong; auto.
  assert (M : forall z, to ls w z mod 2 ^ bits ls r = z mod 2 ^ bits ls r) by (intros z; apply (mod_trans _ (bits ls w)); [lia|now apply to_mod]).
  rewrite M. apply exact_cong; [lia| |]; rewrite M; apply to_mod; auto.
Qed.
