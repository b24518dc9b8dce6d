From Coq Require Import ZArith List Bool Lia Eqdep_dec.
From Verif.Spec Require Import Seq.
From Verif.Model Require Import Word.
Import ListNotations.
Local Open Scope Z_scope.

Lemma modulus_pos w : 0 < modulus w.
Proof. unfold modulus, bits. apply Z.pow_pos_nonneg; lia. Qed.

Lemma modulus_S w : modulus (S w) = 256 * modulus w.
Proof.
  unfold modulus, bits. replace (8 * Z.of_nat (S w)) with (8 + 8 * Z.of_nat w) by lia.
  rewrite Z.pow_add_r by lia. reflexivity.
Qed.

Lemma modulus_even w : (0 < w)%nat -> modulus w = 2 * (modulus w / 2).
Proof.
  intros H. destruct w as [|w]; [lia|]. rewrite modulus_S.
  replace (256 * modulus w) with (128 * modulus w * 2) by lia. rewrite Z.div_mul by lia. lia.
Qed.

Lemma in_word_spec w z : in_word w z = true <-> 0 <= z < modulus w.
Proof.
  unfold in_word. rewrite andb_true_iff, Z.leb_le, Z.ltb_lt. reflexivity.
Qed.

Lemma uval_range {w} (a : word w) : 0 <= uval a < modulus w.
Proof. destruct a as [z H]. now apply in_word_spec. Qed.

Lemma word_ext {w} (a b : word w) : uval a = uval b -> a = b.
Proof.
  destruct a as [x Hx], b as [y Hy]. cbn. intros ->. f_equal. apply UIP_dec. apply bool_dec.
Qed.

Lemma uval_mkw w z : uval (mkw w z) = z mod modulus w.
Proof. reflexivity. Qed.

Lemma mkw_uval {w} (a : word w) : mkw w (uval a) = a.
Proof. apply word_ext. rewrite uval_mkw. apply Z.mod_small, uval_range. Qed.

Lemma mkw_small w z : 0 <= z < modulus w -> uval (mkw w z) = z.
Proof. intros. rewrite uval_mkw. now apply Z.mod_small. Qed.

Lemma mkw_eq w x y : x mod modulus w = y mod modulus w -> mkw w x = mkw w y.
Proof. intros. apply word_ext. now rewrite !uval_mkw. Qed.

Lemma uval_w0 w : uval (w0 w) = 0.
Proof. unfold w0. rewrite uval_mkw. apply Z.mod_0_l. pose proof (modulus_pos w). lia. Qed.

Ltac modw w := pose proof (modulus_pos w).

Lemma wadd_comm {w} (a b : word w) : wadd a b = wadd b a.
Proof. unfold wadd. now rewrite Z.add_comm. Qed.
Lemma wadd_assoc {w} (a b c : word w) : wadd (wadd a b) c = wadd a (wadd b c).
Proof.
  unfold wadd. rewrite !uval_mkw. apply mkw_eq. modw w.
  rewrite Zplus_mod_idemp_l, Zplus_mod_idemp_r. f_equal. lia.
Qed.
Lemma wadd_0_l {w} (a : word w) : wadd (w0 w) a = a.
Proof. unfold wadd. rewrite uval_w0. apply mkw_uval. Qed.
Lemma wmul_comm {w} (a b : word w) : wmul a b = wmul b a.
Proof. unfold wmul. now rewrite Z.mul_comm. Qed.
Lemma wmul_assoc {w} (a b c : word w) : wmul (wmul a b) c = wmul a (wmul b c).
Proof.
  unfold wmul. rewrite !uval_mkw. apply mkw_eq. modw w.
  rewrite Zmult_mod_idemp_l, Zmult_mod_idemp_r. f_equal. lia.
Qed.
Lemma wmul_1_l {w} (a : word w) : wmul (mkw w 1) a = a.
Proof.
  apply word_ext. unfold wmul. rewrite !uval_mkw. modw w. rewrite Zmult_mod_idemp_l.
  rewrite Z.mul_1_l. apply Z.mod_small, uval_range.
Qed.

Lemma sval_range {w} (a : word w) : (0 < w)%nat -> - (modulus w / 2) <= sval a < modulus w / 2.
Proof.
  intros H. pose proof (uval_range a). pose proof (modulus_even w H). unfold sval, to_signed.
  destruct (Z.ltb_spec (uval a) (modulus w / 2)); lia.
Qed.
Lemma sval_mod {w} (a : word w) : sval a mod modulus w = uval a.
Proof.
  pose proof (uval_range a). unfold sval, to_signed.
  destruct (Z.ltb_spec (uval a) (modulus w / 2)); [now apply Z.mod_small|].
  symmetry. apply Z.mod_unique with (q := -1); lia.
Qed.
Lemma sval_inj {w} (a b : word w) : sval a = sval b -> a = b.
Proof. intros H. apply word_ext. now rewrite <- !sval_mod, H. Qed.

Lemma le_u_total w : total_order (@le_u w).
Proof.
  unfold le_u. split; intros *; rewrite ?Z.leb_le; try lia.
  intros. apply word_ext. lia.
Qed.
Lemma le_s_total w : total_order (@le_s w).
Proof.
  unfold le_s. split; intros *; rewrite ?Z.leb_le; try lia.
  intros. apply sval_inj. lia.
Qed.

Lemma bytes_length n : forall z, length (bytes n z) = n.
Proof. induction n; intros; cbn; auto. Qed.
Lemma enc_length {w} (a : word w) : length (enc a) = w.
Proof. apply bytes_length. Qed.
Lemma of_bytes_bytes n : forall z, 0 <= z < modulus n -> of_bytes (bytes n z) = z.
Proof.
  induction n as [|n IH]; intros z H.
  - change (modulus 0) with 1 in H. cbn. lia.
  - cbn [bytes of_bytes]. rewrite modulus_S in H. rewrite IH.
    + pose proof (Z.div_mod z 256). lia.
    + split; [apply Z.div_pos; lia|apply Z.div_lt_upper_bound; lia].
Qed.
Lemma dec_enc {w} (a : word w) : dec (enc a) = a.
Proof.
  unfold dec, enc. rewrite of_bytes_bytes by apply uval_range. apply mkw_uval.
Qed.
Lemma bytes_0 n : bytes n 0 = repeat 0 n.
Proof. induction n; cbn; auto. now rewrite IHn. Qed.
Lemma enc_w0 w : enc (w0 w) = repeat 0 w.
Proof. unfold enc. rewrite uval_w0. apply bytes_0. Qed.
