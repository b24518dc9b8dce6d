(** The bit-pattern comparisons of Model/Fp.v agree with the values of the patterns. *)
From Coq Require Import ZArith List Bool Lia.
From Verif.Spec Require Import FloatSpec.
From Verif.Model Require Import Word Fp.
From Verif.Proof Require Import WordP.
Import ListNotations.
Local Open Scope Z_scope.

Definition fp_width (w : nat) : Prop := w = 4%nat \/ w = 8%nat.

(** value of a magnitude *)
Definition mval (mb m : Z) : Z := if m / 2 ^ mb =? 0 then m mod 2 ^ mb else (2 ^ mb + m mod 2 ^ mb) * 2 ^ (m / 2 ^ mb - 1).
Lemma pow_pos2 k : 0 <= k -> 0 < 2 ^ k.
Proof. intros. now apply Z.pow_pos_nonneg. Qed.
Lemma mval_lt mb m m' : 0 <= mb -> 0 <= m -> m < m' -> mval mb m < mval mb m'.
Proof.
  intros Hb Hm H. unfold mval. pose proof (pow_pos2 mb Hb) as P.
  pose proof (Z.div_mod m (2 ^ mb) ltac:(lia)) as D. pose proof (Z.div_mod m' (2 ^ mb) ltac:(lia)) as D'.
  pose proof (Z.mod_pos_bound m (2 ^ mb) ltac:(lia)) as B. pose proof (Z.mod_pos_bound m' (2 ^ mb) ltac:(lia)) as B'.
  assert (E0 : 0 <= m / 2 ^ mb) by (apply Z.div_pos; lia).
  set (e := m / 2 ^ mb) in *. set (e' := m' / 2 ^ mb) in *. set (f := m mod 2 ^ mb) in *. set (f' := m' mod 2 ^ mb) in *.
  clearbody e e' f f'. assert (e <= e') by nia.
  assert (U : (if e =? 0 then f else (2 ^ mb + f) * 2 ^ (e - 1)) < 2 ^ mb * 2 ^ e).
  { destruct (Z.eqb_spec e 0) as [->|]; [cbn; lia|]. replace (2 ^ e) with (2 * 2 ^ (e - 1)) by (rewrite <- Z.pow_succ_r by lia; f_equal; lia).
    pose proof (pow_pos2 (e - 1) ltac:(lia)). nia. }
  destruct (Z.eq_dec e e') as [<-|].
  - destruct (Z.eqb_spec e 0); [lia|]. pose proof (pow_pos2 (e - 1) ltac:(lia)). nia.
  - eapply Z.lt_le_trans; [exact U|]. destruct (Z.eqb_spec e' 0); [lia|].
    assert (2 ^ e <= 2 ^ (e' - 1)) by (apply Z.pow_le_mono_r; lia). pose proof (pow_pos2 e ltac:(lia)). nia.
Qed.
Lemma mval_0 mb : 0 <= mb -> mval mb 0 = 0.
Proof. intros. unfold mval. pose proof (pow_pos2 mb H). rewrite Z.div_0_l, Z.mod_0_l by lia. reflexivity. Qed.

Section W.
  Context {w : nat} (Hw : fp_width w).
  Lemma frac_mant : frac_bits w = mant_bits w.
  Proof. destruct Hw as [->| ->]; reflexivity. Qed.
  Lemma expo_exp : expo_bits w = exp_bits w.
  Proof. destruct Hw as [->| ->]; reflexivity. Qed.
  Lemma sign_w : 2 ^ (frac_bits w + expo_bits w) = sign_weight w.
  Proof. destruct Hw as [->| ->]; reflexivity. Qed.
  Lemma mod_sign : modulus w = 2 * sign_weight w.
  Proof. destruct Hw as [->| ->]; reflexivity. Qed.
  Lemma sign_split : sign_weight w = 2 ^ mant_bits w * 2 ^ exp_bits w.
  Proof. destruct Hw as [->| ->]; reflexivity. Qed.
  Lemma mant_nonneg : 0 <= mant_bits w.
  Proof. destruct Hw as [->| ->]; cbn; lia. Qed.
  Lemma exp_nonneg : 0 <= exp_bits w.
  Proof. destruct Hw as [->| ->]; vm_compute; congruence. Qed.

  Lemma sign_bit_neg (x : word w) : sign_bit x = negative x.
  Proof.
    unfold sign_bit, negative. rewrite sign_w. pose proof (uval_range x) as R. rewrite mod_sign in R.
    assert (S : 0 < sign_weight w) by (apply pow_pos2; destruct Hw as [->| ->]; vm_compute; congruence).
    destruct (Z.leb_spec (sign_weight w) (uval x)).
    - replace (uval x / sign_weight w) with 1; [reflexivity|]. apply Z.div_unique with (r := uval x - sign_weight w); lia.
    - rewrite Z.div_small by lia. reflexivity.
  Qed.
  Lemma fields (x : word w) : fraction x = magnitude x mod 2 ^ mant_bits w /\ exponent_field x = magnitude x / 2 ^ mant_bits w /\
    0 <= magnitude x < sign_weight w.
  Proof.
    pose proof (pow_pos2 _ mant_nonneg) as P. pose proof (pow_pos2 _ exp_nonneg) as Q.
    pose proof (uval_range x) as R. pose proof sign_split as SS.
    unfold fraction, exponent_field, magnitude. rewrite frac_mant, expo_exp, SS. repeat split.
    - rewrite Z.rem_mul_r by lia. rewrite (Z.mul_comm (2 ^ mant_bits w)), Z.mod_add by lia. now rewrite Z.mod_mod by lia.
    - rewrite Z.rem_mul_r by lia. rewrite (Z.mul_comm (2 ^ mant_bits w)), Z.div_add by lia.
      rewrite (Z.div_small (uval x mod 2 ^ mant_bits w)) by (apply Z.mod_pos_bound; lia). lia.
    - apply Z.mod_pos_bound. nia.
    - apply Z.mod_pos_bound. nia.
  Qed.
  Lemma nan_ok (x : word w) : is_NaN x = is_nan x.
  Proof.
    unfold is_NaN, is_nan, all_ones_exponent, inf_magnitude. destruct (fields x) as [-> [-> R]].
    pose proof (pow_pos2 _ mant_nonneg) as P. pose proof (pow_pos2 _ exp_nonneg) as Q. rewrite sign_split in R. rewrite expo_exp.
    pose proof (Z.div_mod (magnitude x) (2 ^ mant_bits w) ltac:(lia)) as D. pose proof (Z.mod_pos_bound (magnitude x) (2 ^ mant_bits w) ltac:(lia)) as B.
    set (q := magnitude x / 2 ^ mant_bits w) in *. set (r := magnitude x mod 2 ^ mant_bits w) in *.
    destruct (Z.eqb_spec q (2 ^ exp_bits w - 1)) as [E|E], (Z.eqb_spec r 0) as [E'|E'], (Z.ltb_spec ((2 ^ exp_bits w - 1) * 2 ^ mant_bits w) (magnitude x)); cbn; auto; nia.
  Qed.
  Lemma fabs_mval (x : word w) : fabs_value x = mval (mant_bits w) (magnitude x).
  Proof. unfold fabs_value, mval. destruct (fields x) as [-> [-> R]]. now rewrite frac_mant. Qed.
  Lemma mval_mono m m' : 0 <= m -> 0 <= m' -> (mval (mant_bits w) m <? mval (mant_bits w) m') = (m <? m').
  Proof.
    intros H H'. destruct (Z.ltb_spec m m').
    - apply Z.ltb_lt. apply mval_lt; auto. apply mant_nonneg.
    - apply Z.ltb_ge. destruct (Z.eq_dec m m') as [<-|]; [lia|]. apply Z.lt_le_incl, mval_lt; try lia. apply mant_nonneg.
  Qed.
  Lemma mval_nonneg m : 0 <= m -> 0 <= mval (mant_bits w) m.
  Proof.
    intros H. destruct (Z.eq_dec m 0) as [->|]; [rewrite mval_0 by apply mant_nonneg; lia|].
    rewrite <- (mval_0 (mant_bits w)) at 1 by apply mant_nonneg. apply Z.lt_le_incl, mval_lt; try lia. apply mant_nonneg.
  Qed.
  Lemma value_key_lt (a b : word w) : (fvalue a <? fvalue b) = (fkey a <? fkey b).
  Proof.
    unfold fvalue, fkey. rewrite !sign_bit_neg, !fabs_mval.
    destruct (fields a) as [_ [_ Ra]], (fields b) as [_ [_ Rb]].
    pose proof (mval_nonneg (magnitude a) ltac:(lia)). pose proof (mval_nonneg (magnitude b) ltac:(lia)).
    assert (M : forall m m', 0 <= m -> 0 <= m' -> (mval (mant_bits w) m < mval (mant_bits w) m' <-> m < m')).
    { intros m m' Hm Hm'. rewrite <- !Z.ltb_lt. now rewrite mval_mono. }
    pose proof (M (magnitude a) (magnitude b) ltac:(lia) ltac:(lia)). pose proof (M (magnitude b) (magnitude a) ltac:(lia) ltac:(lia)).
    pose proof (M 0 (magnitude a) ltac:(lia) ltac:(lia)) as M3. pose proof (M 0 (magnitude b) ltac:(lia) ltac:(lia)) as M4.
    rewrite mval_0 in M3, M4 by apply mant_nonneg. clear M.
    destruct (negative a), (negative b);
    match goal with |- (?x <? ?y) = (?u <? ?v) => destruct (Z.ltb_spec x y), (Z.ltb_spec u v); auto; lia end.
  Qed.
  Lemma value_key_le (a b : word w) : (fvalue a <=? fvalue b) = (fkey a <=? fkey b).
  Proof. rewrite !Z.leb_antisym. now rewrite value_key_lt. Qed.
  Lemma value_key_eq (a b : word w) : (fvalue a =? fvalue b) = (fkey a =? fkey b).
  Proof.
    pose proof (value_key_le a b) as A. pose proof (value_key_le b a) as B.
    destruct (Z.leb_spec (fvalue a) (fvalue b)), (Z.leb_spec (fkey a) (fkey b)); try discriminate A;
    destruct (Z.leb_spec (fvalue b) (fvalue a)), (Z.leb_spec (fkey b) (fkey a)); try discriminate B;
    destruct (Z.eqb_spec (fvalue a) (fvalue b)), (Z.eqb_spec (fkey a) (fkey b)); auto; lia.
  Qed.
  Lemma flt_ok (a b : word w) : flt a b = float_lt a b.
  Proof. unfold flt, float_lt, ordered. now rewrite !nan_ok, value_key_lt. Qed.
  Lemma fle_ok (a b : word w) : fle a b = float_le a b.
  Proof. unfold fle, float_le, ordered. now rewrite !nan_ok, value_key_le. Qed.
  Lemma feq_ok (a b : word w) : feq a b = float_eq a b.
  Proof. unfold feq, float_eq, ordered. now rewrite !nan_ok, value_key_eq. Qed.
End W.
