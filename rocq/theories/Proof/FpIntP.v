(** Exactness of the float operations of Model/FpArith on integers, and conversions between floats and integers. *)
From Coq Require Import ZArith List Bool Lia.
From Verif.Spec Require Import FloatSpec RoundSpec.
From Verif.Model Require Import Word Fp FpArith.
From Verif.Proof Require Import WordP FpP FpArithP.
Import ListNotations.
Local Open Scope Z_scope.

Section W.
  Context {w : nat} (Hw : fp_width w).
  Let p := mant_bits w.
  Let u := unit_exp w.
  (** infinity would have the value 2 ^ top *)
  Definition top_exp (w : nat) : Z := 2 ^ exp_bits w - 2 + mant_bits w.
  Let top := top_exp w.

  Lemma exps : 0 < p /\ p + 100 < u /\ u + 100 < top /\ u + p + 75 < top /\ u + 2 * p + 10 < top.
  Proof. unfold p, u, top. destruct Hw as [->| ->]; vm_compute; repeat split; congruence. Qed.
  Lemma mval_inf : mval p (inf_magnitude w) = 2 ^ top.
  Proof. unfold p, top. destruct Hw as [->| ->]; vm_compute; reflexivity. Qed.
  Lemma units_pow : one_units w = 2 ^ u.
  Proof. reflexivity. Qed.

  (** representable magnitudes *)
  Definition repr (v : Z) : Prop := exists k e, 0 <= k < 2 ^ (p + 1) /\ 0 <= e /\ v = k * 2 ^ e /\ v < 2 ^ top.

  Lemma repr_nonneg v : repr v -> 0 <= v.
  Proof. intros (k & e & K & E & -> & _). pose proof (pow_pos2 e E). nia. Qed.
  Lemma repr_mag v : repr v -> exists m, 0 <= m < inf_magnitude w /\ mval p m = v.
  Proof.
    destruct exps as (P & U & T & T2 & T3). intros (k & e & K & E & -> & B).
    assert (X : exists m, 0 <= m /\ mval p m = k * 2 ^ e).
    { destruct (Z.eq_dec k 0) as [->|NZ]; [exists 0; rewrite mval_0 by lia; lia|].
      assert (L : 0 <= Z.log2 k <= p) by (split; [apply Z.log2_nonneg|]; assert (Z.log2 k < p + 1) by (apply Z.log2_lt_pow2; lia); lia).
      pose proof (Z.log2_spec k ltac:(lia)) as LS. set (j := p - Z.log2 k). destruct (Z_le_dec j e) as [Q|Q].
      - exists ((e - j) * 2 ^ p + k * 2 ^ j). pose proof (pow_pos2 p ltac:(lia)). pose proof (pow_pos2 j ltac:(lia)).
        assert (J : 2 ^ p = 2 ^ Z.log2 k * 2 ^ j) by (rewrite <- Z.pow_add_r by lia; f_equal; lia).
        assert (J' : 2 ^ (p + 1) = 2 ^ Z.succ (Z.log2 k) * 2 ^ j) by (rewrite <- Z.pow_add_r by lia; f_equal; lia).
        split; [nia|]. rewrite mval_ek; try lia; [|nia|right; nia].
        rewrite <- Z.mul_assoc, <- Z.pow_add_r by lia. do 2 f_equal. lia.
      - exists (0 * 2 ^ p + k * 2 ^ e). pose proof (pow_pos2 e ltac:(lia)).
        assert (J' : 2 ^ (p + 1) = 2 ^ Z.succ (Z.log2 k) * 2 ^ j) by (rewrite <- Z.pow_add_r by lia; f_equal; lia).
        assert (2 ^ e <= 2 ^ j) by (apply Z.pow_le_mono_r; lia).
        split; [nia|]. rewrite mval_ek; try lia. split; nia. }
    destruct X as (m & M & V). exists m. split; [|exact V]. split; [exact M|].
    apply (mval_lt_inv p P); auto; [pose proof (inf_bound Hw); lia|]. rewrite mval_inf, V. exact B.
  Qed.
  Lemma mag_repr m : 0 <= m < inf_magnitude w -> repr (mval p m).
  Proof.
    destruct exps as (P & U & T & T2 & T3). intros M. destruct (mval_inv p m P ltac:(lia)) as (e & k & E & K & _ & _ & V).
    exists k, e. repeat split; try lia. rewrite <- mval_inf. apply mval_lt; lia.
  Qed.
  Lemma finite_repr (x : word w) : is_Finite x = true -> repr (fabs_value x).
  Proof.
    intros F. rewrite (finite_mag Hw) in F. apply Z.ltb_lt in F. rewrite (fabs_mval Hw). apply mag_repr. destruct (fields Hw x) as (_ & _ & R). lia.
  Qed.
  Lemma repr_scale v k : 0 <= k -> repr v -> v * 2 ^ k < 2 ^ top -> repr (v * 2 ^ k).
  Proof. intros K (a & e & A & E & -> & B) H. exists a, (e + k). repeat split; try lia. rewrite Z.pow_add_r by lia. ring. Qed.
  Lemma repr_small v : 0 <= v < 2 ^ (p + 1) -> repr v.
  Proof. intros H. destruct exps as (P & U & T & T2 & T3). exists v, 0. repeat split; try lia. assert (2 ^ (p + 1) <= 2 ^ top) by (apply Z.pow_le_mono_r; lia). lia. Qed.
  Lemma repr_pow v k : 0 <= v < 2 ^ (p + 1) -> 0 <= k -> p + 1 + k <= top -> repr (v * 2 ^ k).
  Proof.
    intros H K T. apply repr_scale; auto; [now apply repr_small|]. apply Z.lt_le_trans with (2 ^ (p + 1) * 2 ^ k).
    - pose proof (pow_pos2 k K). nia.
    - rewrite <- Z.pow_add_r by (destruct exps; lia). apply Z.pow_le_mono_r; lia.
  Qed.

  (** rounding of representable values *)
  Lemma fround_repr neg n d v : 0 < d -> repr v -> n = v * d ->
    is_Finite (fround w neg n d) = true /\ fabs_value (fround w neg n d) = v /\ negative (fround w neg n d) = neg.
  Proof.
    intros D R E. destruct (repr_mag v R) as (m & M & V). rewrite (fround_exact Hw neg n d m D M) by (unfold p in V; lia).
    pose proof (inf_bound Hw). split; [now apply finite_with_sign|]. rewrite (fabs_mval Hw), (magnitude_with_sign Hw), (negative_with_sign Hw) by lia. auto.
  Qed.
  Lemma fvalue_abs (x : word w) : fvalue x = (if negative x then -1 else 1) * fabs_value x.
  Proof. unfold fvalue. rewrite (sign_bit_neg Hw). destruct (negative x); lia. Qed.
  Lemma fabs_nonneg (x : word w) : 0 <= fabs_value x.
  Proof. rewrite (fabs_mval Hw). apply (mval_nonneg Hw). destruct (fields Hw x) as (_ & _ & R). lia. Qed.
  Lemma fabs_abs (x : word w) : fabs_value x = Z.abs (fvalue x).
  Proof. rewrite fvalue_abs. pose proof (fabs_nonneg x). destruct (negative x); lia. Qed.
  (** finite values of the same sign and magnitude are the same pattern *)
  Lemma same_value (x y : word w) : fabs_value x = fabs_value y -> negative x = negative y -> x = y.
  Proof.
    intros V N. rewrite <- (with_sign_eta Hw x), <- (with_sign_eta Hw y), N. f_equal. rewrite !(fabs_mval Hw) in V.
    destruct (fields Hw x) as (_ & _ & R), (fields Hw y) as (_ & _ & R').
    apply Z.le_antisymm; (apply (mval_le_inv _ (mant_pos Hw)); [lia|lia|rewrite V; lia]).
  Qed.
  Lemma finite_not_nan (x : word w) : is_Finite x = true -> is_nan x = false.
  Proof. rewrite <- (nan_ok Hw). unfold is_Finite, is_NaN. now destruct (all_ones_exponent x). Qed.
  Lemma finite_not_inf (x : word w) : is_Finite x = true -> is_inf x = false.
  Proof. rewrite (finite_mag Hw). unfold is_inf. intros F. apply Z.ltb_lt in F. apply Z.eqb_neq. lia. Qed.
  Lemma is_zero_value (x : word w) : is_zero x = (fabs_value x =? 0).
  Proof.
    unfold is_zero. rewrite (fabs_mval Hw). destruct (fields Hw x) as (_ & _ & R). pose proof (mval_0 (mant_bits w) (mant_nonneg Hw)) as Z0.
    destruct (Z.eqb_spec (magnitude x) 0) as [->|N]; [rewrite Z0; reflexivity|]. symmetry. apply Z.eqb_neq.
    pose proof (mval_lt (mant_bits w) 0 (magnitude x) (mant_nonneg Hw) ltac:(lia) ltac:(lia)). lia.
  Qed.

  (** ** sums *)
  Lemma fadd_repr (a b : word w) : is_Finite a = true -> is_Finite b = true -> repr (Z.abs (fvalue a + fvalue b)) ->
    is_Finite (fadd a b) = true /\ fvalue (fadd a b) = fvalue a + fvalue b /\
    (fvalue a + fvalue b = 0 -> negative (fadd a b) = negative a && negative b).
  Proof.
    intros Fa Fb R. unfold fadd, nan2, fadd_num. rewrite !finite_not_nan, !finite_not_inf by auto.
    destruct (Z.eqb_spec (fvalue a + fvalue b) 0) as [E|E].
    - pose proof (inf_bound Hw). rewrite (fvalue_with_sign Hw), (negative_with_sign Hw), mval_0 by (try apply (mant_nonneg Hw); lia).
      split; [apply (finite_with_sign Hw); lia|]. split; [destruct (negative a && negative b); lia|auto].
    - destruct (fround_repr (fvalue a + fvalue b <? 0) (Z.abs (fvalue a + fvalue b)) 1 _ ltac:(lia) R ltac:(lia)) as (F & V & N).
      split; [exact F|]. split; [|lia]. rewrite fvalue_abs, V, N. destruct (Z.ltb_spec (fvalue a + fvalue b) 0); lia.
  Qed.
  Lemma fneg_value (x : word w) : fvalue (fneg x) = - fvalue x /\ is_Finite (fneg x) = is_Finite x /\ negative (fneg x) = negb (negative x) /\ is_nan (fneg x) = is_nan x /\ is_inf (fneg x) = is_inf x.
  Proof.
    destruct (fields Hw x) as (_ & _ & R). unfold fneg. rewrite (fvalue_with_sign Hw), (finite_mag Hw), (negative_with_sign Hw) by lia.
    rewrite (fvalue_mval Hw). unfold is_nan, is_inf. rewrite (magnitude_with_sign Hw) by lia. rewrite (finite_mag Hw). repeat split. destruct (negative x); cbn [negb]; lia.
  Qed.
  Lemma fsub_fadd (a b : word w) : is_nan a = false -> is_nan b = false -> fsub a b = fadd a (fneg b).
  Proof. intros A B. unfold fsub, fadd, nan2. destruct (fneg_value b) as (_ & _ & _ & -> & _). now rewrite A, B. Qed.
  Lemma fsub_repr (a b : word w) : is_Finite a = true -> is_Finite b = true -> repr (Z.abs (fvalue a - fvalue b)) ->
    is_Finite (fsub a b) = true /\ fvalue (fsub a b) = fvalue a - fvalue b.
  Proof.
    intros Fa Fb R. rewrite fsub_fadd by (now apply finite_not_nan). destruct (fneg_value b) as (V & F & _).
    destruct (fadd_repr a (fneg b)) as (X & Y & _); auto; [now rewrite F|rewrite V; replace (fvalue a + - fvalue b) with (fvalue a - fvalue b) by lia; exact R|].
    split; [exact X|]. rewrite Y, V. lia.
  Qed.

  (** ** integers *)
  Definition exact_int (z : Z) : Prop := repr (Z.abs z * one_units w).
  Lemma exact_pow k e : Z.abs k < 2 ^ (p + 1) -> 0 <= e <= 70 -> exact_int (k * 2 ^ e).
  Proof.
    destruct exps as (P & U & T & T2 & T3). intros K E. unfold exact_int. rewrite Z.abs_mul, (Z.abs_eq (2 ^ e)) by (pose proof (pow_pos2 e); lia).
    rewrite units_pow, <- Z.mul_assoc, <- Z.pow_add_r by lia. apply repr_pow; lia.
  Qed.
  Lemma exact_small z : Z.abs z <= 2 ^ (p + 1) -> exact_int z.
  Proof.
    intros H. destruct exps as (P & U & T & T2 & T3). assert (C : Z.abs z < 2 ^ (p + 1) \/ Z.abs z = 1 * 2 ^ (p + 1)) by lia. destruct C as [C|C].
    - replace z with (z * 2 ^ 0) by lia. apply exact_pow; lia.
    - unfold exact_int. rewrite C. rewrite units_pow, <- Z.mul_assoc, <- Z.pow_add_r by lia. apply repr_pow; [|lia|lia].
      split; [lia|]. apply Z.pow_gt_1; lia.
  Qed.
  Lemma of_int_exact z : exact_int z -> is_Finite (of_int w z) = true /\ fvalue (of_int w z) = z * one_units w /\ negative (of_int w z) = (z <? 0) /\ fabs_value (of_int w z) = Z.abs z * one_units w.
  Proof.
    intros R. destruct (fround_repr (z <? 0) _ 1 _ ltac:(lia) R ltac:(rewrite Z.mul_1_r; reflexivity)) as (F & V & N).
    unfold of_int. repeat split; auto. rewrite fvalue_abs, V, N. destruct (Z.ltb_spec z 0); lia.
  Qed.
  Lemma fadd_of_int a b : exact_int a -> exact_int b -> fadd (of_int w a) (of_int w b) = of_int w (a + b).
  Proof.
    intros A B. destruct (of_int_exact a A) as (Fa & Va & Na & _), (of_int_exact b B) as (Fb & Vb & Nb & _). pose proof (one_units_pos Hw) as UP.
    unfold fadd, nan2, fadd_num. rewrite !finite_not_nan, !finite_not_inf by auto. rewrite Va, Vb, Na, Nb. unfold of_int.
    replace (a * one_units w + b * one_units w) with ((a + b) * one_units w) by ring. rewrite Z.abs_mul, (Z.abs_eq (one_units w)) by lia.
    destruct (Z.eqb_spec ((a + b) * one_units w) 0) as [E|E].
    - assert (a + b = 0) by nia. replace ((a <? 0) && (b <? 0)) with false by (destruct (Z.ltb_spec a 0), (Z.ltb_spec b 0); auto; lia).
      replace (a + b) with 0 by lia. cbn [Z.ltb Z.compare Z.abs]. rewrite Z.mul_0_l. symmetry. pose proof (inf_bound Hw). apply (fround_exact Hw); [lia|lia|]. rewrite mval_0 by (apply (mant_nonneg Hw)). lia.
    - f_equal. destruct (Z.ltb_spec ((a + b) * one_units w) 0), (Z.ltb_spec (a + b) 0); auto; nia.
  Qed.
  Lemma fneg_of_int a : a <> 0 -> exact_int a -> fneg (of_int w a) = of_int w (- a).
  Proof.
    intros NZ A. assert (A' : exact_int (- a)) by (unfold exact_int; rewrite Z.abs_opp; exact A).
    destruct (of_int_exact a A) as (Fa & Va & Na & Aa), (of_int_exact (- a) A') as (Fb & Vb & Nb & Ab).
    destruct (fneg_value (of_int w a)) as (V & _ & N & _). apply same_value.
    - rewrite fabs_abs, V, Va, Ab. pose proof (one_units_pos Hw). nia.
    - rewrite N, Na, Nb. destruct (Z.ltb_spec a 0), (Z.ltb_spec (- a) 0); auto; lia.
  Qed.
  Lemma fsub_of_int a b : exact_int a -> exact_int b -> b <> 0 -> fsub (of_int w a) (of_int w b) = of_int w (a - b).
  Proof.
    intros A B NZ. destruct (of_int_exact a A) as (Fa & _), (of_int_exact b B) as (Fb & _).
    rewrite fsub_fadd, fneg_of_int, fadd_of_int by (auto using finite_not_nan; unfold exact_int; rewrite Z.abs_opp; exact B). f_equal; lia.
  Qed.

  (** rounding does not reach infinity *)
  Lemma below_inf n d : 0 <= n -> 0 < d -> n <= 2 ^ (top - 1) * d -> round_magnitude w n d < inf_magnitude w.
  Proof.
    intros Hn Hd H. destruct exps as (P & U & T & T2 & T3). pose proof (pow_pos2 top ltac:(lia)) as PT.
    destruct (repr_mag (1 * 2 ^ (top - 1))) as (m & M & V).
    { exists 1, (top - 1). repeat split; try lia; [apply Z.pow_gt_1; lia|]. rewrite Z.mul_1_l. apply Z.pow_lt_mono_r; lia. }
    pose proof (rnd_le _ (mant_pos Hw) n d m Hn Hd ltac:(lia) ltac:(unfold p in V; rewrite V; lia)). rewrite round_magnitude_rnd. lia.
  Qed.
  Lemma of_int_nearest z : Z.abs z <= 2 ^ 70 -> nearest_int (of_int w z) z /\ sign_bit (of_int w z) = (z <? 0).
  Proof.
    intros H. destruct exps as (P & U & T & T2 & T3). pose proof (one_units_pos Hw) as UP. unfold nearest_int, of_int. rewrite (fone_units Hw), (sign_bit_neg Hw).
    assert (B : round_magnitude w (Z.abs z * one_units w) 1 < inf_magnitude w).
    { apply below_inf; try nia. rewrite units_pow, Z.mul_1_r. apply Z.le_trans with (2 ^ 70 * 2 ^ u).
      - rewrite <- units_pow. nia.
      - rewrite <- Z.pow_add_r by lia. apply Z.pow_le_mono_r; lia. }
    split.
    - replace (z * one_units w) with ((if z <? 0 then -1 else 1) * (Z.abs z * one_units w)) by (destruct (Z.ltb_spec z 0); nia).
      apply (fround_nearest Hw); auto; nia.
    - unfold fround. apply (negative_with_sign Hw). pose proof (round_magnitude_bound Hw (Z.abs z * one_units w) 1 ltac:(nia) ltac:(lia)). pose proof (inf_bound Hw). lia.
  Qed.

  (** ** conversion to int *)
  Lemma cvt_int32_ok r (x : word w) : is_Finite x = true -> - 2 ^ 31 <= round_int r x < 2 ^ 31 -> cvt_int32 r x = mkw 4 (round_int r x).
  Proof.
    intros F R. unfold cvt_int32. rewrite finite_not_nan, finite_not_inf by auto.
    destruct (Z.ltb_spec (round_int r x) (- 2 ^ 31)); [lia|]. destruct (Z.leb_spec (2 ^ 31) (round_int r x)); [lia|]. reflexivity.
  Qed.
  Lemma cvt_int32_big r (x : word w) : is_Finite x = true -> round_int r x < - 2 ^ 31 \/ 2 ^ 31 <= round_int r x -> cvt_int32 r x = mkw 4 (2 ^ 31).
  Proof.
    intros F R. unfold cvt_int32. rewrite finite_not_nan, finite_not_inf by auto.
    destruct (Z.ltb_spec (round_int r x) (- 2 ^ 31)); [reflexivity|]. destruct (Z.leb_spec (2 ^ 31) (round_int r x)); [reflexivity|lia].
  Qed.
End W.

Lemma sval_small w z : (0 < w)%nat -> - (modulus w / 2) <= z < modulus w / 2 -> sval (mkw w z) = z.
Proof.
  intros Hw H. pose proof (modulus_even w Hw). pose proof (modulus_pos w). unfold sval, to_signed. rewrite uval_mkw.
  destruct (Z_le_dec 0 z).
  - rewrite Z.mod_small by lia. destruct (Z.ltb_spec z (modulus w / 2)); lia.
  - replace (z mod modulus w) with (z + modulus w) by (rewrite <- (Z.mod_add z 1) by lia; rewrite Z.mod_small; lia). destruct (Z.ltb_spec (z + modulus w) (modulus w / 2)); lia.
Qed.
Lemma mkw4_sval z : - 2 ^ 31 <= z < 2 ^ 31 -> sval (mkw 4 z) = z.
Proof. intros H. apply sval_small; [lia|]. change (modulus 4 / 2) with (2 ^ 31). lia. Qed.

(** ** uint -> float: rounding of 32-bit numbers with bit 31 set *)
Lemma rne_scale a b c : 0 < b -> 0 < c -> rne (a * c) (b * c) = rne a b.
Proof.
  intros B C. rewrite !rne_eq. rewrite Z.div_mul_cancel_r, Zmult_mod_distr_r by lia.
  destruct (Z.ltb_spec (2 * (a mod b * c)) (b * c)), (Z.ltb_spec (2 * (a mod b)) b); auto; try nia.
  destruct (Z.ltb_spec (b * c) (2 * (a mod b * c))), (Z.ltb_spec b (2 * (a mod b))); auto; nia.
Qed.
Lemma fp4 : fp_width 4. Proof. now left. Qed.
Lemma fp8 : fp_width 8. Proof. now right. Qed.
Lemma of_int_round31 v : 2 ^ 31 <= v < 2 ^ 32 -> of_int 4 v = of_int 4 (256 * rne v 256).
Proof.
  intros H. pose proof (rne_cases v 256 ltac:(lia)) as RC. cbv zeta in RC. set (q := v / 256) in *.
  assert (Q : 2 ^ 23 <= q < 2 ^ 24) by lia. assert (K : 2 ^ 23 <= rne v 256 <= 2 ^ 24) by lia.
  assert (L : Z.log2 (v * one_units 4 / 1) = 180).
  { rewrite Z.div_1_r. change (one_units 4) with (2 ^ 149). apply Z.log2_unique; [lia|]. change (2 ^ 180) with (2 ^ 31 * 2 ^ 149). change (2 ^ Z.succ 180) with (2 ^ 32 * 2 ^ 149).
    pose proof (pow_pos2 149 ltac:(lia)). nia. }
  assert (LHS : of_int 4 v = with_sign 4 false (157 * 2 ^ 23 + rne v 256)).
  { unfold of_int. replace (v <? 0) with false by (symmetry; apply Z.ltb_ge; lia). rewrite Z.abs_eq by lia. unfold fround. f_equal.
    rewrite round_magnitude_eq. cbv zeta. rewrite L. change (Z.max 0 (180 - mant_bits 4)) with 157. rewrite Z.mul_1_l.
    change (2 ^ 157) with (256 * 2 ^ 149). change (one_units 4) with (2 ^ 149). rewrite rne_scale by (try apply pow_pos2; lia).
    change (mant_bits 4) with 23. change (inf_magnitude 4) with (255 * 2 ^ 23). lia. }
  rewrite LHS. symmetry. unfold of_int. replace (256 * rne v 256 <? 0) with false by (symmetry; apply Z.ltb_ge; lia).
  apply (fround_exact fp4); [lia|change (inf_magnitude 4) with (255 * 2 ^ 23); lia|].
  change (mant_bits 4) with 23. rewrite mval_ek by lia. rewrite Z.abs_eq by lia. change (one_units 4) with (2 ^ 149). change (2 ^ 157) with (256 * 2 ^ 149). lia.
Qed.
Lemma uint_float_lane v : 2 ^ 31 <= v < 2 ^ 32 ->
  fadd (of_int 4 (v - 2 ^ 31 - v mod 512)) (fadd (of_int 4 (2 ^ 31)) (of_int 4 (v mod 512))) = of_int 4 v.
Proof.
  intros H. pose proof (Z.mod_pos_bound v 512 ltac:(lia)) as L. pose proof (Z.div_mod v 512 ltac:(lia)) as D.
  set (l := v mod 512) in *. set (h := v / 512) in *.
  rewrite (fadd_of_int fp4).
  2:{ change (2 ^ 31) with (1 * 2 ^ 31). apply (exact_pow fp4); change (mant_bits 4 + 1) with 24; lia. }
  2:{ apply (exact_small fp4). change (mant_bits 4 + 1) with 24. lia. }
  rewrite (of_int_round31 (2 ^ 31 + l)) by lia.
  assert (R : rne v 256 = 2 * h + rne l 256).
  { rewrite !rne_eq. replace (v / 256) with (2 * h + l / 256) by (rewrite D; replace (512 * h + l) with (l + (2 * h) * 256) by ring; rewrite Z.div_add by lia; ring).
    replace (v mod 256) with (l mod 256) by (rewrite D; replace (512 * h + l) with (l + (2 * h) * 256) by ring; rewrite Z.mod_add by lia; reflexivity).
    replace (Z.even (2 * h + l / 256)) with (Z.even (l / 256)) by (rewrite Z.even_add, Z.even_mul; cbn; now destruct (Z.even (l / 256))).
    destruct (2 * (l mod 256) <? 256), (256 <? 2 * (l mod 256)), (Z.even (l / 256)); lia. }
  assert (R' : rne (2 ^ 31 + l) 256 = 2 ^ 23 + rne l 256).
  { rewrite !rne_eq. replace ((2 ^ 31 + l) / 256) with (2 ^ 23 + l / 256) by (replace (2 ^ 31 + l) with (l + (2 ^ 23) * 256) by ring; rewrite Z.div_add by lia; ring).
    replace ((2 ^ 31 + l) mod 256) with (l mod 256) by (replace (2 ^ 31 + l) with (l + (2 ^ 23) * 256) by ring; rewrite Z.mod_add by lia; reflexivity).
    replace (Z.even (2 ^ 23 + l / 256)) with (Z.even (l / 256)) by (rewrite Z.even_add; cbn; now destruct (Z.even (l / 256))).
    destruct (2 * (l mod 256) <? 256), (256 <? 2 * (l mod 256)), (Z.even (l / 256)); lia. }
  pose proof (rne_cases l 256 ltac:(lia)) as RC. cbv zeta in RC. rewrite (fadd_of_int fp4).
  - rewrite (of_int_round31 v) by lia. f_equal. rewrite R, R'. lia.
  - replace (v - 2 ^ 31 - l) with ((h - 2 ^ 22) * 2 ^ 9) by lia. apply (exact_pow fp4); change (mant_bits 4 + 1) with 24; lia.
  - rewrite R'. replace (256 * (2 ^ 23 + rne l 256)) with ((2 ^ 23 + rne l 256) * 2 ^ 8) by lia. apply (exact_pow fp4); change (mant_bits 4 + 1) with 24; lia.
Qed.

(** ** subtracting 2 ^ 31 from a larger float is exact *)
Lemma sub31_repr {w} (Hw : fp_width w) (x : word w) : is_Finite x = true -> 2 ^ 31 * one_units w <= fvalue x < 2 ^ 32 * one_units w ->
  repr (w := w) (Z.abs (fvalue x - fvalue (of_int w (2 ^ 31)))).
Proof.
  intros F B. destruct (exps Hw) as (P & U & T & T2 & T3). assert (E31 : exact_int (w := w) (2 ^ 31)) by (change (2 ^ 31) with (1 * 2 ^ 31); apply (exact_pow Hw); [apply Z.pow_gt_1; lia|lia]).
  destruct (of_int_exact Hw _ E31) as (_ & V31 & _). rewrite V31.
  destruct (finite_repr Hw x F) as (k & e & K & E & V & TB). rewrite (fabs_abs Hw) in V, TB. pose proof (one_units_pos Hw) as UP. rewrite Z.abs_eq in V, TB by lia.
  rewrite units_pow in *. set (uu := unit_exp w) in *. rewrite V in *. clear V.
  rewrite <- !Z.pow_add_r in * by lia. rewrite Z.abs_eq by lia. pose proof (pow_pos2 e E) as PE.
  destruct (Z_le_dec e (31 + uu)) as [Q|Q].
  - exists (k - 2 ^ (31 + uu - e)), e. assert (J : 2 ^ (31 + uu) = 2 ^ (31 + uu - e) * 2 ^ e) by (rewrite <- Z.pow_add_r by lia; f_equal; lia).
    pose proof (pow_pos2 (31 + uu - e) ltac:(lia)). rewrite J in *. repeat split; try lia; nia.
  - exfalso. assert (2 ^ (32 + uu) <= 2 ^ e) by (apply Z.pow_le_mono_r; lia). assert (k = 0 \/ 1 <= k) by lia. nia.
Qed.
