(** Integer division in float arithmetic: (int)(float(a) / float(b)) for 16-bit numbers. *)
From Coq Require Import ZArith List Bool Lia.
From Verif.Spec Require Import Seq FloatSpec RoundSpec CastSpec.
From Verif.Model Require Import Word Fp FpArith SseReg SseMove SortNet SseInt SseBuild SseArith SseMask SimdArray SseConvert.
From Verif.Proof Require Import SeqP WordP FpP FpArithP FpIntP SseIntP SseEmulP SseArithP ConvertP ConvertRegP.
Import ListNotations.
Local Open Scope Z_scope.

Lemma div_lane a b : Z.abs a <= 2 ^ 16 -> 0 < Z.abs b <= 2 ^ 16 ->
  is_Finite (fdiv (of_int 4 a) (of_int 4 b)) = true /\ round_int ToZero (fdiv (of_int 4 a) (of_int 4 b)) = Z.quot a b.
Proof.
  intros HA HB. pose proof fp4 as Hw. destruct (exps Hw) as (P & U & T & T2 & T3). pose proof (one_units_pos Hw) as UP.
  assert (Ea : exact_int (w := 4) a) by (apply (exact_small Hw); change (mant_bits 4 + 1) with 24; lia).
  assert (Eb : exact_int (w := 4) b) by (apply (exact_small Hw); change (mant_bits 4 + 1) with 24; lia).
  destruct (of_int_exact Hw a Ea) as (Fa & Va & Na & Aa). destruct (of_int_exact Hw b Eb) as (Fb & Vb & Nb & Ab).
  unfold fdiv, nan2. rewrite !(finite_not_nan Hw), !(finite_not_inf Hw), !(is_zero_value Hw) by auto. rewrite Aa, Ab, Na, Nb.
  replace (Z.abs b * one_units 4 =? 0) with false by (symmetry; apply Z.eqb_neq; nia).
  set (s := xorb (a <? 0) (b <? 0)). set (A := Z.abs a) in *. set (B := Z.abs b) in *. set (V := one_units 4) in *.
  assert (A0 : 0 <= A) by (unfold A; lia).
  set (q := A / B). assert (Q : B * q <= A < B * q + B) by (unfold q; pose proof (Z.div_mod A B ltac:(lia)); pose proof (Z.mod_pos_bound A B ltac:(lia)); lia).
  assert (Q0 : 0 <= q <= 2 ^ 16) by nia.
  set (l := Z.log2_up B).
  assert (L : 0 <= l <= 16 /\ B <= 2 ^ l /\ 2 ^ l <= 2 * B).
  { unfold l. split; [split; [apply Z.log2_up_nonneg|apply Z.log2_up_le_pow2; lia]|]. split; [apply Z.log2_log2_up_spec; lia|].
    destruct (Z.eq_dec B 1) as [->|]; [vm_compute; congruence|]. pose proof (Z.log2_up_spec B ltac:(lia)) as (S1 & _).
    assert (0 < Z.log2_up B) by (apply Z.log2_up_pos; lia). replace (Z.log2_up B) with (Z.succ (Z.pred (Z.log2_up B))) by lia. rewrite Z.pow_succ_r by lia. lia. }
  destruct L as (L & LB & LB'). pose proof (pow_pos2 l ltac:(lia)) as PL.
  assert (UV : V = 2 ^ (149 - l) * 2 ^ l) by (unfold V; rewrite <- Z.pow_add_r by lia; change (one_units 4) with (2 ^ 149); f_equal; lia).
  (* the quotient and a float just below the quotient plus one *)
  assert (R1 : repr (w := 4) (q * V)) by (pose proof (exact_small (w := 4) Hw q) as E; unfold exact_int in E; rewrite Z.abs_eq in E by lia; apply E; change (mant_bits 4 + 1) with 24; lia).
  assert (R2 : repr (w := 4) (((q + 1) * 2 ^ l - 1) * 2 ^ (149 - l))).
  { apply (repr_pow Hw); [change (mant_bits 4 + 1) with 24; nia|lia|]. change (mant_bits 4) with 23. change (top_exp 4) with 277. lia. }
  destruct (repr_mag Hw _ R1) as (m1 & M1 & V1). destruct (repr_mag Hw _ R2) as (m2 & M2 & V2).
  assert (N0 : 0 <= A * V * V) by nia. assert (D0 : 0 < B * V) by nia.
  pose proof (rnd_ge _ (mant_pos Hw) (A * V * V) (B * V) m1 N0 D0 ltac:(lia) ltac:(rewrite V1; nia)) as G1.
  assert (G2 : rnd (mant_bits 4) (A * V * V) (B * V) <= m2).
  { apply (rnd_le _ (mant_pos Hw)); auto; [lia|]. rewrite V2. replace (((q + 1) * 2 ^ l - 1) * 2 ^ (149 - l) * (B * V)) with (((q + 1) * 2 ^ l - 1) * B * (2 ^ (149 - l) * V)) by ring.
    rewrite UV at 1. replace (A * (2 ^ (149 - l) * 2 ^ l) * V) with (A * 2 ^ l * (2 ^ (149 - l) * V)) by ring.
    apply Z.mul_le_mono_nonneg_r; [pose proof (pow_pos2 (149 - l) ltac:(lia)); nia|]. nia. }
  assert (RM : round_magnitude 4 (A * V * V) (B * V) = rnd (mant_bits 4) (A * V * V) (B * V)) by (rewrite round_magnitude_rnd; lia).
  set (m := rnd (mant_bits 4) (A * V * V) (B * V)) in *.
  pose proof (inf_bound Hw) as IB.
  assert (VL : q * V <= mval (mant_bits 4) m) by (rewrite <- V1; apply (mval_le _ (mant_pos Hw)); lia).
  assert (VU : mval (mant_bits 4) m < (q + 1) * V).
  { apply Z.le_lt_trans with (((q + 1) * 2 ^ l - 1) * 2 ^ (149 - l)); [rewrite <- V2; apply (mval_le _ (mant_pos Hw)); lia|]. pose proof (pow_pos2 (149 - l) ltac:(lia)). rewrite UV. nia. }
  unfold fround. rewrite RM. split; [apply (finite_with_sign Hw); lia|].
  rewrite !round_int_eq. rewrite (fvalue_with_sign Hw) by lia. set (v := mval (mant_bits 4) m) in *. fold V.
  assert (QV : Z.quot v V = q) by (rewrite Z.quot_div_nonneg by nia; symmetry; apply Z.div_unique with (r := v - q * V); nia).
  assert (QQ : Z.quot A B = q) by (rewrite Z.quot_div_nonneg by lia; reflexivity).
  assert (Hb0 : b <> 0) by (unfold B in HB; lia).
  destruct (Z.ltb_spec a 0), (Z.ltb_spec b 0); cbn [s xorb] in *; unfold s; cbn [xorb].
  - rewrite Z.mul_1_l, QV, <- QQ. unfold A, B. rewrite !Z.abs_neq by lia. rewrite Z.quot_opp_opp by lia. reflexivity.
  - replace (-1 * v) with (- v) by lia. rewrite Z.quot_opp_l, QV, <- QQ by lia. unfold A, B. rewrite Z.abs_neq, Z.abs_eq by lia. rewrite Z.quot_opp_l by lia. lia.
  - replace (-1 * v) with (- v) by lia. rewrite Z.quot_opp_l, QV, <- QQ by lia. unfold A, B. rewrite Z.abs_eq, Z.abs_neq by lia. rewrite Z.quot_opp_r by lia. lia.
  - rewrite Z.mul_1_l, QV, <- QQ. unfold A, B. rewrite !Z.abs_eq by lia. reflexivity.
Qed.

(** ** registers *)
Definition v16 (e : etype) (x : word 2) : Z := if is_signed e then sval x else uval x.
Lemma join_zero (x : word 2) : join x (w0 2) = mkw 4 (uval x).
Proof.
  apply word_ext. rewrite (uval_join 2), uval_w0, uval_mkw. pose proof (uval_range x). rewrite Z.mod_small; [lia|].
  change (modulus 4) with (2 ^ 32). change (modulus 2) with (2 ^ 16) in *. lia.
Qed.
Lemma expand0_pack e (xs : list (word 2)) : e = Short \/ e = UShort -> length xs = 8%nat ->
  h_expand0 e (pack xs) = pack (map (fun x => mkw 4 (v16 e x)) (firstn 4 xs)).
Proof.
  intros E L. eight xs. destruct E as [-> | ->]; unfold h_expand0, srai_epi.
  - rewrite unpacklo2, join_pair2, (lift1_pack (2 * 2)) by reflexivity. cbn [map firstn]. rewrite !srai_join. reflexivity.
  - rewrite zero2. cbn [repeat]. rewrite unpacklo2, join_pair2. cbn [map firstn]. rewrite !join_zero. reflexivity.
Qed.
Lemma expand1_pack e (xs : list (word 2)) : e = Short \/ e = UShort -> length xs = 8%nat ->
  h_expand1 e (pack xs) = pack (map (fun x => mkw 4 (v16 e x)) (skipn 4 xs)).
Proof.
  intros E L. eight xs. destruct E as [-> | ->]; unfold h_expand1, srai_epi.
  - rewrite unpackhi2, join_pair2, (lift1_pack (2 * 2)) by reflexivity. cbn [map skipn]. rewrite !srai_join. reflexivity.
  - rewrite zero2. cbn [repeat]. rewrite unpackhi2, join_pair2. cbn [map skipn]. rewrite !join_zero. reflexivity.
Qed.
Definition div16_lane (e : etype) (x y : word 2) : word 4 :=
  cvt_int32 ToZero (fdiv (of_int 4 (v16 e x)) (of_int 4 (v16 e y))).
Definition concat_lane (sse41 : bool) (e : etype) (z : word 4) : word 2 :=
  match e with
  | Short => saturate_s 2 (sval z)
  | _ => if sse41 then mkw 2 (Z.max 0 (Z.min (2 ^ 16 - 1) (sval z))) else mkw 2 (uval z)
  end.
Lemma concat_pack sse41 e (xs ys : list (word 4)) : length xs = 4%nat -> length ys = 4%nat ->
  h_concat sse41 e (pack xs) (pack ys) = pack (map (concat_lane sse41 e) (xs ++ ys)).
Proof.
  intros Hx Hy. unfold h_concat, concat_lane. destruct e; [now apply packs_pack|..]; destruct sse41; try (now apply i16_pack);
    unfold packus_epi32; rewrite !lanes_pack by assumption; reflexivity.
Qed.
Lemma v16_range e x : - 2 ^ 15 <= v16 e x < 2 ^ 16.
Proof.
  unfold v16. pose proof (uval_range x). pose proof (sval_range x ltac:(lia)). change (modulus 2) with (2 ^ 16) in *. change (2 ^ 16 / 2) with (2 ^ 15) in *. destruct (is_signed e); lia.
Qed.
Lemma sval_v16 e x : sval (mkw 4 (v16 e x)) = v16 e x.
Proof. apply mkw4_sval. pose proof (v16_range e x). lia. Qed.
Lemma div16_pack sse41 e (xs ys : list (word 2)) : e = Short \/ e = UShort -> length xs = 8%nat -> length ys = 8%nat ->
  div16 sse41 e (pack xs) (pack ys) = pack (map2 (fun x y => concat_lane sse41 e (div16_lane e x y)) xs ys).
Proof.
  intros E Hx Hy. unfold div16. rewrite !expand0_pack, !expand1_pack by assumption. eight xs. eight ys. cbn [map firstn skipn].
  rewrite !cvtepi32_ps_pack by reflexivity. cbn [map]. rewrite !sval_v16. unfold v_fdiv. rewrite !lift2_pack by reflexivity. cbn [map2].
  rewrite !cvttps_pack by reflexivity. cbn [map]. rewrite concat_pack by reflexivity. reflexivity.
Qed.
Lemma in_range16 e z : e = Short \/ e = UShort -> in_range e z -> - 2 ^ 15 <= z < 2 ^ 16.
Proof. intros [-> | ->] H; unfold in_range in H; cbn [is_signed esize] in H; [change (8 * Z.of_nat 2 - 1) with 15 in H|change (8 * Z.of_nat 2) with 16 in H]; lia. Qed.
Lemma div16_lane_ok sse41 e (x y : word 2) : e = Short \/ e = UShort -> v16 e y <> 0 -> in_range e (Z.quot (v16 e x) (v16 e y)) ->
  v16 e (concat_lane sse41 e (div16_lane e x y)) = Z.quot (v16 e x) (v16 e y).
Proof.
  intros E N R. pose proof (v16_range e x). pose proof (v16_range e y). pose proof (in_range16 e _ E R) as R'.
  destruct (div_lane (v16 e x) (v16 e y)) as (F & Q); [lia|lia|]. unfold div16_lane. rewrite (cvt_int32_ok fp4) by (rewrite ?Q; auto; lia). rewrite Q.
  set (q := Z.quot (v16 e x) (v16 e y)) in *. clearbody q. destruct E as [-> | ->]; unfold in_range in R; cbn [is_signed esize] in R.
  - change (8 * Z.of_nat 2 - 1) with 15 in R. unfold concat_lane, saturate_s, v16. cbn [is_signed]. rewrite mkw4_sval by lia. change (bits 2 - 1) with 15.
    rewrite Z.min_r, Z.max_r by lia. apply sval_small; [lia|]. change (modulus 2 / 2) with (2 ^ 15). lia.
  - change (8 * Z.of_nat 2) with 16 in R. unfold concat_lane, v16. cbn [is_signed]. rewrite mkw4_sval by lia. destruct sse41.
    + rewrite Z.min_r, Z.max_r by lia. rewrite uval_mkw. apply Z.mod_small. change (modulus 2) with (2 ^ 16). lia.
    + rewrite !uval_mkw. change (modulus 2) with (2 ^ 16). change (modulus 4) with (2 ^ 32). rewrite (Z.mod_small q (2 ^ 32)) by lia. apply Z.mod_small. lia.
Qed.

(** ** division and remainder *)
Lemma esize_pos e : (0 < esize e)%nat.
Proof. destruct e; cbn; lia. Qed.
Lemma pow_modulus e : 2 ^ (8 * Z.of_nat (esize e)) = modulus (esize e).
Proof. destruct e; reflexivity. Qed.
Lemma pow_half e : 2 ^ (8 * Z.of_nat (esize e) - 1) = modulus (esize e) / 2.
Proof. destruct e; reflexivity. Qed.
Lemma int_value_mkw e z : in_range e z -> int_value e (mkw (esize e) z) = z.
Proof.
  unfold in_range, int_value. rewrite pow_modulus, pow_half. destruct (is_signed e); intros H; [apply sval_small; auto using esize_pos|].
  rewrite uval_mkw. now apply Z.mod_small.
Qed.
Lemma int_value_in_range e (x : elt e) : in_range e (int_value e x).
Proof. unfold in_range, int_value. rewrite pow_modulus, pow_half. destruct (is_signed e); [apply sval_range, esize_pos|apply uval_range]. Qed.
Lemma int_value_mod e (x : elt e) : int_value e x mod modulus (esize e) = uval x.
Proof. unfold int_value. destruct (is_signed e); [apply sval_mod|apply Z.mod_small, uval_range]. Qed.

Definition divides_ok (e : etype) (x y : elt e) : Prop := int_value e y <> 0 /\ in_range e (Z.quot (int_value e x) (int_value e y)).
Lemma map_map2 {A B C D} (g : C -> D) (f : A -> B -> C) : forall xs ys, map g (map2 f xs ys) = map2 (fun x y => g (f x y)) xs ys.
Proof. induction xs as [|x xs IH]; intros [|y ys]; cbn; [reflexivity..|]. now rewrite IH. Qed.
Lemma map2_F2 {A B C} (R : A -> B -> Prop) (f g : A -> B -> C) xs ys : Forall2 R xs ys -> (forall x y, R x y -> f x y = g x y) -> map2 f xs ys = map2 g xs ys.
Proof. intros H E. induction H; cbn; [reflexivity|]. rewrite E, IHForall2 by assumption. reflexivity. Qed.
Lemma length_map2 {A B C} (f : A -> B -> C) : forall xs ys, length xs = length ys -> length (map2 f xs ys) = length xs.
Proof. induction xs as [|x xs IH]; intros [|y ys] H; cbn in *; try discriminate; auto. Qed.
Lemma sequence_F2 {A B C} (R : A -> B -> Prop) (f : A -> B -> option C) (g : A -> B -> C) xs ys : Forall2 R xs ys -> (forall x y, R x y -> f x y = Some (g x y)) ->
  sequence (map2 f xs ys) = Some (map2 g xs ys).
Proof. intros H E. induction H; cbn; [reflexivity|]. rewrite E, IHForall2 by assumption. reflexivity. Qed.
Definition div_lane_fn (sse41 : bool) (e : etype) : elt e -> elt e -> elt e :=
  match e with
  | Short => fun x y => concat_lane sse41 Short (div16_lane Short x y)
  | UShort => fun x y => concat_lane sse41 UShort (div16_lane UShort x y)
  | Int => fun x y => mkw 4 (Z.quot (sval x) (sval y))
  | UInt => fun x y => mkw 4 (uval x / uval y)
  | Float => fun x y => x
  | Double => fun x y => x
  end.
Lemma div_lane_fn_ok sse41 e (x y : elt e) : is_integer e = true -> divides_ok e x y ->
  int_value e (div_lane_fn sse41 e x y) = Z.quot (int_value e x) (int_value e y).
Proof.
  intros He (N & R). destruct e; try discriminate He.
  - exact (div16_lane_ok sse41 Short x y (or_introl eq_refl) N R).
  - exact (div16_lane_ok sse41 UShort x y (or_intror eq_refl) N R).
  - exact (int_value_mkw Int _ R).
  - assert (Q : Z.quot (int_value UInt x) (int_value UInt y) = uval x / uval y).
    { change (Z.quot (uval x) (uval y) = uval x / uval y). change (uval y <> 0) in N. pose proof (uval_range x). pose proof (uval_range y). apply Z.quot_div_nonneg; lia. }
    rewrite Q in *. exact (int_value_mkw UInt _ R).
Qed.
Lemma idiv_pack sse41 e (xs ys : list (elt e)) : is_integer e = true -> length xs = (16 / esize e)%nat -> length ys = (16 / esize e)%nat ->
  Forall2 (divides_ok e) xs ys -> v_idiv sse41 e (pack xs) (pack ys) = Some (pack (map2 (div_lane_fn sse41 e) xs ys)).
Proof.
  intros He Hx Hy H. destruct e; try discriminate He; unfold v_idiv.
  - f_equal. exact (div16_pack sse41 Short xs ys (or_introl eq_refl) Hx Hy).
  - f_equal. exact (div16_pack sse41 UShort xs ys (or_intror eq_refl) Hx Hy).
  - unfold div32. rewrite !lanes_pack by assumption. rewrite (sequence_F2 (divides_ok Int) _ (div_lane_fn sse41 Int)); [reflexivity|exact H|].
    intros x y (N & R). unfold cxx_div. unfold elt in *; cbn [esize] in *. change (sval y <> 0) in N. unfold in_range in R. cbn [is_signed esize] in R. change (8 * Z.of_nat 4 - 1) with 31 in R.
    change (int_value Int x) with (sval x) in R. change (int_value Int y) with (sval y) in R.
    destruct (Z.eqb_spec (sval y) 0); [contradiction|]. destruct (Z.eqb_spec (sval x) (- 2 ^ 31)) as [E1|]; [|reflexivity]. destruct (Z.eqb_spec (sval y) (-1)) as [E2|]; [|reflexivity].
    exfalso. rewrite E1, E2 in R. change (Z.quot (- 2 ^ 31) (-1)) with (2 ^ 31) in R. lia.
  - unfold div32. rewrite !lanes_pack by assumption. rewrite (sequence_F2 (divides_ok UInt) _ (div_lane_fn sse41 UInt)); [reflexivity|exact H|].
    intros x y (N & R). unfold cxx_div. unfold elt in *; cbn [esize] in *. change (uval y <> 0) in N. destruct (Z.eqb_spec (uval y) 0); [contradiction|reflexivity].
Qed.
Lemma rem_in_range e (x y : elt e) : int_value e y <> 0 -> in_range e (Z.rem (int_value e x) (int_value e y)).
Proof.
  intros N. pose proof (int_value_in_range e x) as X. pose proof (int_value_in_range e y) as Y. unfold in_range in *. rewrite pow_modulus, pow_half in *.
  pose proof (Z.rem_bound_abs (int_value e x) _ N). pose proof (modulus_even (esize e) (esize_pos e)) as M.
  destruct (Z_le_dec 0 (int_value e x)).
  - pose proof (Z.rem_nonneg (int_value e x) _ N ltac:(assumption)). destruct (is_signed e); [|lia].
    destruct (Z.eq_dec (Z.abs (int_value e y)) (modulus (esize e) / 2)); lia.
  - pose proof (Z.rem_nonpos (int_value e x) _ N ltac:(lia)). destruct (is_signed e); lia.
Qed.
Lemma rem_lane sse41 e (x y : elt e) : is_integer e = true -> divides_ok e x y ->
  int_value e (wsub x (wmul (div_lane_fn sse41 e x y) y)) = Z.rem (int_value e x) (int_value e y).
Proof.
  intros He H. pose proof (div_lane_fn_ok sse41 e x y He H) as Q. destruct H as (N & R). set (q := div_lane_fn sse41 e x y) in *.
  rewrite <- (int_value_mkw e (Z.rem (int_value e x) (int_value e y))) by now apply rem_in_range. f_equal. unfold wsub, wmul. apply mkw_eq.
  rewrite uval_mkw, <- (int_value_mod e x), <- (int_value_mod e y), <- (int_value_mod e q). rewrite Q.
  pose proof (modulus_pos (esize e)). rewrite <- Z.mul_mod by lia. rewrite <- Zminus_mod. f_equal. pose proof (Z.quot_rem' (int_value e x) (int_value e y)). lia.
Qed.
Lemma imod_pack sse41 e (xs ys : list (elt e)) : is_integer e = true -> length xs = (16 / esize e)%nat -> length ys = (16 / esize e)%nat ->
  Forall2 (divides_ok e) xs ys -> v_imod sse41 e (pack xs) (pack ys) = Some (pack (map2 (fun x y => wsub x (wmul (div_lane_fn sse41 e x y) y)) xs ys)).
Proof.
  intros He Hx Hy H. unfold v_imod. rewrite idiv_pack by assumption. cbn [obind]. f_equal.
  assert (L1 : length (map2 (div_lane_fn sse41 e) xs ys) = (16 / esize e)%nat) by (rewrite length_map2 by congruence; assumption).
  rewrite v_mul_pack by assumption. rewrite v_sub_pack; [|assumption|etransitivity; [apply length_map2; etransitivity; [exact L1|symmetry; exact Hy]|exact L1]]. f_equal.
  clear L1.
  clear H. revert ys Hy. clear Hx. generalize (16 / esize e)%nat. induction xs as [|x xs IH]; intros n [|y ys] Hy; cbn; auto. now rewrite (IH (length ys) ys eq_refl).
Qed.
