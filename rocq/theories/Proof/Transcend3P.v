(** Lemmas about log, log2, log10 and exp of Model/Transcend. *)
From Coq Require Import ZArith List Bool Lia.
From Verif.Spec Require Import Seq FloatSpec RoundSpec MathSpec TransSpec.
From Verif.Model Require Import Word Fp FpArith Transcend.
From Verif.Proof Require Import WordP SeqP FpP FpArithP FpIntP ConvertP ConvertRegP MathP TranscendP Transcend2P.
Import ListNotations.
Local Open Scope Z_scope.

(** * log *)
(** the argument in [sqrt 1/2, sqrt 2) minus 1 and the exponent *)
Definition log_reduce (w : nat) (x0 : word w) : word w * word w :=
  let denormal := fle x0 (c_min w) in
  let x := l_set denormal x0 (fmul x0 (of_int w (2 ^ 54))) in
  let exponent := l_exponent x in
  let exponent := l_set denormal exponent (fsub exponent (of_int w 54)) in
  let x := mkw w (uval x - exponent_field x * 2 ^ mant_bits w) in
  let x := mkw w (Z.lor (uval x) (uval (half w))) in
  let smallX := flt x (c_1_sqrt2 w) in
  let x := l_set smallX x (fadd x x) in
  let x := fsub x (one w) in
  let exponent := l_set (negb smallX) exponent (fadd exponent (one w)) in
  (x, exponent).
Lemma log_calc_eq w b x : log_calc w b x = l_set (feq x (w0 w)) (l_qnan (flt x (w0 w)) (log_series w b (fst (log_reduce w x)) (snd (log_reduce w x)))) (c_neginf w).
Proof. reflexivity. Qed.
Lemma log_negative {w} (Hw : fp_width w) b (x : word w) : is_nan x = false -> fvalue x < 0 -> is_nan (log_calc w b x) = true.
Proof.
  intros N V. rewrite log_calc_eq, (eq_zero Hw). assert (Z : is_zero x = false) by (rewrite (is_zero_value Hw), (fabs_abs Hw); apply Z.eqb_neq; lia).
  rewrite Z, (lt_num Hw x (w0 w) N (nan_w0 Hw)), (zero_value Hw). cbn [l_set]. replace (fvalue x <? 0) with true by (symmetry; now apply Z.ltb_lt). apply (nqnan_all Hw).
Qed.
Lemma log_zero {w} (Hw : fp_width w) b (x : word w) : is_Zero x -> log_calc w b x = c_neginf w.
Proof. intros Z. rewrite log_calc_eq, (eq_zero Hw). apply (zero_iff Hw) in Z. now rewrite Z. Qed.

(** powers of two *)
Section P.
  Context {w : nat} (Hw : fp_width w).
  Local Notation p := (mant_bits w).
  Local Notation k := (exp_bits w).
  Local Notation bias := (2 ^ (exp_bits w - 1) - 1).
  Lemma power_fields (x : word w) e : is_power_of_two x e -> negative x = false /\ is_Finite x = true /\
    (exponent_field x = 0 /\ fraction x = 2 ^ (e + unit_exp w) /\ 0 <= e + unit_exp w < p \/ 0 < exponent_field x < 2 ^ k - 1 /\ fraction x = 0 /\ e = exponent_field x - bias).
  Proof.
    intros (F & V). rewrite (fone_units Hw) in V. unfold one_units in V. pose proof (mant_pos Hw) as MP.
    assert (UE : unit_exp w = bias + p - 1 /\ 0 < unit_exp w) by (unfold unit_exp; destruct Hw as [->| ->]; vm_compute; split; reflexivity). destruct UE as (UE & UP).
    pose proof (fvalue_abs Hw x) as VA. pose proof (fabs_nonneg Hw x) as P0.
    assert (P1 : 0 < 2 ^ Z.max 0 (- e)) by (apply Z.pow_pos_nonneg; lia). assert (P2 : 0 < 2 ^ Z.max 0 e) by (apply Z.pow_pos_nonneg; lia). assert (P3 : 0 < 2 ^ unit_exp w) by (apply Z.pow_pos_nonneg; lia).
    assert (VP : 0 < fvalue x) by nia.
    assert (NX : negative x = false) by (destruct (negative x); [lia|reflexivity]). split; [exact NX|]. split; [exact F|]. rewrite NX in VA. assert (VE : fvalue x = fabs_value x) by lia.
    rewrite VE in *. clear VE VA.
    assert (W : exists u, u = e + unit_exp w /\ 0 <= u /\ fabs_value x = 2 ^ u).
    { exists (e + unit_exp w). split; [reflexivity|]. destruct (Z_le_dec 0 e) as [E|E].
      - rewrite (Z.max_l 0 (- e)), (Z.max_r 0 e) in V by lia. change (2 ^ 0) with 1 in V. rewrite Z.mul_1_r, <- Z.pow_add_r in V by lia. split; [lia|]. rewrite V. f_equal. lia.
      - rewrite (Z.max_r 0 (- e)), (Z.max_l 0 e) in V by lia. change (2 ^ 0) with 1 in V. rewrite Z.mul_1_r in V.
        destruct (Z_le_dec 0 (e + unit_exp w)) as [G|G].
        + split; [exact G|]. replace (unit_exp w) with (e + unit_exp w + - e) in V at 1 by lia. rewrite Z.pow_add_r in V by lia. nia.
        + exfalso. assert (2 ^ unit_exp w < 2 ^ (- e)) by (apply Z.pow_lt_mono_r; lia). nia. }
    destruct W as (u & U & U0 & W). rewrite <- U. clear V.
    destruct (fields_range Hw x) as (ER & FR). pose proof (mval_0 p) as _.
    unfold fabs_value in W. rewrite (frac_mant Hw) in W. destruct (Z.eqb_spec (exponent_field x) 0) as [E0|E0].
    - left. split; [exact E0|]. split; [exact W|]. split; [exact U0|]. apply (Z.pow_lt_mono_r_iff 2); lia.
    - right. assert (EB : 0 < exponent_field x) by lia.
      assert (EK : exponent_field x < 2 ^ k - 1). { unfold is_Finite, all_ones_exponent in F. rewrite (expo_exp Hw) in F. apply negb_true_iff, Z.eqb_neq in F. lia. }
      split; [lia|]. set (ef := exponent_field x) in *. set (f := fraction x) in *.
      assert (PE : 0 < 2 ^ (ef - 1)) by (apply Z.pow_pos_nonneg; lia).
      assert (L1 : 2 ^ (p + (ef - 1)) <= 2 ^ u) by (rewrite Z.pow_add_r by lia; rewrite <- W; nia).
      assert (L2 : 2 ^ u < 2 ^ (p + (ef - 1) + 1)) by (rewrite Z.pow_add_r, Z.pow_add_r by lia; rewrite <- W; change (2 ^ 1) with 2; nia).
      apply Z.pow_le_mono_r_iff in L1; [|lia|lia]. apply Z.pow_lt_mono_r_iff in L2; [|lia|lia]. assert (UU : u = p + (ef - 1)) by lia.
      rewrite UU, Z.pow_add_r in W by lia. split; [nia|]. lia.
  Qed.
End P.
Definition reduced_ok (w : nat) (j : Z) : bool :=
  let r := log_reduce w (mkw w (2 ^ j)) in (uval (fst r) =? 0) && (uval (snd r) =? uval (of_int w (j - unit_exp w))).
Lemma reduced4 : forallb (fun j => reduced_ok 4 (Z.of_nat j)) (seq 0 24) = true.
Proof. vm_compute. reflexivity. Qed.
Lemma reduced8 : forallb (fun j => reduced_ok 8 (Z.of_nat j)) (seq 0 53) = true.
Proof. vm_cast_no_check (eq_refl true). Qed.
Lemma reduce_small {w} (Hw : fp_width w) j : 0 <= j <= mant_bits w -> log_reduce w (mkw w (2 ^ j)) = (w0 w, of_int w (j - unit_exp w)).
Proof.
  intros J. assert (R : reduced_ok w j = true).
  { destruct Hw as [->| ->].
    - pose proof reduced4 as R. rewrite forallb_forall in R. specialize (R (Z.to_nat j)). rewrite Z2Nat.id in R by lia. apply R, in_seq. change (mant_bits 4) with 23 in J. lia.
    - pose proof reduced8 as R. rewrite forallb_forall in R. specialize (R (Z.to_nat j)). rewrite Z2Nat.id in R by lia. apply R, in_seq. change (mant_bits 8) with 52 in J. lia. }
  unfold reduced_ok in R. cbv zeta in R. apply andb_prop in R. destruct R as (A & B). apply Z.eqb_eq in A, B. destruct (log_reduce w (mkw w (2 ^ j))) as (a & b). cbn [fst snd] in *.
  f_equal; apply word_ext; [rewrite A; destruct Hw as [->| ->]; reflexivity|exact B].
Qed.
Lemma fin_half {w} (Hw : fp_width w) : mkw w (Z.lor (uval (mkw w 0)) (uval (half w))) = half w /\ flt (half w) (c_1_sqrt2 w) = true /\ fsub (fadd (half w) (half w)) (one w) = w0 w.
Proof. destruct Hw as [->| ->]; (split; [apply word_ext; vm_compute; reflexivity|]); (split; [vm_compute; reflexivity|apply word_ext; vm_compute; reflexivity]). Qed.
Lemma reduce_normal {w} (Hw : fp_width w) (x : word w) : negative x = false -> fraction x = 0 -> 1 < exponent_field x < 2 ^ exp_bits w - 1 ->
  log_reduce w x = (w0 w, of_int w (exponent_field x - (2 ^ (exp_bits w - 1) - 1))).
Proof.
  intros N F E. pose proof (pow_pos2 _ (mant_nonneg Hw)) as PP. pose proof (u_fields Hw x) as U. rewrite N, F in U. rewrite Z.mul_0_l, Z.add_0_l, Z.add_0_r in U.
  pose proof (mag_fields Hw x) as M. rewrite F in M.
  assert (CM : is_nan (c_min w) = false /\ negative (c_min w) = false /\ magnitude (c_min w) = 2 ^ mant_bits w) by (destruct Hw as [->| ->]; vm_compute; repeat split).
  destruct CM as (C1 & C2 & C3).
  assert (D : fle x (c_min w) = false). { unfold fle. rewrite andb_comm. unfold fkey. rewrite N, C2, C3, M. replace (exponent_field x * 2 ^ mant_bits w + 0 <=? 2 ^ mant_bits w) with false; [reflexivity|]. symmetry. apply Z.leb_gt. nia. }
  unfold log_reduce. cbv zeta. rewrite D. cbn [l_set]. destruct (fin_half Hw) as (H1 & H2 & H3).
  rewrite U, Z.sub_diag, H1, H2. cbn [l_set negb]. rewrite H3. f_equal. unfold l_exponent. rewrite U, Z.div_mul by lia. reflexivity.
Qed.
Lemma series_base2 {w} (Hw : fp_width w) E : log_series w Base2 (w0 w) E = fadd (of_int w 0) E.
Proof.
  destruct Hw as [->| ->]; cbn [log_series].
  - unfold log_series4, log_finish. cbv zeta. apply (f_equal (fun u => fadd u E)). apply word_ext. vm_compute. reflexivity.
  - unfold log_series8, log_finish. cbv zeta. apply (f_equal (fun u => fadd u E)). apply word_ext. vm_compute. reflexivity.
Qed.
Lemma unit_bias {w} (Hw : fp_width w) : unit_exp w = 2 ^ (exp_bits w - 1) - 1 + mant_bits w - 1.
Proof. destruct Hw as [->| ->]; reflexivity. Qed.
Lemma expo_limits {w} (Hw : fp_width w) : 2 ^ exp_bits w <= 2 ^ mant_bits w /\ 0 < 2 ^ (exp_bits w - 1) < 2 ^ mant_bits w /\ unit_exp w < 2 ^ mant_bits w /\ 0 < unit_exp w.
Proof. destruct Hw as [->| ->]; vm_compute; repeat split; congruence. Qed.
Lemma log2_power {w} (Hw : fp_width w) (x : word w) e : is_power_of_two x e -> has_value (log_calc w Base2 x) e.
Proof.
  intros H. destruct (power_fields Hw x e H) as (N & F & C). pose proof (mant_pos Hw) as MP. pose proof (pow_pos2 _ (mant_nonneg Hw)) as PP. destruct (expo_limits Hw) as (EL1 & EL2 & EL3 & EL4).
  pose proof (unit_bias Hw) as UB.
  assert (R : log_reduce w x = (w0 w, of_int w e) /\ Z.abs e <= 2 ^ mant_bits w).
  { destruct C as [(E0 & FR & J)|(E & FR & EE)].
    - assert (X : x = mkw w (2 ^ (e + unit_exp w))). { rewrite <- (fields_eta Hw x), N, E0, FR. unfold with_fields, with_sign. rewrite Z.mul_0_l, !Z.add_0_l. reflexivity. }
      rewrite X. rewrite (reduce_small Hw) by lia. split; [|lia]. replace (e + unit_exp w - unit_exp w) with e by lia. reflexivity.
    - destruct (Z.eq_dec (exponent_field x) 1) as [E1|E1].
      + assert (X : x = mkw w (2 ^ mant_bits w)). { rewrite <- (fields_eta Hw x), N, E1, FR. unfold with_fields, with_sign. rewrite Z.mul_1_l, Z.add_0_l, Z.add_0_r. reflexivity. }
        rewrite X, (reduce_small Hw) by lia. split; [|lia]. replace (mant_bits w - unit_exp w) with e by lia. reflexivity.
      + rewrite (reduce_normal Hw x N FR) by lia. split; [|lia]. rewrite <- EE. reflexivity. }
  destruct R as (R & B).
  assert (VP : 0 < fvalue x).
  { destruct H as (_ & V). rewrite (fone_units Hw) in V. pose proof (one_units_pos Hw). assert (0 < 2 ^ Z.max 0 (- e)) by (apply Z.pow_pos_nonneg; lia). assert (0 < 2 ^ Z.max 0 e) by (apply Z.pow_pos_nonneg; lia). nia. }
  rewrite log_calc_eq, R, (eq_zero Hw), (is_zero_value Hw), (fabs_abs Hw), (lt_num Hw x (w0 w) (finite_not_nan Hw x F) (nan_w0 Hw)), (zero_value Hw). cbn [fst snd].
  replace (Z.abs (fvalue x) =? 0) with false by (symmetry; apply Z.eqb_neq; lia). replace (fvalue x <? 0) with false by (symmetry; apply Z.ltb_ge; lia). cbn [l_set l_qnan].
  rewrite (series_base2 Hw). assert (X0 : exact_int (w := w) 0) by (apply (exact_small Hw); rewrite Z.pow_add_r by lia; lia). assert (XE : exact_int (w := w) e) by (apply (exact_small Hw); rewrite Z.pow_add_r by lia; lia).
  rewrite (fadd_of_int Hw 0 e X0 XE), Z.add_0_l. destruct (of_int_exact Hw e XE) as (A & V & _). unfold has_value. rewrite (fone_units Hw). now split.
Qed.
Lemma log_one {w} (Hw : fp_width w) b : log_calc w b (one w) = w0 w.
Proof. destruct Hw as [->| ->], b; apply word_ext; vm_compute; reflexivity. Qed.

(** * exp *)
Lemma exp4_over sse41 c x : is_nan x = false -> fvalue maxlogf < fvalue x -> exp4 sse41 c x = pos_inf 4.
Proof.
  intros N V. unfold exp4. cbv zeta. assert (NM : is_nan maxlogf = false /\ is_nan minlogf = false /\ fvalue minlogf < fvalue maxlogf) by (vm_compute; repeat split). destruct NM as (M1 & M2 & M3).
  rewrite (gt_num fp4), (lt_num fp4) by assumption. replace (fvalue maxlogf <? fvalue x) with true by (symmetry; now apply Z.ltb_lt).
  replace (fvalue x <? fvalue minlogf) with false by (symmetry; apply Z.ltb_ge; lia). reflexivity.
Qed.
Lemma exp4_under sse41 c x : is_nan x = false -> fvalue x < fvalue minlogf -> exp4 sse41 c x = w0 4.
Proof.
  intros N V. unfold exp4. cbv zeta. assert (M2 : is_nan minlogf = false) by reflexivity. rewrite (lt_num fp4 x minlogf) by assumption. replace (fvalue x <? fvalue minlogf) with true by (symmetry; now apply Z.ltb_lt). reflexivity.
Qed.
Lemma exp8_over sse41 c x : is_nan x = false -> fvalue maxlog < fvalue x -> exp8 sse41 c x = pos_inf 8.
Proof.
  intros N V. unfold exp8. cbv zeta. assert (NM : is_nan maxlog = false /\ is_nan minlog = false /\ fvalue minlog < fvalue maxlog) by (vm_compute; repeat split). destruct NM as (M1 & M2 & M3).
  rewrite (gt_num fp8), (lt_num fp8) by assumption. replace (fvalue maxlog <? fvalue x) with true by (symmetry; now apply Z.ltb_lt).
  replace (fvalue x <? fvalue minlog) with false by (symmetry; apply Z.ltb_ge; lia). reflexivity.
Qed.
Lemma exp8_under sse41 c x : is_nan x = false -> fvalue x < fvalue minlog -> exp8 sse41 c x = w0 8.
Proof.
  intros N V. unfold exp8. cbv zeta. assert (M2 : is_nan minlog = false) by reflexivity. rewrite (lt_num fp8 x minlog) by assumption. replace (fvalue x <? fvalue minlog) with true by (symmetry; now apply Z.ltb_lt). reflexivity.
Qed.
Lemma exp4_zero sse41 c x : is_Zero x -> exp4 sse41 c x = one 4.
Proof. intros Z. destruct (zero_cases fp4 x Z) as [E|E]; rewrite E; destruct sse41; apply word_ext; vm_compute; reflexivity. Qed.
Lemma exp8_zero sse41 c x : is_Zero x -> exp8 sse41 c x = one 8.
Proof. intros Z. destruct (zero_cases fp8 x Z) as [E|E]; rewrite E; destruct sse41; apply word_ext; vm_compute; reflexivity. Qed.
(** NaN: the series is NaN and adding the integer indefinite to the exponent changes nothing *)
Lemma ldexp_nan {w} (Hw : fp_width w) (v : word w) : is_nan v = true -> l_ldexp v (mkw 4 (2 ^ 31)) = v.
Proof.
  intros N. unfold l_ldexp. rewrite (eq_zero Hw). assert (Z : is_zero v = false) by (unfold is_nan in N; apply Z.ltb_lt in N; unfold is_zero; apply Z.eqb_neq; pose proof (inf_bound Hw); lia). rewrite Z.
  apply word_ext. rewrite uval_mkw. assert (Q : exists q, uval (mkw 4 (2 ^ 31)) * 2 ^ mant_bits w = q * modulus w) by (destruct Hw as [->| ->]; [exists (2 ^ 22)|exists (2 ^ 19)]; vm_compute; reflexivity).
  destruct Q as (q & ->). rewrite Z.mod_add by (pose proof (modulus_pos w); lia). apply Z.mod_small, uval_range.
Qed.
Lemma floor_nan {w} (Hw : fp_width w) sse41 (x : word w) : is_nan x = true -> is_nan (l_floor sse41 x) = true.
Proof.
  intros N. unfold l_floor. destruct sse41; [now apply (nround Hw)|]. rewrite (flt_nan_l x (w0 w) N), andb_false_r.
  destruct Hw as [->| ->]; cbn [l_trunc_sse2].
  - unfold l_trunc4. assert (E : exponent_field x = 255). { rewrite <- (nan_ok fp4) in N. unfold is_NaN, all_ones_exponent in N. apply andb_prop in N. destruct N as (E & _). now apply Z.eqb_eq in E. }
    rewrite E. exact N.
  - unfold l_trunc8. cbv zeta. rewrite (or_sign_gen fp8). unfold is_nan. rewrite (magnitude_with_sign fp8) by apply (mag_range fp8).
    change ((inf_magnitude 8 <? magnitude (fsub (fsub (fadd (l_abs x) (of_int 8 (2 ^ 52))) (of_int 8 (2 ^ 52))) (if flt (l_abs x) (fsub (fadd (l_abs x) (of_int 8 (2 ^ 52))) (of_int 8 (2 ^ 52))) then one 8 else w0 8))) = true)
      with (is_nan (fsub (fsub (fadd (l_abs x) (of_int 8 (2 ^ 52))) (of_int 8 (2 ^ 52))) (if flt (l_abs x) (fsub (fadd (l_abs x) (of_int 8 (2 ^ 52))) (of_int 8 (2 ^ 52))) then one 8 else w0 8)) = true).
    apply (nsub_l fp8), (nsub_l fp8), (nadd_l fp8), (nabs fp8), N.
Qed.
Lemma cvt_nan {w} r (x : word w) : is_nan x = true -> cvt_int32 r x = mkw 4 (2 ^ 31).
Proof. intros N. unfold cvt_int32. rewrite N. reflexivity. Qed.
Lemma exp4_nan sse41 c x : is_nan x = true -> exp4 sse41 c x = pos_inf 4 /\ gt_on_nan c = true \/ is_nan (exp4 sse41 c x) = true /\ gt_on_nan c = false.
Proof.
  intros N. unfold exp4. cbv zeta. rewrite (flt_nan_l x minlogf N). unfold l_gt, unordered. rewrite N. cbn [orb l_zero]. destruct (gt_on_nan c); [left; split; reflexivity|right; split; [|reflexivity]]. cbn [l_set].
  assert (NF : is_nan (l_floor sse41 (fadd (fmul (c_log2_e 4) x) (half 4))) = true) by (apply (floor_nan fp4), (nadd_l fp4), (nmul_r fp4), N).
  rewrite (cvt_nan ToZero _ NF). assert (NS : forall u, is_nan u = true -> is_nan (exp4_series u) = true) by (intros u U; unfold exp4_series; cbv zeta; apply (nadd_l fp4), (nadd_r fp4), U).
  rewrite (ldexp_nan fp4); apply NS, (nsub_l fp4), (nsub_l fp4), N.
Qed.
Lemma exp8_nan sse41 c x : is_nan x = true -> exp8 sse41 c x = pos_inf 8 /\ gt_on_nan c = true \/ is_nan (exp8 sse41 c x) = true /\ gt_on_nan c = false.
Proof.
  intros N. unfold exp8. cbv zeta. rewrite (flt_nan_l x minlog N). unfold l_gt, unordered. rewrite N. cbn [orb l_zero]. destruct (gt_on_nan c); [left; split; reflexivity|right; split; [|reflexivity]]. cbn [l_set].
  assert (NF : is_nan (l_floor sse41 (fadd (fmul (c_log2_e 8) x) (half 8))) = true) by (apply (floor_nan fp8), (nadd_l fp8), (nmul_r fp8), N).
  rewrite (cvt_nan ToZero _ NF). assert (NS : forall u, is_nan u = true -> is_nan (exp8_series u) = true) by (intros u U; unfold exp8_series; cbv zeta; apply (nadd_r fp8), (nmul_r fp8), (ndiv_l fp8), (nmul_l fp8), U).
  rewrite (ldexp_nan fp8); apply NS, (nsub_l fp8), (nsub_l fp8), N.
Qed.
