(** Lemmas about asin, atan, atan2, log and exp of Model/Transcend. *)
From Coq Require Import ZArith List Bool Lia.
From Verif.Spec Require Import Seq FloatSpec RoundSpec MathSpec TransSpec.
From Verif.Model Require Import Word Fp FpArith Transcend.
From Verif.Proof Require Import WordP SeqP FpP FpArithP FpIntP ConvertP ConvertRegP MathP TranscendP.
Import ListNotations.
Local Open Scope Z_scope.

(** * comparisons *)
Section C.
  Context {w : nat} (Hw : fp_width w).
  Lemma key_w0 : fkey (w0 w) = 0.
  Proof. destruct Hw as [->| ->]; reflexivity. Qed.
  Lemma nan_w0 : is_nan (w0 w) = false.
  Proof. destruct Hw as [->| ->]; reflexivity. Qed.
  Lemma lt_zero (x : word w) : flt x (w0 w) = negb (is_nan x) && negative x && negb (is_zero x).
  Proof.
    unfold flt. rewrite key_w0, nan_w0. unfold fkey, is_zero. pose proof (mag_range Hw x). cbn [negb]. rewrite andb_true_r.
    destruct (is_nan x), (negative x); cbn [negb andb]; auto; destruct (Z.eqb_spec (magnitude x) 0); cbn [negb]; try (apply Z.ltb_lt; lia); apply Z.ltb_ge; lia.
  Qed.
  Lemma eq_zero (x : word w) : feq x (w0 w) = is_zero x.
  Proof.
    unfold feq. rewrite key_w0, nan_w0. unfold is_zero, fkey. pose proof (mag_range Hw x). pose proof (inf_bound Hw). cbn [negb]. rewrite andb_true_r. unfold is_nan.
    destruct (Z.ltb_spec (inf_magnitude w) (magnitude x)); cbn [negb andb].
    - symmetry. apply Z.eqb_neq. lia.
    - destruct (negative x), (Z.eqb_spec (magnitude x) 0); auto; try (apply Z.eqb_eq; lia); apply Z.eqb_neq; lia.
  Qed.
  Lemma gt_num c (a b : word w) : is_nan a = false -> is_nan b = false -> l_gt c a b = (fvalue b <? fvalue a).
  Proof. intros A B. unfold l_gt, unordered. rewrite A, B. cbn [orb]. rewrite (flt_ok Hw). unfold float_lt, ordered. rewrite !(nan_ok Hw), A, B. reflexivity. Qed.
  Lemma ge_num c (a b : word w) : is_nan a = false -> is_nan b = false -> l_ge c a b = (fvalue b <=? fvalue a).
  Proof. intros A B. unfold l_ge, unordered. rewrite A, B. cbn [orb]. rewrite (fle_ok Hw). unfold float_le, ordered. rewrite !(nan_ok Hw), A, B. reflexivity. Qed.
  Lemma lt_num (a b : word w) : is_nan a = false -> is_nan b = false -> flt a b = (fvalue a <? fvalue b).
  Proof. intros A B. rewrite (flt_ok Hw). unfold float_lt, ordered. rewrite !(nan_ok Hw), A, B. reflexivity. Qed.
  Lemma value_abs (x : word w) : fvalue (l_abs x) = Z.abs (fvalue x).
  Proof. destruct (abs_facts Hw x) as (_ & V & _). unfold l_abs. rewrite V. apply (fabs_abs Hw). Qed.
  Lemma isfinite_ok (x : word w) : l_isfinite x = is_Finite x.
  Proof. apply (isfinite_lane Hw). Qed.
  Lemma set_neg k (x : word w) : l_set k x (fneg x) = l_flip k x.
  Proof. reflexivity. Qed.
  Lemma zero_iff (x : word w) : is_zero x = true <-> is_Zero x.
  Proof.
    unfold is_Zero. rewrite (is_zero_value Hw), Z.eqb_eq. split.
    - intros V. split; [|rewrite (fvalue_abs Hw), V; lia]. rewrite (finite_mag Hw). apply Z.ltb_lt. pose proof (inf_bound Hw).
      assert (magnitude x = 0); [|lia]. apply (value_zero Hw). rewrite (fvalue_abs Hw), V. lia.
    - intros (_ & V). rewrite (fabs_abs Hw), V. reflexivity.
  Qed.
End C.

(** * asin *)
Definition asin_body4 c (a : word 4) : word 4 :=
  let small := flt a small_asin4 in
  let gt_0_5 := l_gt c a (half 4) in
  let z := l_set gt_0_5 (fmul a a) (fmul (fsub (one 4) a) (half 4)) in
  let x := l_set gt_0_5 a (fsqrt z) in
  let z := fadd (fmul (fmul (horner asin_coeff4 z) z) x) x in
  let z := l_set gt_0_5 z (fsub (pi_2 4) (fadd z z)) in
  l_set small z a.
Lemma asin4_body c x : asin4 c x = l_qnan (l_gt c (l_abs x) (one 4)) (l_flip (flt x (w0 4)) (asin_body4 c (l_abs x))).
Proof. reflexivity. Qed.
Definition asin_body8 c (a : word 8) : word 8 :=
  let large := l_gt c a large_asin8 in
  let zz := fsub (one 8) a in
  let r := horner asin_r zz in
  let s := horner1 asin_s zz in
  let sqrtzz := fsqrt (fadd zz zz) in
  let z := fsub (pi_4 8) sqrtzz in
  let z := fsub z (fsub (fmul sqrtzz (fdiv (fmul zz r) s)) pi_2_rem8) in
  let z := fadd z (pi_4 8) in
  let a2 := fmul a a in
  let p := horner asin_p a2 in
  let q := horner1 asin_q a2 in
  l_set (negb large) z (fadd (fmul a (fdiv (fmul a2 p) q)) a).
Lemma asin8_body c x : asin8 c x = l_qnan (l_gt c (l_abs x) (one 8)) (l_set (flt (l_abs x) small_asin8) (l_flip (flt x (w0 8)) (asin_body8 c (l_abs x))) x).
Proof. reflexivity. Qed.
Lemma one_ok' {w} (Hw : fp_width w) : is_nan (one w) = false /\ fvalue (one w) = fone w.
Proof. destruct Hw as [->| ->]; vm_compute; split; reflexivity. Qed.
Lemma asin4_range c x : is_nan x = false -> fone 4 < Z.abs (fvalue x) -> is_nan (asin4 c x) = true.
Proof.
  intros N R. rewrite asin4_body. destruct (one_ok' fp4) as (N1 & V1). rewrite (gt_num fp4) by (now rewrite ?(nan_abs fp4)). rewrite V1, (value_abs fp4).
  replace (fone 4 <? Z.abs (fvalue x)) with true by (symmetry; now apply Z.ltb_lt). apply (nqnan_all fp4).
Qed.
Lemma asin8_range c x : is_nan x = false -> fone 8 < Z.abs (fvalue x) -> is_nan (asin8 c x) = true.
Proof.
  intros N R. rewrite asin8_body. destruct (one_ok' fp8) as (N1 & V1). rewrite (gt_num fp8) by (now rewrite ?(nan_abs fp8)). rewrite V1, (value_abs fp8).
  replace (fone 8 <? Z.abs (fvalue x)) with true by (symmetry; now apply Z.ltb_lt). apply (nqnan_all fp8).
Qed.
Lemma asin4_nan c x : is_nan x = true -> is_nan (asin4 c x) = true.
Proof.
  intros N. rewrite asin4_body. apply (nqnan fp4), (nflip fp4). pose proof (nabs fp4 x N) as A. unfold asin_body4. cbv zeta. apply nset; [|exact A].
  assert (NX : is_nan (l_set (l_gt c (l_abs x) (half 4)) (l_abs x) (fsqrt (l_set (l_gt c (l_abs x) (half 4)) (fmul (l_abs x) (l_abs x)) (fmul (fsub (one 4) (l_abs x)) (half 4))))) = true).
  { apply nset; [exact A|]. apply (nsqrt fp4), nset; [apply (nmul_l fp4), A|apply (nmul_l fp4), (nsub_r fp4), A]. }
  apply nset; [apply (nadd_r fp4); exact NX|]. apply (nsub_r fp4), (nadd_l fp4), (nadd_r fp4). exact NX.
Qed.
Lemma asin8_nan c x : is_nan x = true -> is_nan (asin8 c x) = true.
Proof.
  intros N. rewrite asin8_body. apply (nqnan fp8), nset; [|exact N]. apply (nflip fp8). pose proof (nabs fp8 x N) as A. unfold asin_body8. cbv zeta. apply nset.
  - apply (nadd_l fp8), (nsub_l fp8), (nsub_r fp8), (nsqrt fp8), (nadd_l fp8), (nsub_r fp8), A.
  - apply (nadd_r fp8), A.
Qed.
Lemma lt_zero_fneg {w} (Hw : fp_width w) (x : word w) : is_nan x = false -> is_zero x = false -> flt (fneg x) (w0 w) = negb (flt x (w0 w)).
Proof. intros N Z. rewrite !(lt_zero Hw), (nan_fneg Hw), (neg_fneg Hw), (zero_fneg Hw), N, Z. cbn [negb andb]. now rewrite !andb_true_r. Qed.
Lemma asin4_odd c x : is_nan x = false -> is_zero x = false -> Z.abs (fvalue x) <= fone 4 -> asin4 c (fneg x) = fneg (asin4 c x).
Proof.
  intros N Z R. rewrite !asin4_body, (abs_fneg fp4), (lt_zero_fneg fp4 x N Z). destruct (one_ok' fp4) as (N1 & V1).
  rewrite (gt_num fp4) by (now rewrite ?(nan_abs fp4)). rewrite V1, (value_abs fp4). replace (fone 4 <? Z.abs (fvalue x)) with false by (symmetry; now apply Z.ltb_ge).
  cbn [l_qnan]. apply (flip_negb fp4).
Qed.
Lemma asin8_odd c x : is_nan x = false -> Z.abs (fvalue x) <= fone 8 -> asin8 c (fneg x) = fneg (asin8 c x).
Proof.
  intros N R. rewrite !asin8_body, (abs_fneg fp8). destruct (one_ok' fp8) as (N1 & V1).
  rewrite (gt_num fp8) by (now rewrite ?(nan_abs fp8)). rewrite V1, (value_abs fp8). replace (fone 8 <? Z.abs (fvalue x)) with false by (symmetry; now apply Z.ltb_ge).
  cbn [l_qnan]. destruct (flt (l_abs x) small_asin8) eqn:S; cbn [l_set]; [reflexivity|]. destruct (is_zero x) eqn:Z.
  - exfalso. apply (zero_iff fp8) in Z. rewrite (zero_abs fp8 x Z) in S. vm_compute in S. discriminate S.
  - rewrite (lt_zero_fneg fp8 x N Z). apply (flip_negb fp8).
Qed.
Lemma abs_flip {w} (Hw : fp_width w) (x : word w) : is_nan x = false -> is_zero x = false -> l_flip (flt x (w0 w)) (l_abs x) = x.
Proof.
  intros N Z. rewrite (lt_zero Hw), N, Z. cbn [negb andb]. rewrite andb_true_r. destruct (negative x) eqn:S; cbn [l_flip]; apply (word_parts Hw); rewrite ?(mag_fneg Hw), ?(neg_fneg Hw), ?(mag_abs Hw), ?(neg_abs Hw), ?S; auto.
Qed.
Lemma asin4_small c x : is_nan x = false -> is_zero x = false -> Z.abs (fvalue x) < fvalue small_asin4 -> asin4 c x = x.
Proof.
  intros N Z L. assert (S : flt (l_abs x) small_asin4 = true). { rewrite (lt_num fp4); [|now rewrite (nan_abs fp4)|reflexivity]. rewrite (value_abs fp4). now apply Z.ltb_lt. }
  rewrite asin4_body. destruct (one_ok' fp4) as (N1 & V1). rewrite (gt_num fp4) by (now rewrite ?(nan_abs fp4)). rewrite V1, (value_abs fp4).
  assert (B : fvalue small_asin4 < fone 4) by (vm_compute; reflexivity). replace (fone 4 <? Z.abs (fvalue x)) with false by (symmetry; apply Z.ltb_ge; lia).
  cbn [l_qnan]. unfold asin_body4. cbv zeta. rewrite S. cbn [l_set]. now apply (abs_flip fp4).
Qed.
Lemma asin8_small c x : is_nan x = false -> Z.abs (fvalue x) < fvalue small_asin8 -> asin8 c x = x.
Proof.
  intros N L. assert (S : flt (l_abs x) small_asin8 = true). { rewrite (lt_num fp8); [|now rewrite (nan_abs fp8)|reflexivity]. rewrite (value_abs fp8). now apply Z.ltb_lt. }
  rewrite asin8_body. destruct (one_ok' fp8) as (N1 & V1). rewrite (gt_num fp8) by (now rewrite ?(nan_abs fp8)). rewrite V1, (value_abs fp8).
  assert (B : fvalue small_asin8 < fone 8) by (vm_compute; reflexivity). replace (fone 8 <? Z.abs (fvalue x)) with false by (symmetry; apply Z.ltb_ge; lia).
  cbn [l_qnan]. rewrite S. reflexivity.
Qed.

(** * atan *)
Definition atan_body4 c (x : word 4) : word 4 :=
  let gt_tan_3pi_8 := l_gt c x atan_hi4 in
  let gt_tan_pi_8 := l_gt c x atan_lo4 && negb gt_tan_3pi_8 in
  let y := w0 4 in
  let y := l_set gt_tan_3pi_8 y (pi_2 4) in
  let y := l_set gt_tan_pi_8 y (pi_4 4) in
  let x := l_set gt_tan_3pi_8 x (fdiv (fneg (one 4)) x) in
  let x := l_set gt_tan_pi_8 x (fdiv (fsub x (one 4)) (fadd x (one 4))) in
  let x2 := fmul x x in
  let t := fmul (atan_p4 0) x2 in
  let t := fmul (fsub t (atan_p4 1)) x2 in
  let t := fmul (fadd t (atan_p4 2)) x2 in
  let t := fmul (fsub t (atan_p4 3)) x2 in
  fadd y (fadd (fmul t x) x).
Lemma atan4_body c x : atan4 c x = l_qnan (is_nan x) (l_flip (flt x (w0 4)) (atan_body4 c (l_abs x))).
Proof. reflexivity. Qed.
Definition atan_body8 c (finite : bool) (x : word 8) : word 8 :=
  let y := w0 8 in
  let large := l_gt c x atan_hi8 in
  let gt_06 := l_gt c x atan_lo8 in
  let tmp := fdiv (fsub x (one 8)) (fadd x (one 8)) in
  let tmp := l_set large tmp (fdiv (fneg (one 8)) x) in
  let x := l_set gt_06 x tmp in
  let y := l_set gt_06 y (pi_4 8) in
  let y := l_set large y (pi_2 8) in
  let z := fmul x x in
  let p := horner atan_p8 z in
  let q := horner1 atan_q8 z in
  let z := fdiv (fmul z p) q in
  let z := fadd (fmul x z) x in
  let morebits := l_set (negb large) pi_2_rem8 (fmul pi_2_rem8 (half 8)) in
  let z := l_set gt_06 z (fadd z morebits) in
  l_set finite (pi_2 8) (fadd y z).
Lemma atan8_body c x : atan8 c x = l_qnan (is_nan x) (l_flip (flt x (w0 8)) (atan_body8 c (l_isfinite x) (l_abs x))).
Proof. reflexivity. Qed.
Lemma finite_fneg {w} (Hw : fp_width w) (x : word w) : is_Finite (fneg x) = is_Finite x.
Proof. rewrite !(finite_mag Hw). now rewrite (mag_fneg Hw). Qed.
Lemma atan_nan {w} (Hw : fp_width w) c (x : word w) : is_nan x = true -> is_nan (atan w c x) = true.
Proof.
  intros N. destruct Hw as [->| ->]; cbn [atan]; [rewrite atan4_body|rewrite atan8_body]; rewrite N; cbn [l_qnan]; [apply (nqnan_all fp4)|apply (nqnan_all fp8)].
Qed.
Lemma atan_odd {w} (Hw : fp_width w) c (x : word w) : is_nan x = false -> is_zero x = false -> atan w c (fneg x) = fneg (atan w c x).
Proof.
  intros N Z. destruct Hw as [->| ->]; cbn [atan].
  - rewrite !atan4_body, (nan_fneg fp4), N, (abs_fneg fp4), (lt_zero_fneg fp4 x N Z). cbn [l_qnan]. apply (flip_negb fp4).
  - rewrite !atan8_body, (nan_fneg fp8), N, (abs_fneg fp8), (lt_zero_fneg fp8 x N Z), !(isfinite_ok fp8), (finite_fneg fp8). cbn [l_qnan]. apply (flip_negb fp8).
Qed.
Lemma atan_body4_0 c : atan_body4 c (w0 4) = w0 4.
Proof. apply word_ext. vm_compute. reflexivity. Qed.
Lemma atan_body8_0 c : atan_body8 c true (w0 8) = w0 8.
Proof. apply word_ext. vm_compute. reflexivity. Qed.
Lemma atan_body4_inf c : atan_body4 c (pos_inf 4) = pi_2 4.
Proof. apply word_ext. vm_compute. reflexivity. Qed.
Lemma atan_zero {w} (Hw : fp_width w) c (x : word w) : is_zero x = true -> atan w c x = w0 w.
Proof.
  intros Z. assert (N : is_nan x = false) by (unfold is_zero in Z; unfold is_nan; apply Z.eqb_eq in Z; rewrite Z; apply Z.ltb_ge; pose proof (inf_bound Hw); lia).
  pose proof (proj1 (zero_iff Hw x) Z) as Z'. destruct Hw as [->| ->]; cbn [atan].
  - rewrite atan4_body, N, (lt_zero fp4), Z, (zero_abs fp4 x Z'), atan_body4_0. cbn [negb]. rewrite andb_false_r. reflexivity.
  - rewrite atan8_body, N, (lt_zero fp8), Z, (zero_abs fp8 x Z'), (isfinite_ok fp8). destruct Z' as (-> & _). rewrite atan_body8_0. cbn [negb]. rewrite andb_false_r. reflexivity.
Qed.
Lemma inf_facts {w} (Hw : fp_width w) (x : word w) : is_inf x = true -> is_nan x = false /\ is_zero x = false /\ is_Finite x = false /\ l_abs x = pos_inf w.
Proof.
  intros I. pose proof I as I'. rewrite <- (inf_ok Hw) in I'. unfold is_inf in I. apply Z.eqb_eq in I. pose proof (inf_bound Hw). unfold is_nan, is_zero. rewrite (finite_mag Hw), I.
  repeat split; [apply Z.ltb_irrefl|apply Z.eqb_neq; lia|apply Z.ltb_irrefl|now apply (inf_pos Hw)].
Qed.
Lemma flip_with_sign {w} (Hw : fp_width w) s (x : word w) : negative x = false -> l_flip s x = with_sign w s (magnitude x).
Proof.
  intros N. pose proof (mag_range Hw x). destruct s; cbn [l_flip]; apply (word_parts Hw); rewrite ?(mag_fneg Hw), ?(neg_fneg Hw), ?N, ?(magnitude_with_sign Hw), ?(negative_with_sign Hw) by assumption; auto.
Qed.
Lemma atan_inf {w} (Hw : fp_width w) c (x : word w) : is_inf x = true -> atan w c x = with_sign w (negative x) (magnitude (pi_2 w)).
Proof.
  intros I. destruct (inf_facts Hw x I) as (N & Z & F & A). destruct Hw as [->| ->]; cbn [atan].
  - rewrite atan4_body, N, (lt_zero fp4), N, Z, A, atan_body4_inf. cbn [negb l_qnan andb]. rewrite andb_true_r. now apply (flip_with_sign fp4).
  - rewrite atan8_body, N, (lt_zero fp8), N, Z, A, (isfinite_ok fp8), F. cbn [negb l_qnan andb]. rewrite andb_true_r. unfold atan_body8. cbv zeta. cbn [l_set]. now apply (flip_with_sign fp8).
Qed.

(** * atan2 *)
Definition atan2_core {w} (xge xz nx yz ny xi yi : bool) (t : word w) : word w :=
  let p := with_sign w ny (magnitude (pi w)) in
  let a := l_zero xge p in
  let a := fadd a t in
  let a := l_zero (xz && yz) a in
  let a := l_set (xz && nx) a (fadd a p) in
  let a := l_set (xz && (ny && negb yz)) a (fneg (pi_2 w)) in
  let a := l_set (xi && yi) a (fadd a (with_sign w (xorb nx (negb ny)) (magnitude (pi_4 w)))) in
  l_set (is_zero a) a (with_sign w ny (magnitude a)).
Lemma ge_zero {w} (Hw : fp_width w) c (x : word w) : is_nan x = false -> l_ge c x (w0 w) = negb (negative x) || is_zero x.
Proof.
  intros N. rewrite (ge_num Hw c x (w0 w) N (nan_w0 Hw)), (zero_value Hw), (fvalue_abs Hw), (is_zero_value Hw). pose proof (fabs_nonneg Hw x).
  destruct (negative x); cbn [negb orb]; [|apply Z.leb_le; lia]. destruct (Z.eqb_spec (fabs_value x) 0); [apply Z.leb_le|apply Z.leb_gt]; lia.
Qed.
Lemma not_finite_inf {w} (Hw : fp_width w) (x : word w) : is_nan x = false -> negb (is_Finite x) = is_inf x.
Proof. intros N. rewrite <- (inf_ok Hw). rewrite <- (nan_ok Hw) in N. unfold is_NaN, is_Inf, is_Finite in *. destruct (all_ones_exponent x); auto. now destruct (fraction x =? 0). Qed.
Definition atan2_x {w} (y x : word w) : word w := if is_inf y then with_sign w (negative x) (magnitude (one w)) else x.
Lemma atan2_eq {w} (Hw : fp_width w) c (y x : word w) : is_nan y = false -> is_nan x = false ->
  atan2 c y x = atan2_core (negb (negative x) || is_zero x) (is_zero x) (negative x) (is_zero y) (negative y) (is_inf x) (is_inf y) (atan w c (fdiv y (atan2_x y x))).
Proof.
  intros Ny Nx. unfold atan2, atan2_core. cbv zeta. rewrite !(eq_zero Hw), (lt_zero Hw), !(isfinite_ok Hw), !(not_finite_inf Hw), (ge_zero Hw), Nx, Ny by assumption. cbn [negb andb orb l_qnan].
  unfold atan2_x, l_copysign. destruct (is_inf y); reflexivity.
Qed.
Lemma atan2_nan {w} (Hw : fp_width w) c (y x : word w) : is_nan y = true \/ is_nan x = true -> is_nan (atan2 c y x) = true.
Proof. intros N. unfold atan2. cbv zeta. replace (is_nan y || is_nan x) with true by (symmetry; apply orb_true_iff; exact N). cbn [l_qnan]. apply (nqnan_all Hw). Qed.
(** quotients *)
Section D.
  Context {w : nat} (Hw : fp_width w).
  Lemma fround_0 s d : 0 < d -> fround w s 0 d = with_sign w s 0.
  Proof. intros D. pose proof (inf_bound Hw). apply (fround_exact Hw); try lia. rewrite mval_0 by (apply (mant_nonneg Hw)). lia. Qed.
  Lemma zero_with_sign s : is_zero (with_sign w s 0) = true.
  Proof. unfold is_zero. rewrite (magnitude_with_sign Hw) by (pose proof (inf_bound Hw); lia). reflexivity. Qed.
  Lemma fdiv_zero (y x : word w) : is_zero y = true -> is_nan x = false -> is_zero x = false -> is_zero (fdiv y x) = true.
  Proof.
    intros Z N NZ. pose proof (proj1 (zero_iff Hw y) Z) as (F & _). unfold fdiv, nan2. rewrite (finite_not_nan Hw y F), (finite_not_inf Hw y F), N, NZ.
    destruct (is_inf x); [apply zero_with_sign|]. rewrite (is_zero_value Hw) in Z. apply Z.eqb_eq in Z. rewrite Z, Z.mul_0_l, fround_0; [apply zero_with_sign|].
    rewrite (is_zero_value Hw) in NZ. apply Z.eqb_neq in NZ. pose proof (fabs_nonneg Hw x). lia.
  Qed.
  Lemma fdiv_by_inf (y x : word w) : is_Finite y = true -> is_inf x = true -> is_zero (fdiv y x) = true.
  Proof.
    intros F I. unfold fdiv, nan2. destruct (inf_facts Hw x I) as (N & _). rewrite (finite_not_nan Hw y F), (finite_not_inf Hw y F), N, I. apply zero_with_sign.
  Qed.
  Lemma inf_with_sign s : is_inf (with_sign w s (inf_magnitude w)) = true /\ negative (with_sign w s (inf_magnitude w)) = s.
  Proof. pose proof (inf_bound Hw). unfold is_inf. rewrite (magnitude_with_sign Hw), (negative_with_sign Hw) by lia. split; [apply Z.eqb_refl|reflexivity]. Qed.
  Lemma fdiv_by_zero (y x : word w) : is_nan y = false -> is_zero y = false -> is_zero x = true -> is_inf (fdiv y x) = true /\ negative (fdiv y x) = xorb (negative y) (negative x).
  Proof.
    intros N NZ Z. pose proof (proj1 (zero_iff Hw x) Z) as (F & _). unfold fdiv, nan2. rewrite N, (finite_not_nan Hw x F), (finite_not_inf Hw x F), Z, NZ. destruct (is_inf y); apply inf_with_sign.
  Qed.
  Lemma fdiv_inf (y x : word w) : is_inf y = true -> is_Finite x = true -> is_inf (fdiv y x) = true /\ negative (fdiv y x) = xorb (negative y) (negative x).
  Proof.
    intros I F. destruct (inf_facts Hw y I) as (N & _). unfold fdiv, nan2. rewrite N, I, (finite_not_nan Hw x F), (finite_not_inf Hw x F). apply inf_with_sign.
  Qed.
End D.
(** the special cases: [t] is 0 or +-pi/2 *)
Definition half_signed w s := with_sign w s (magnitude (pi_2 w)).
Lemma atan2_y_zero {w} (Hw : fp_width w) c (y x : word w) : is_zero y = true -> is_nan x = false ->
  atan2 c y x = with_sign w (negative y) (if negative x then magnitude (pi w) else 0).
Proof.
  intros Z N. pose proof (proj1 (zero_iff Hw y) Z) as (F & _). rewrite (atan2_eq Hw) by (auto; now apply (finite_not_nan Hw)). unfold atan2_x.
  rewrite (finite_not_inf Hw y F), Z. destruct (is_zero x) eqn:ZX.
  - unfold atan2_core. cbv zeta. rewrite orb_true_r. cbn [andb negb l_zero]. rewrite !andb_false_r. cbn [l_set].
    destruct Hw as [->| ->], (negative x), (negative y); apply word_ext; vm_compute; reflexivity.
  - rewrite (atan_zero Hw) by (now apply (fdiv_zero Hw)). rewrite orb_false_r. unfold atan2_core. cbv zeta. rewrite !andb_false_r. cbn [andb l_set l_zero].
    destruct Hw as [->| ->], (negative x), (negative y); apply word_ext; vm_compute; reflexivity.
Qed.
Lemma atan2_x_zero {w} (Hw : fp_width w) c (y x : word w) : is_nan y = false -> is_zero y = false -> is_zero x = true -> atan2 c y x = half_signed w (negative y).
Proof.
  intros N NZ Z. pose proof (proj1 (zero_iff Hw x) Z) as (F & _). rewrite (atan2_eq Hw) by (auto; now apply (finite_not_nan Hw)).
  assert (Q : is_inf (fdiv y (atan2_x y x)) = true /\ negative (fdiv y (atan2_x y x)) = xorb (negative y) (negative x)).
  { unfold atan2_x. destruct (is_inf y) eqn:I; [|now apply (fdiv_by_zero Hw)].
    assert (O : is_Finite (with_sign w (negative x) (magnitude (one w))) = true) by (apply (finite_with_sign Hw); destruct Hw as [->| ->]; vm_compute; split; congruence).
    destruct (fdiv_inf Hw y _ I O) as (A & B). split; [exact A|]. rewrite B, (negative_with_sign Hw); [reflexivity|]. apply (mag_range Hw). }
  destruct Q as (Q1 & Q2). rewrite (atan_inf Hw c _ Q1), Q2, Z, NZ, (finite_not_inf Hw x F), orb_true_r.
  destruct Hw as [->| ->], (negative x), (negative y); apply word_ext; vm_compute; reflexivity.
Qed.
Lemma atan2_y_inf {w} (Hw : fp_width w) c (y x : word w) : is_inf y = true -> is_Finite x = true -> atan2 c y x = half_signed w (negative y).
Proof.
  intros I F. destruct (inf_facts Hw y I) as (N & NZ & _). rewrite (atan2_eq Hw) by (auto; now apply (finite_not_nan Hw)). unfold atan2_x. rewrite I.
  assert (O : is_Finite (with_sign w (negative x) (magnitude (one w))) = true) by (apply (finite_with_sign Hw); destruct Hw as [->| ->]; vm_compute; split; congruence).
  destruct (fdiv_inf Hw y _ I O) as (A & B). rewrite (negative_with_sign Hw) in B by apply (mag_range Hw). rewrite (atan_inf Hw c _ A), B, NZ, (finite_not_inf Hw x F).
  destruct Hw as [->| ->], (negative x), (is_zero x), (negative y); apply word_ext; vm_compute; reflexivity.
Qed.
Lemma atan2_x_inf {w} (Hw : fp_width w) c (y x : word w) : is_Finite y = true -> is_inf x = true ->
  atan2 c y x = with_sign w (negative y) (if negative x then magnitude (pi w) else 0).
Proof.
  intros F I. destruct (inf_facts Hw x I) as (N & NZ & _). rewrite (atan2_eq Hw) by (auto; now apply (finite_not_nan Hw)). unfold atan2_x. rewrite (finite_not_inf Hw y F).
  rewrite (atan_zero Hw) by (now apply (fdiv_by_inf Hw)). rewrite NZ, I.
  destruct Hw as [->| ->], (negative x), (is_zero y), (negative y); apply word_ext; vm_compute; reflexivity.
Qed.
Lemma atan2_both_inf {w} (Hw : fp_width w) c (y x : word w) : is_inf y = true -> is_inf x = true ->
  atan2 c y x = with_sign w (negative y) (magnitude (if negative x then three_quarter_pi w else quarter_pi w)).
Proof.
  intros I J. destruct (inf_facts Hw x J) as (Nx & Zx & _), (inf_facts Hw y I) as (Ny & Zy & _). rewrite (atan2_eq Hw) by auto. unfold atan2_x. rewrite I, J, Zx, Zy.
  assert (O : is_Finite (with_sign w (negative x) (magnitude (one w))) = true) by (apply (finite_with_sign Hw); destruct Hw as [->| ->]; vm_compute; split; congruence).
  destruct (fdiv_inf Hw y _ I O) as (A & B). rewrite (negative_with_sign Hw) in B by apply (mag_range Hw). rewrite (atan_inf Hw c _ A), B.
  destruct Hw as [->| ->], (negative x), (negative y); apply word_ext; vm_compute; reflexivity.
Qed.
(** atan2 is odd in y *)
Section O.
  Context {w : nat} (Hw : fp_width w).
  Lemma fdiv_fneg (y x : word w) : is_nan (fdiv y x) = false -> fdiv (fneg y) x = fneg (fdiv y x).
  Proof.
    intros N. assert (Ny : is_nan y = false) by (destruct (is_nan y) eqn:E; auto; rewrite (ndiv_l Hw y x E) in N; discriminate N).
    assert (Nx : is_nan x = false) by (destruct (is_nan x) eqn:E; auto; rewrite (ndiv_r Hw y x E) in N; discriminate N).
    revert N. unfold fdiv, nan2. rewrite (nan_fneg Hw), (inf_fneg Hw), (zero_fneg Hw), (neg_fneg Hw), (fabs_fneg Hw), Ny, Nx. rewrite <- negb_xorb_l.
    pose proof (inf_bound Hw) as IB. assert (IN : is_nan (indefinite w) = true) by (destruct Hw as [->| ->]; reflexivity).
    assert (WS : forall s m, 0 <= m <= inf_magnitude w -> with_sign w (negb s) m = fneg (with_sign w s m)) by (intros s m M; rewrite (fneg_with_sign Hw) by lia; reflexivity).
    destruct (is_inf y); [destruct (is_inf x); [intros N; rewrite IN in N; discriminate N|intros _; apply WS; lia]|].
    destruct (is_inf x); [intros _; apply WS; lia|]. destruct (is_zero x) eqn:Zx.
    - destruct (is_zero y); [intros N; rewrite IN in N; discriminate N|intros _; apply WS; lia].
    - intros _. rewrite (fround_fneg Hw); [reflexivity| |].
      + apply Z.mul_nonneg_nonneg; [apply (fabs_nonneg Hw)|pose proof (one_units_pos Hw); lia].
      + rewrite (is_zero_value Hw) in Zx. apply Z.eqb_neq in Zx. pose proof (fabs_nonneg Hw x). lia.
  Qed.
  Lemma fdiv_num (y x : word w) : is_nan y = false -> is_nan x = false -> is_Finite y = true -> is_zero x = false -> is_nan (fdiv y x) = false.
  Proof.
    intros Ny Nx F Z. unfold fdiv, nan2. rewrite Ny, Nx, (finite_not_inf Hw y F), Z. pose proof (inf_bound Hw) as IB.
    assert (WS : forall s m, 0 <= m <= inf_magnitude w -> is_nan (with_sign w s m) = false) by (intros s m M; unfold is_nan; rewrite (magnitude_with_sign Hw) by lia; apply Z.ltb_ge; lia).
    destruct (is_inf x); [apply WS; lia|]. unfold fround. apply WS. apply (round_magnitude_bound Hw).
    - apply Z.mul_nonneg_nonneg; [apply (fabs_nonneg Hw)|pose proof (one_units_pos Hw); lia].
    - rewrite (is_zero_value Hw) in Z. apply Z.eqb_neq in Z. pose proof (fabs_nonneg Hw x). lia.
  Qed.
  (** opposite up to the sign of zeros and NaN *)
  Definition opposite (a b : word w) : Prop := (is_nan a = true /\ is_nan b = true) \/ (is_zero a = true /\ is_zero b = true) \/ (is_nan a = false /\ b = fneg a).
  Lemma fadd_opp (a b : word w) : is_nan a = false -> is_nan b = false -> opposite (fadd a b) (fadd (fneg a) (fneg b)).
  Proof.
    intros Na Nb. unfold fadd, nan2. rewrite !(nan_fneg Hw), Na, Nb. unfold fadd_num. rewrite !(inf_fneg Hw), !(neg_fneg Hw).
    replace (xorb (negb (negative a)) (negb (negative b))) with (xorb (negative a) (negative b)) by (destruct (negative a), (negative b); reflexivity).
    pose proof (inf_bound Hw) as IB. assert (IN : is_nan (indefinite w) = true) by (destruct Hw as [->| ->]; reflexivity).
    destruct (is_inf a); [destruct (is_inf b && xorb (negative a) (negative b)); [left; now split|right; right; now split]|].
    destruct (is_inf b); [right; right; now split|]. destruct (fneg_value Hw a) as (Va & _), (fneg_value Hw b) as (Vb & _). rewrite Va, Vb.
    destruct (Z.eqb_spec (fvalue a + fvalue b) 0).
    - replace (- fvalue a + - fvalue b =? 0) with true by (symmetry; apply Z.eqb_eq; lia). right. left. split; apply (zero_with_sign Hw).
    - replace (- fvalue a + - fvalue b =? 0) with false by (symmetry; apply Z.eqb_neq; lia). right. right.
      replace (Z.abs (- fvalue a + - fvalue b)) with (Z.abs (fvalue a + fvalue b)) by lia.
      replace (- fvalue a + - fvalue b <? 0) with (negb (fvalue a + fvalue b <? 0)) by (destruct (Z.ltb_spec (fvalue a + fvalue b) 0), (Z.ltb_spec (- fvalue a + - fvalue b) 0); cbn [negb]; auto; lia).
      split; [|rewrite (fround_fneg Hw) by lia; reflexivity]. unfold fround, is_nan. pose proof (round_magnitude_bound Hw (Z.abs (fvalue a + fvalue b)) 1 ltac:(lia) ltac:(lia)).
      rewrite (magnitude_with_sign Hw) by lia. apply Z.ltb_ge. lia.
  Qed.
  Lemma fadd_w0 (t : word w) : is_nan t = false -> is_zero t = false -> fadd (w0 w) t = t.
  Proof.
    intros N NZ. destruct (w0_zero Hw) as (M0 & N0 & V0 & A0 & I0). unfold fadd, nan2, fadd_num. rewrite A0, N, I0, (zero_value Hw), Z.add_0_l.
    destruct (is_inf t) eqn:I; [reflexivity|]. rewrite (is_zero_value Hw) in NZ. apply Z.eqb_neq in NZ. pose proof (fabs_nonneg Hw t). pose proof (fvalue_abs Hw t) as V.
    assert (V1 : fvalue t <> 0) by (destruct (negative t); lia). apply Z.eqb_neq in V1. rewrite V1.
    replace (fvalue t <? 0) with (negative t) by (destruct (negative t); symmetry; [apply Z.ltb_lt|apply Z.ltb_ge]; lia).
    rewrite <- (with_sign_eta Hw t) at 3. apply (fround_exact Hw); [lia| |rewrite <- (fabs_mval Hw), (fabs_abs Hw); lia].
    pose proof (mag_range Hw t). split; [lia|]. unfold is_nan in N. unfold is_inf in I. apply Z.ltb_ge in N. apply Z.eqb_neq in I. lia.
  Qed.
  Lemma atan2_plain xge nx ny yz yi xi (t : word w) : xi && yi = false ->
    atan2_core xge false nx yz ny xi yi t = let a := fadd (l_zero xge (with_sign w ny (magnitude (pi w)))) t in l_set (is_zero a) a (with_sign w ny (magnitude a)).
  Proof. intros E. unfold atan2_core. cbv zeta. rewrite E. reflexivity. Qed.
  Lemma finish_odd (ny : bool) (a b : word w) : opposite a b ->
    is_nan (l_set (is_zero a) a (with_sign w ny (magnitude a))) = true /\ is_nan (l_set (is_zero b) b (with_sign w (negb ny) (magnitude b))) = true \/
    l_set (is_zero b) b (with_sign w (negb ny) (magnitude b)) = fneg (l_set (is_zero a) a (with_sign w ny (magnitude a))).
  Proof.
    intros [(A & B)|[(A & B)|(A & ->)]].
    - left. assert (Z : forall u : word w, is_nan u = true -> is_zero u = false) by (intros u U; unfold is_nan in U; apply Z.ltb_lt in U; unfold is_zero; apply Z.eqb_neq; pose proof (inf_bound Hw); lia).
      rewrite (Z a A), (Z b B). cbn [l_set]. now split.
    - right. rewrite A, B. cbn [l_set]. unfold is_zero in A, B. apply Z.eqb_eq in A, B. rewrite A, B, (fneg_with_sign Hw); [reflexivity|]. pose proof (inf_bound Hw). lia.
    - right. rewrite (zero_fneg Hw), (mag_fneg Hw). destruct (is_zero a); cbn [l_set]; [|reflexivity]. rewrite (fneg_with_sign Hw); [reflexivity|]. apply (mag_range Hw).
  Qed.
  Lemma atan2_odd c (y x : word w) : is_nan y = false -> is_nan x = false ->
    is_nan (atan2 c y x) = true /\ is_nan (atan2 c (fneg y) x) = true \/ atan2 c (fneg y) x = fneg (atan2 c y x).
  Proof.
    intros Ny Nx. pose proof (inf_bound Hw) as IB. assert (PR : forall p : word w, 0 <= magnitude p < sign_weight w) by (intros p; apply (mag_range Hw)).
    assert (P0 : 0 <= (if negative x then magnitude (pi w) else 0) < sign_weight w) by (destruct (negative x); [apply PR|lia]).
    destruct (is_zero y) eqn:Zy.
    { right. rewrite !(atan2_y_zero Hw) by (rewrite ?(zero_fneg Hw); auto). rewrite (fneg_with_sign Hw), (neg_fneg Hw) by exact P0. reflexivity. }
    destruct (is_zero x) eqn:Zx.
    { right. rewrite !(atan2_x_zero Hw) by (rewrite ?(zero_fneg Hw), ?(nan_fneg Hw); auto). unfold half_signed. rewrite (fneg_with_sign Hw), (neg_fneg Hw) by apply PR. reflexivity. }
    destruct (is_inf y) eqn:Iy.
    { right. destruct (is_inf x) eqn:Ix.
      - rewrite !(atan2_both_inf Hw) by (rewrite ?(inf_fneg Hw); auto). rewrite (fneg_with_sign Hw), (neg_fneg Hw) by apply PR. reflexivity.
      - assert (F : is_Finite x = true) by (apply negb_false_iff; rewrite (not_finite_inf Hw) by auto; exact Ix).
        rewrite !(atan2_y_inf Hw) by (rewrite ?(inf_fneg Hw); auto). unfold half_signed. rewrite (fneg_with_sign Hw), (neg_fneg Hw) by apply PR. reflexivity. }
    assert (F : is_Finite y = true) by (apply negb_false_iff; rewrite (not_finite_inf Hw) by auto; exact Iy).
    rewrite !(atan2_eq Hw) by (rewrite ?(nan_fneg Hw); auto). unfold atan2_x. rewrite (inf_fneg Hw), Iy, Zx, !atan2_plain by (now rewrite andb_false_r). cbv zeta.
    pose proof (fdiv_num y x Ny Nx F Zx) as NQ. rewrite (fdiv_fneg y x NQ), (neg_fneg Hw). set (q := fdiv y x) in *. rewrite orb_false_r.
    assert (OP : opposite (fadd (l_zero (negb (negative x)) (with_sign w (negative y) (magnitude (pi w)))) (atan w c q))
                          (fadd (l_zero (negb (negative x)) (with_sign w (negb (negative y)) (magnitude (pi w)))) (atan w c (fneg q)))).
    { destruct (is_zero q) eqn:Zq.
      - rewrite !(atan_zero Hw) by (rewrite ?(zero_fneg Hw); auto). destruct (negative x); cbn [negb l_zero].
        + right. right. split; [destruct Hw as [->| ->], (negative y); vm_compute; reflexivity|]. destruct Hw as [->| ->], (negative y); apply word_ext; vm_compute; reflexivity.
        + right. left. split; destruct Hw as [->| ->]; vm_compute; reflexivity.
      - rewrite (atan_odd Hw c q NQ Zq). set (t := atan w c q). clearbody t. destruct (is_nan t) eqn:Nt.
        + left. split; apply (nadd_r Hw); [exact Nt|now rewrite (nan_fneg Hw)].
        + destruct (negative x); cbn [negb l_zero].
          * rewrite <- (fneg_with_sign Hw) by apply PR. apply fadd_opp; [|exact Nt]. destruct Hw as [->| ->], (negative y); vm_compute; reflexivity.
          * destruct (is_zero t) eqn:Zt.
            -- right. left. destruct (zero_cases Hw t (proj1 (zero_iff Hw t) Zt)) as [E|E]; rewrite E; split; destruct Hw as [->| ->]; vm_compute; reflexivity.
            -- rewrite !fadd_w0 by (rewrite ?(nan_fneg Hw), ?(zero_fneg Hw); auto). right. right. now split. }
    exact (finish_odd (negative y) _ _ OP).
  Qed.
End O.
