(** The polynomials for sin and cos: rounding errors and the distance from sin and cos.  (The bounds were computed by a
    script; every one of them is checked here.) *)
From Coq Require Import ZArith Reals List Bool Lia Lra Psatz.
From Verif.Spec Require Import FloatSpec RoundSpec AccuracySpec.
From Verif.Model Require Import Word Fp FpArith Transcend.
From Verif.Proof Require Import WordP FpP FpArithP FpIntP RealErrP PiBoundP.
Local Open Scope R_scope.

Lemma u4 : uu (w := 4) = / 16777216. Proof. reflexivity. Qed.
Lemma u8 : uu (w := 8) = / 9007199254740992. Proof. reflexivity. Qed.
Lemma eta_le {w} (Hw : fp_width w) : eta (w := w) <= / 1267650600228229401496703205376.
Proof.
  unfold eta. destruct Hw as [->| ->]; (apply Rinv_le_contravar; [lra|]); rewrite <- mult_IZR; apply IZR_le; apply Z.leb_le; vm_compute; reflexivity.
Qed.
Lemma B70_big : 1000000000000 <= B70.
Proof. unfold B70. apply IZR_le. apply Z.leb_le. vm_compute. reflexivity. Qed.
Lemma real_frac {w} (Hw : fp_width w) (c : word w) n d : (0 < d)%Z -> (fvalue c * d =? n * one_units w)%Z = true -> real c = IZR n / IZR d.
Proof.
  intros D E. apply Z.eqb_eq in E. apply (f_equal IZR) in E. rewrite !mult_IZR in E. rewrite (real_eq Hw). pose proof (IUpos Hw) as IU. apply IZR_lt in D.
  apply (Rmult_eq_reg_r (IZR d * IZR (one_units w))); [|nra]. replace (IZR (fvalue c) / IZR (one_units w) * (IZR d * IZR (one_units w))) with (IZR (fvalue c) * IZR d) by (field; lra). rewrite E. field. lra.
Qed.
Section A.
  Context {w : nat} (Hw : fp_width w).
  Notation app := (@app w).
  Lemma mul_w X x B E Y y C D B' E' : app X x B E -> app Y y C D -> 0 <= B -> 0 <= C -> 0 <= E -> 0 <= D -> B * C <= B' -> B * C + (E * C + B * D + E * D) <= 1000000000000 ->
    (E * C + B * D + E * D) + uu (w := w) * (B * C + (E * C + B * D + E * D)) + / 1267650600228229401496703205376 <= E' -> app (fmul X Y) (x * y) B' E'.
  Proof using Hw.
    intros H1 H2 B0 C0 E0 D0 HB HL HE. pose proof (eta_le Hw). pose proof B70_big. eapply app_weak; [apply (app_mul Hw _ _ _ _ _ _ _ _ H1 H2); auto; lra|exact HB|lra].
  Qed.
  Lemma add_b X x B E Y y C D B' E' : app X x B E -> app Y y C D -> Rabs (x + y) <= B' -> B + C + (E + D) <= 1000000000000 -> E + D + uu (w := w) * (B' + (E + D)) <= E' -> app (fadd X Y) (x + y) B' E'.
  Proof using Hw.
    intros (F1 & H1 & H2) (F2 & H3 & H4) HB HL HE. pose proof (uu_pos Hw) as U0. pose proof (eta_pos Hw) as P0. pose proof B70_big.
    assert (S1 : Rabs (x + y) <= B + C) by (eapply Rle_trans; [apply Rabs_triang|lra]).
    assert (S2 : Rabs (real X + real Y - (x + y)) <= E + D) by (replace (real X + real Y - (x + y)) with ((real X - x) + (real Y - y)) by ring; eapply Rle_trans; [apply Rabs_triang|lra]).
    destruct (fadd_real Hw X Y F1 F2) as (F & G).
    { replace (real X + real Y) with ((x + y) + (real X + real Y - (x + y))) by ring. eapply Rle_trans; [apply Rabs_triang|lra]. }
    split; [exact F|]. split; [exact HB|]. eapply Rle_trans; [apply (round_bound (w := w) (real X + real Y) (x + y) B' (E + D) 0); auto; lra|lra].
  Qed.
  Lemma sub_b X x B E Y y C D B' E' : app X x B E -> app Y y C D -> Rabs (x - y) <= B' -> B + C + (E + D) <= 1000000000000 -> E + D + uu (w := w) * (B' + (E + D)) <= E' -> app (fsub X Y) (x - y) B' E'.
  Proof using Hw.
    intros (F1 & H1 & H2) (F2 & H3 & H4) HB HL HE. pose proof (uu_pos Hw) as U0. pose proof (eta_pos Hw) as P0. pose proof B70_big.
    assert (S1 : Rabs (x - y) <= B + C) by (unfold Rminus; eapply Rle_trans; [apply Rabs_triang|rewrite Rabs_Ropp; lra]).
    assert (S2 : Rabs (real X - real Y - (x - y)) <= E + D) by (replace (real X - real Y - (x - y)) with ((real X - x) - (real Y - y)) by ring; unfold Rminus at 1; eapply Rle_trans; [apply Rabs_triang|rewrite Rabs_Ropp; lra]).
    destruct (fsub_real Hw X Y F1 F2) as (F & G).
    { replace (real X - real Y) with ((x - y) + (real X - real Y - (x - y))) by ring. eapply Rle_trans; [apply Rabs_triang|lra]. }
    split; [exact F|]. split; [exact HB|]. eapply Rle_trans; [apply (round_bound (w := w) (real X - real Y) (x - y) B' (E + D) 0); auto; lra|lra].
  Qed.
  Lemma add_w X x B E Y y C D B' E' : app X x B E -> app Y y C D -> B + C <= B' -> B + C + (E + D) <= 1000000000000 -> E + D + uu (w := w) * (B' + (E + D)) <= E' -> app (fadd X Y) (x + y) B' E'.
  Proof using Hw. intros H1 H2 HB. apply (add_b _ _ _ _ _ _ _ _ _ _ H1 H2). destruct H1 as (_ & H1 & _), H2 as (_ & H2 & _). eapply Rle_trans; [apply Rabs_triang|lra]. Qed.
  Lemma sub_w X x B E Y y C D B' E' : app X x B E -> app Y y C D -> B + C <= B' -> B + C + (E + D) <= 1000000000000 -> E + D + uu (w := w) * (B' + (E + D)) <= E' -> app (fsub X Y) (x - y) B' E'.
  Proof using Hw. intros H1 H2 HB. apply (sub_b _ _ _ _ _ _ _ _ _ _ H1 H2). destruct H1 as (_ & H1 & _), H2 as (_ & H2 & _). unfold Rminus. eapply Rle_trans; [apply Rabs_triang|rewrite Rabs_Ropp; lra]. Qed.
  Lemma const_app (c : word w) n d B : is_Finite c = true -> (0 < d)%Z -> (fvalue c * d =? n * one_units w)%Z = true -> Rabs (IZR n / IZR d) <= B -> app c (IZR n / IZR d) B 0.
  Proof using Hw. intros F D E H. rewrite <- (real_frac Hw c n d D E) in *. now apply app_exact. Qed.
End A.

(** * sin and cos between polynomials *)
Fixpoint zf (n : nat) : Z := match n with O => 1 | S m => Z.of_nat n * zf m end.
Lemma fact_zf n : INR (fact n) = IZR (zf n).
Proof. induction n as [|n IH]; [reflexivity|]. change (fact (S n)) with (S n * fact n)%nat. rewrite mult_INR, IH. cbn [zf]. now rewrite mult_IZR, INR_IZR_INZ. Qed.
Lemma pi_big : 3 < PI < 315 / 100.
Proof.
  destruct pi_bounds as (L & U). assert (D : 0 < IZR (2 ^ 110)) by (apply IZR_lt; reflexivity). split.
  - eapply Rlt_le_trans; [|exact L]. apply (Rmult_lt_reg_r (IZR (2 ^ 110))); [exact D|]. unfold Rdiv. rewrite Rmult_assoc, Rinv_l, Rmult_1_r by lra. rewrite <- mult_IZR. apply IZR_lt. reflexivity.
  - eapply Rle_lt_trans; [exact U|]. apply (Rmult_lt_reg_r (100 * IZR (2 ^ 110))); [lra|]. unfold Rdiv. replace (IZR (pz + 4) * / IZR (2 ^ 110) * (100 * IZR (2 ^ 110))) with (100 * IZR (pz + 4)) by (field; lra).
    replace (315 * / 100 * (100 * IZR (2 ^ 110))) with (315 * IZR (2 ^ 110)) by field. rewrite <- !mult_IZR. apply IZR_lt. reflexivity.
Qed.
Lemma mono m t b hi : 0 <= m <= b -> 0 <= t <= hi -> 0 <= m * t <= b * hi.
Proof. intros (A & B) (C & D). split; [now apply Rmult_le_pos|]. now apply Rmult_le_compat. Qed.

Lemma sin_le_abs x : Rabs (sin x) <= Rabs x.
Proof.
  assert (P : forall y, 0 < y -> Rabs (sin y) <= y).
  { intros y Hy. apply Rabs_le. pose proof (sin_lt_x y Hy). split; [|lra]. destruct (Rle_dec y 1) as [Q|Q].
    - assert (0 <= sin y) by (apply sin_ge_0; pose proof pi_big; lra). lra.
    - pose proof (SIN_bound y). lra. }
  destruct (Rtotal_order x 0) as [L|[->|G]].
  - rewrite (Rabs_left x) by lra. rewrite <- Rabs_Ropp, <- sin_neg. apply P. lra.
  - rewrite sin_0. lra.
  - rewrite (Rabs_pos_eq x) by lra. apply P. lra.
Qed.
Lemma sin_taylor1 x : 0 <= x <= 79 / 100 -> let t := x * x in
  x - x * t ^ 1 / 6 + x * t ^ 2 / 120 - x * t ^ 3 / 5040 <= sin x /\ sin x <= x - x * t ^ 1 / 6 + x * t ^ 2 / 120 - x * t ^ 3 / 5040 + x * t ^ 4 / 362880.
Proof.
  intros H t. assert (B : sin_approx x (2 * 1 + 1) <= sin x <= sin_approx x (2 * (1 + 1))) by (apply sin_bound; pose proof pi_big; lra). destruct B as (L & U).
  unfold sin_approx, sin_term in L, U. cbn [sum_f_R0 Nat.mul Nat.add] in L, U. rewrite !fact_zf in L. rewrite !fact_zf in U. change (zf 1) with 1%Z in *. change (zf 3) with 6%Z in *. change (zf 5) with 120%Z in *. change (zf 7) with 5040%Z in *. change (zf 9) with 362880%Z in *.
  split; [eapply Rle_trans; [|exact L]|eapply Rle_trans; [exact U|]]; right; unfold t; field.
Qed.
Lemma sin_taylor2 x : 0 <= x <= 79 / 100 -> let t := x * x in
  x - x * t ^ 1 / 6 + x * t ^ 2 / 120 - x * t ^ 3 / 5040 + x * t ^ 4 / 362880 - x * t ^ 5 / 39916800 <= sin x /\ sin x <= x - x * t ^ 1 / 6 + x * t ^ 2 / 120 - x * t ^ 3 / 5040 + x * t ^ 4 / 362880 - x * t ^ 5 / 39916800 + x * t ^ 6 / 6227020800.
Proof.
  intros H t. assert (B : sin_approx x (2 * 2 + 1) <= sin x <= sin_approx x (2 * (2 + 1))) by (apply sin_bound; pose proof pi_big; lra). destruct B as (L & U).
  unfold sin_approx, sin_term in L, U. cbn [sum_f_R0 Nat.mul Nat.add] in L, U. rewrite !fact_zf in L. rewrite !fact_zf in U. change (zf 1) with 1%Z in *. change (zf 3) with 6%Z in *. change (zf 5) with 120%Z in *. change (zf 7) with 5040%Z in *. change (zf 9) with 362880%Z in *. change (zf 11) with 39916800%Z in *. change (zf 13) with 6227020800%Z in *.
  split; [eapply Rle_trans; [|exact L]|eapply Rle_trans; [exact U|]]; right; unfold t; field.
Qed.
Lemma sin_taylor3 x : 0 <= x <= 79 / 100 -> let t := x * x in
  x - x * t ^ 1 / 6 + x * t ^ 2 / 120 - x * t ^ 3 / 5040 + x * t ^ 4 / 362880 - x * t ^ 5 / 39916800 + x * t ^ 6 / 6227020800 - x * t ^ 7 / 1307674368000 <= sin x /\ sin x <= x - x * t ^ 1 / 6 + x * t ^ 2 / 120 - x * t ^ 3 / 5040 + x * t ^ 4 / 362880 - x * t ^ 5 / 39916800 + x * t ^ 6 / 6227020800 - x * t ^ 7 / 1307674368000 + x * t ^ 8 / 355687428096000.
Proof.
  intros H t. assert (B : sin_approx x (2 * 3 + 1) <= sin x <= sin_approx x (2 * (3 + 1))) by (apply sin_bound; pose proof pi_big; lra). destruct B as (L & U).
  unfold sin_approx, sin_term in L, U. cbn [sum_f_R0 Nat.mul Nat.add] in L, U. rewrite !fact_zf in L. rewrite !fact_zf in U. change (zf 1) with 1%Z in *. change (zf 3) with 6%Z in *. change (zf 5) with 120%Z in *. change (zf 7) with 5040%Z in *. change (zf 9) with 362880%Z in *. change (zf 11) with 39916800%Z in *. change (zf 13) with 6227020800%Z in *. change (zf 15) with 1307674368000%Z in *. change (zf 17) with 355687428096000%Z in *.
  split; [eapply Rle_trans; [|exact L]|eapply Rle_trans; [exact U|]]; right; unfold t; field.
Qed.
Lemma sin_taylor4 x : 0 <= x <= 79 / 100 -> let t := x * x in
  x - x * t ^ 1 / 6 + x * t ^ 2 / 120 - x * t ^ 3 / 5040 + x * t ^ 4 / 362880 - x * t ^ 5 / 39916800 + x * t ^ 6 / 6227020800 - x * t ^ 7 / 1307674368000 + x * t ^ 8 / 355687428096000 - x * t ^ 9 / 121645100408832000 <= sin x /\ sin x <= x - x * t ^ 1 / 6 + x * t ^ 2 / 120 - x * t ^ 3 / 5040 + x * t ^ 4 / 362880 - x * t ^ 5 / 39916800 + x * t ^ 6 / 6227020800 - x * t ^ 7 / 1307674368000 + x * t ^ 8 / 355687428096000 - x * t ^ 9 / 121645100408832000 + x * t ^ 10 / 51090942171709440000.
Proof.
  intros H t. assert (B : sin_approx x (2 * 4 + 1) <= sin x <= sin_approx x (2 * (4 + 1))) by (apply sin_bound; pose proof pi_big; lra). destruct B as (L & U).
  unfold sin_approx, sin_term in L, U. cbn [sum_f_R0 Nat.mul Nat.add] in L, U. rewrite !fact_zf in L. rewrite !fact_zf in U. change (zf 1) with 1%Z in *. change (zf 3) with 6%Z in *. change (zf 5) with 120%Z in *. change (zf 7) with 5040%Z in *. change (zf 9) with 362880%Z in *. change (zf 11) with 39916800%Z in *. change (zf 13) with 6227020800%Z in *. change (zf 15) with 1307674368000%Z in *. change (zf 17) with 355687428096000%Z in *. change (zf 19) with 121645100408832000%Z in *. change (zf 21) with 51090942171709440000%Z in *.
  split; [eapply Rle_trans; [|exact L]|eapply Rle_trans; [exact U|]]; right; unfold t; field.
Qed.
Lemma cos_taylor1 x : - (79 / 100) <= x <= 79 / 100 -> let t := x * x in
  1 - t ^ 1 / 2 + t ^ 2 / 24 - t ^ 3 / 720 <= cos x /\ cos x <= 1 - t ^ 1 / 2 + t ^ 2 / 24 - t ^ 3 / 720 + t ^ 4 / 40320.
Proof.
  intros H t. assert (B : cos_approx x (2 * 1 + 1) <= cos x <= cos_approx x (2 * (1 + 1))) by (apply cos_bound; pose proof pi_big; lra). destruct B as (L & U).
  unfold cos_approx, cos_term in L, U. cbn [sum_f_R0 Nat.mul Nat.add] in L, U. rewrite !fact_zf in L. rewrite !fact_zf in U. change (zf 0) with 1%Z in *. change (zf 2) with 2%Z in *. change (zf 4) with 24%Z in *. change (zf 6) with 720%Z in *. change (zf 8) with 40320%Z in *.
  split; [eapply Rle_trans; [|exact L]|eapply Rle_trans; [exact U|]]; right; unfold t; field.
Qed.
Lemma cos_taylor2 x : - (79 / 100) <= x <= 79 / 100 -> let t := x * x in
  1 - t ^ 1 / 2 + t ^ 2 / 24 - t ^ 3 / 720 + t ^ 4 / 40320 - t ^ 5 / 3628800 <= cos x /\ cos x <= 1 - t ^ 1 / 2 + t ^ 2 / 24 - t ^ 3 / 720 + t ^ 4 / 40320 - t ^ 5 / 3628800 + t ^ 6 / 479001600.
Proof.
  intros H t. assert (B : cos_approx x (2 * 2 + 1) <= cos x <= cos_approx x (2 * (2 + 1))) by (apply cos_bound; pose proof pi_big; lra). destruct B as (L & U).
  unfold cos_approx, cos_term in L, U. cbn [sum_f_R0 Nat.mul Nat.add] in L, U. rewrite !fact_zf in L. rewrite !fact_zf in U. change (zf 0) with 1%Z in *. change (zf 2) with 2%Z in *. change (zf 4) with 24%Z in *. change (zf 6) with 720%Z in *. change (zf 8) with 40320%Z in *. change (zf 10) with 3628800%Z in *. change (zf 12) with 479001600%Z in *.
  split; [eapply Rle_trans; [|exact L]|eapply Rle_trans; [exact U|]]; right; unfold t; field.
Qed.
Lemma cos_taylor3 x : - (79 / 100) <= x <= 79 / 100 -> let t := x * x in
  1 - t ^ 1 / 2 + t ^ 2 / 24 - t ^ 3 / 720 + t ^ 4 / 40320 - t ^ 5 / 3628800 + t ^ 6 / 479001600 - t ^ 7 / 87178291200 <= cos x /\ cos x <= 1 - t ^ 1 / 2 + t ^ 2 / 24 - t ^ 3 / 720 + t ^ 4 / 40320 - t ^ 5 / 3628800 + t ^ 6 / 479001600 - t ^ 7 / 87178291200 + t ^ 8 / 20922789888000.
Proof.
  intros H t. assert (B : cos_approx x (2 * 3 + 1) <= cos x <= cos_approx x (2 * (3 + 1))) by (apply cos_bound; pose proof pi_big; lra). destruct B as (L & U).
  unfold cos_approx, cos_term in L, U. cbn [sum_f_R0 Nat.mul Nat.add] in L, U. rewrite !fact_zf in L. rewrite !fact_zf in U. change (zf 0) with 1%Z in *. change (zf 2) with 2%Z in *. change (zf 4) with 24%Z in *. change (zf 6) with 720%Z in *. change (zf 8) with 40320%Z in *. change (zf 10) with 3628800%Z in *. change (zf 12) with 479001600%Z in *. change (zf 14) with 87178291200%Z in *. change (zf 16) with 20922789888000%Z in *.
  split; [eapply Rle_trans; [|exact L]|eapply Rle_trans; [exact U|]]; right; unfold t; field.
Qed.
Lemma cos_taylor4 x : - (79 / 100) <= x <= 79 / 100 -> let t := x * x in
  1 - t ^ 1 / 2 + t ^ 2 / 24 - t ^ 3 / 720 + t ^ 4 / 40320 - t ^ 5 / 3628800 + t ^ 6 / 479001600 - t ^ 7 / 87178291200 + t ^ 8 / 20922789888000 - t ^ 9 / 6402373705728000 <= cos x /\ cos x <= 1 - t ^ 1 / 2 + t ^ 2 / 24 - t ^ 3 / 720 + t ^ 4 / 40320 - t ^ 5 / 3628800 + t ^ 6 / 479001600 - t ^ 7 / 87178291200 + t ^ 8 / 20922789888000 - t ^ 9 / 6402373705728000 + t ^ 10 / 2432902008176640000.
Proof.
  intros H t. assert (B : cos_approx x (2 * 4 + 1) <= cos x <= cos_approx x (2 * (4 + 1))) by (apply cos_bound; pose proof pi_big; lra). destruct B as (L & U).
  unfold cos_approx, cos_term in L, U. cbn [sum_f_R0 Nat.mul Nat.add] in L, U. rewrite !fact_zf in L. rewrite !fact_zf in U. change (zf 0) with 1%Z in *. change (zf 2) with 2%Z in *. change (zf 4) with 24%Z in *. change (zf 6) with 720%Z in *. change (zf 8) with 40320%Z in *. change (zf 10) with 3628800%Z in *. change (zf 12) with 479001600%Z in *. change (zf 14) with 87178291200%Z in *. change (zf 16) with 20922789888000%Z in *. change (zf 18) with 6402373705728000%Z in *. change (zf 20) with 2432902008176640000%Z in *.
  split; [eapply Rle_trans; [|exact L]|eapply Rle_trans; [exact U|]]; right; unfold t; field.
Qed.
Lemma sin_poly4 x : 0 <= x <= 79 / 100 -> let t := x * x in Rabs ((((((((- 1651 / 8388608) * t) + (69905 / 8388608)) * t) + (- 11184811 / 67108864)) * (t * x)) + x) - sin x) <= (7 / 100000000).
Proof.
  intros H t. destruct (sin_taylor2 x H) as (L & _), (sin_taylor1 x H) as (_ & U). fold t in L, U.
  assert (T : 0 <= t <= (6241 / 10000)) by (unfold t; nra).
  pose (m0 := x). pose (m1 := m0 * t). pose (m2 := m1 * t). pose (m3 := m2 * t). pose (m4 := m3 * t). pose (m5 := m4 * t).
  assert (EL : (((((((- 1651 / 8388608) * t) + (69905 / 8388608)) * t) + (- 11184811 / 67108864)) * (t * x)) + x) - (x - x * t ^ 1 / 6 + x * t ^ 2 / 120 - x * t ^ 3 / 5040 + x * t ^ 4 / 362880 - x * t ^ 5 / 39916800) = (- 1 / 201326592) * m1 + (- 1 / 125829120) * m2 + (4223 / 2642411520) * m3 + (- 1 / 362880) * m4 + (1 / 39916800) * m5) by (unfold m5, m4, m3, m2, m1, m0; field).
  assert (EU : (((((((- 1651 / 8388608) * t) + (69905 / 8388608)) * t) + (- 11184811 / 67108864)) * (t * x)) + x) - (x - x * t ^ 1 / 6 + x * t ^ 2 / 120 - x * t ^ 3 / 5040 + x * t ^ 4 / 362880) = (- 1 / 201326592) * m1 + (- 1 / 125829120) * m2 + (4223 / 2642411520) * m3 + (- 1 / 362880) * m4) by (unfold m5, m4, m3, m2, m1, m0; field).
  set (P := (((((((- 1651 / 8388608) * t) + (69905 / 8388608)) * t) + (- 11184811 / 67108864)) * (t * x)) + x)) in *. set (sl := x - x * t ^ 1 / 6 + x * t ^ 2 / 120 - x * t ^ 3 / 5040 + x * t ^ 4 / 362880 - x * t ^ 5 / 39916800) in *. set (su := x - x * t ^ 1 / 6 + x * t ^ 2 / 120 - x * t ^ 3 / 5040 + x * t ^ 4 / 362880) in *. set (s := sin x) in *.
  assert (M0 : 0 <= m0 <= (79 / 100)) by (unfold m0; lra). clearbody m0 P sl su s t. clear H.
  destruct (Rle_dec t (3 / 10)) as [T0|T0]; [assert (T' : 0 <= t <= (3 / 10)) by lra; clear T; assert (T : 0 <= t <= (3 / 10)) by lra; assert (M1 : 0 <= m1 <= (237 / 1000)) by (pose proof (mono m0 t _ _ M0 T); unfold m1; lra); assert (Q1 : m1 <= (3 / 10) * m0) by (unfold m1; rewrite (Rmult_comm m0); apply Rmult_le_compat_r; lra); assert (M2 : 0 <= m2 <= (711 / 10000)) by (pose proof (mono m1 t _ _ M1 T); unfold m2; lra); assert (Q2 : m2 <= (3 / 10) * m1) by (unfold m2; rewrite (Rmult_comm m1); apply Rmult_le_compat_r; lra); assert (M3 : 0 <= m3 <= (2133 / 100000)) by (pose proof (mono m2 t _ _ M2 T); unfold m3; lra); assert (Q3 : m3 <= (3 / 10) * m2) by (unfold m3; rewrite (Rmult_comm m2); apply Rmult_le_compat_r; lra); assert (M4 : 0 <= m4 <= (6399 / 1000000)) by (pose proof (mono m3 t _ _ M3 T); unfold m4; lra); assert (Q4 : m4 <= (3 / 10) * m3) by (unfold m4; rewrite (Rmult_comm m3); apply Rmult_le_compat_r; lra); assert (M5 : 0 <= m5 <= (19197 / 10000000)) by (pose proof (mono m4 t _ _ M4 T); unfold m5; lra); assert (Q5 : m5 <= (3 / 10) * m4) by (unfold m5; rewrite (Rmult_comm m4); apply Rmult_le_compat_r; lra); clearbody m1 m2 m3 m4 m5; apply Rabs_le; lra|].
  destruct (Rle_dec t (9 / 20)) as [T1|T1]; [assert (T' : (3 / 10) <= t <= (9 / 20)) by lra; clear T; assert (T : 0 <= t <= (9 / 20)) by lra; assert (M1 : 0 <= m1 <= (711 / 2000)) by (pose proof (mono m0 t _ _ M0 T); unfold m1; lra); assert (Q1 : m1 <= (9 / 20) * m0) by (unfold m1; rewrite (Rmult_comm m0); apply Rmult_le_compat_r; lra); assert (N1 : (3 / 10) * m0 <= m1) by (unfold m1; rewrite (Rmult_comm m0); apply Rmult_le_compat_r; lra); assert (M2 : 0 <= m2 <= (6399 / 40000)) by (pose proof (mono m1 t _ _ M1 T); unfold m2; lra); assert (Q2 : m2 <= (9 / 20) * m1) by (unfold m2; rewrite (Rmult_comm m1); apply Rmult_le_compat_r; lra); assert (N2 : (3 / 10) * m1 <= m2) by (unfold m2; rewrite (Rmult_comm m1); apply Rmult_le_compat_r; lra); assert (M3 : 0 <= m3 <= (57591 / 800000)) by (pose proof (mono m2 t _ _ M2 T); unfold m3; lra); assert (Q3 : m3 <= (9 / 20) * m2) by (unfold m3; rewrite (Rmult_comm m2); apply Rmult_le_compat_r; lra); assert (N3 : (3 / 10) * m2 <= m3) by (unfold m3; rewrite (Rmult_comm m2); apply Rmult_le_compat_r; lra); assert (M4 : 0 <= m4 <= (518319 / 16000000)) by (pose proof (mono m3 t _ _ M3 T); unfold m4; lra); assert (Q4 : m4 <= (9 / 20) * m3) by (unfold m4; rewrite (Rmult_comm m3); apply Rmult_le_compat_r; lra); assert (N4 : (3 / 10) * m3 <= m4) by (unfold m4; rewrite (Rmult_comm m3); apply Rmult_le_compat_r; lra); assert (M5 : 0 <= m5 <= (4664871 / 320000000)) by (pose proof (mono m4 t _ _ M4 T); unfold m5; lra); assert (Q5 : m5 <= (9 / 20) * m4) by (unfold m5; rewrite (Rmult_comm m4); apply Rmult_le_compat_r; lra); assert (N5 : (3 / 10) * m4 <= m5) by (unfold m5; rewrite (Rmult_comm m4); apply Rmult_le_compat_r; lra); clearbody m1 m2 m3 m4 m5; apply Rabs_le; lra|].
  destruct (Rle_dec t (11 / 20)) as [T2|T2]; [assert (T' : (9 / 20) <= t <= (11 / 20)) by lra; clear T; assert (T : 0 <= t <= (11 / 20)) by lra; assert (M1 : 0 <= m1 <= (869 / 2000)) by (pose proof (mono m0 t _ _ M0 T); unfold m1; lra); assert (Q1 : m1 <= (11 / 20) * m0) by (unfold m1; rewrite (Rmult_comm m0); apply Rmult_le_compat_r; lra); assert (N1 : (9 / 20) * m0 <= m1) by (unfold m1; rewrite (Rmult_comm m0); apply Rmult_le_compat_r; lra); assert (M2 : 0 <= m2 <= (9559 / 40000)) by (pose proof (mono m1 t _ _ M1 T); unfold m2; lra); assert (Q2 : m2 <= (11 / 20) * m1) by (unfold m2; rewrite (Rmult_comm m1); apply Rmult_le_compat_r; lra); assert (N2 : (9 / 20) * m1 <= m2) by (unfold m2; rewrite (Rmult_comm m1); apply Rmult_le_compat_r; lra); assert (M3 : 0 <= m3 <= (105149 / 800000)) by (pose proof (mono m2 t _ _ M2 T); unfold m3; lra); assert (Q3 : m3 <= (11 / 20) * m2) by (unfold m3; rewrite (Rmult_comm m2); apply Rmult_le_compat_r; lra); assert (N3 : (9 / 20) * m2 <= m3) by (unfold m3; rewrite (Rmult_comm m2); apply Rmult_le_compat_r; lra); assert (M4 : 0 <= m4 <= (1156639 / 16000000)) by (pose proof (mono m3 t _ _ M3 T); unfold m4; lra); assert (Q4 : m4 <= (11 / 20) * m3) by (unfold m4; rewrite (Rmult_comm m3); apply Rmult_le_compat_r; lra); assert (N4 : (9 / 20) * m3 <= m4) by (unfold m4; rewrite (Rmult_comm m3); apply Rmult_le_compat_r; lra); assert (M5 : 0 <= m5 <= (12723029 / 320000000)) by (pose proof (mono m4 t _ _ M4 T); unfold m5; lra); assert (Q5 : m5 <= (11 / 20) * m4) by (unfold m5; rewrite (Rmult_comm m4); apply Rmult_le_compat_r; lra); assert (N5 : (9 / 20) * m4 <= m5) by (unfold m5; rewrite (Rmult_comm m4); apply Rmult_le_compat_r; lra); clearbody m1 m2 m3 m4 m5; apply Rabs_le; lra|].
  assert (T' : (11 / 20) <= t <= (6241 / 10000)) by lra.
  assert (M1 : 0 <= m1 <= (493039 / 1000000)) by (pose proof (mono m0 t _ _ M0 T); unfold m1; lra). assert (Q1 : m1 <= (6241 / 10000) * m0) by (unfold m1; rewrite (Rmult_comm m0); apply Rmult_le_compat_r; lra). assert (N1 : (11 / 20) * m0 <= m1) by (unfold m1; rewrite (Rmult_comm m0); apply Rmult_le_compat_r; lra). assert (M2 : 0 <= m2 <= (3077056399 / 10000000000)) by (pose proof (mono m1 t _ _ M1 T); unfold m2; lra). assert (Q2 : m2 <= (6241 / 10000) * m1) by (unfold m2; rewrite (Rmult_comm m1); apply Rmult_le_compat_r; lra). assert (N2 : (11 / 20) * m1 <= m2) by (unfold m2; rewrite (Rmult_comm m1); apply Rmult_le_compat_r; lra). assert (M3 : 0 <= m3 <= (96019544931 / 500000000000)) by (pose proof (mono m2 t _ _ M2 T); unfold m3; lra). assert (Q3 : m3 <= (6241 / 10000) * m2) by (unfold m3; rewrite (Rmult_comm m2); apply Rmult_le_compat_r; lra). assert (N3 : (11 / 20) * m2 <= m3) by (unfold m3; rewrite (Rmult_comm m2); apply Rmult_le_compat_r; lra). assert (M4 : 0 <= m4 <= (119851595983 / 1000000000000)) by (pose proof (mono m3 t _ _ M3 T); unfold m4; lra). assert (Q4 : m4 <= (6241 / 10000) * m3) by (unfold m4; rewrite (Rmult_comm m3); apply Rmult_le_compat_r; lra). assert (N4 : (11 / 20) * m3 <= m4) by (unfold m4; rewrite (Rmult_comm m3); apply Rmult_le_compat_r; lra). assert (M5 : 0 <= m5 <= (74799381053 / 1000000000000)) by (pose proof (mono m4 t _ _ M4 T); unfold m5; lra). assert (Q5 : m5 <= (6241 / 10000) * m4) by (unfold m5; rewrite (Rmult_comm m4); apply Rmult_le_compat_r; lra). assert (N5 : (11 / 20) * m4 <= m5) by (unfold m5; rewrite (Rmult_comm m4); apply Rmult_le_compat_r; lra). clearbody m1 m2 m3 m4 m5. apply Rabs_le. lra.
Qed.
Lemma sin_poly4' x : Rabs x <= 79 / 100 -> Rabs ((((((((- 1651 / 8388608) * (x * x)) + (69905 / 8388608)) * (x * x)) + (- 11184811 / 67108864)) * ((x * x) * x)) + x) - sin x) <= (7 / 100000000).
Proof.
  intros H. destruct (Rle_dec 0 x) as [P|P]; [apply (sin_poly4 x); rewrite Rabs_pos_eq in H by exact P; lra|]. rewrite Rabs_left in H by lra.
  pose proof (sin_poly4 (- x) ltac:(lra)) as Q. cbv zeta in Q. rewrite sin_neg in Q. rewrite <- Rabs_Ropp. eapply Rle_trans; [right|exact Q]. f_equal. field.
Qed.
Lemma sin_app4 (X : word 4) : is_Finite X = true -> Rabs (real X) <= 79 / 100 ->
  is_Finite (sin_series4 X) = true /\ Rabs (real (sin_series4 X) - sin (real X)) <= (6888473 / 50000000000000).
Proof.
  intros F HX. set (Hw := fp4). pose proof (sin_poly4' (real X) HX) as PD. pose proof (app_exact X _ F HX) as Hx. set (x := real X) in *.
  assert (SB : Rabs (sin x) <= 79 / 100) by (eapply Rle_trans; [apply sin_le_abs|exact HX]).
  assert (PB : Rabs (((((((- 1651 / 8388608) * (x * x)) + (69905 / 8388608)) * (x * x)) + (- 11184811 / 67108864)) * ((x * x) * x)) + x) <= (7900001 / 10000000)) by (replace (((((((- 1651 / 8388608) * (x * x)) + (69905 / 8388608)) * (x * x)) + (- 11184811 / 67108864)) * ((x * x) * x)) + x) with (((((((((- 1651 / 8388608) * (x * x)) + (69905 / 8388608)) * (x * x)) + (- 11184811 / 67108864)) * ((x * x) * x)) + x) - sin x) + sin x) by ring; eapply Rle_trans; [apply Rabs_triang|lra]).
  clear SB.
  assert (Ht : app (fmul X X) (x * x) (6241 / 10000) (1859963 / 50000000000000)) by (refine (mul_w Hw _ _ _ _ _ _ _ _ _ _ Hx Hx _ _ _ _ _ _ _); rewrite ?u4; lra).
  assert (Hc0 : app (f4 (-1) 0x4e6000 (-13)) (- 1651 / 8388608) (1651 / 8388608) 0) by (refine (eq_rect _ (fun z => app (f4 (-1) 0x4e6000 (-13)) z _ _) (const_app Hw (f4 (-1) 0x4e6000 (-13)) (-1651) 8388608 (1651 / 8388608) eq_refl eq_refl _ _) _ _); [vm_compute; reflexivity|rewrite Rabs_left; lra|lra]).
  assert (Hc1 : app (f4 1 0x088880 (-7)) (69905 / 8388608) (69905 / 8388608) 0) by (refine (eq_rect _ (fun z => app (f4 1 0x088880 (-7)) z _ _) (const_app Hw (f4 1 0x088880 (-7)) (69905) 8388608 (69905 / 8388608) eq_refl eq_refl _ _) _ _); [vm_compute; reflexivity|rewrite Rabs_right; lra|lra]).
  assert (Hm1 : app (fmul (f4 (-1) 0x4e6000 (-13)) (fmul X X)) ((- 1651 / 8388608) * (x * x)) (7677 / 62500000) (91517 / 6250000000000000)) by (refine (mul_w Hw _ _ _ _ _ _ _ _ _ _ Hc0 Ht _ _ _ _ _ _ _); rewrite ?u4; lra).
  assert (Hy1 : app (fadd (fmul (f4 (-1) 0x4e6000 (-13)) (fmul X X)) (f4 1 0x088880 (-7))) (((- 1651 / 8388608) * (x * x)) + (69905 / 8388608)) (4228079 / 500000000) (5186691 / 10000000000000000)) by (refine (add_w Hw _ _ _ _ _ _ _ _ _ _ Hm1 Hc1 _ _ _); rewrite ?u4; lra).
  assert (Hc2 : app (f4 (-1) 0x2aaaab (-3)) (- 11184811 / 67108864) (11184811 / 67108864) 0) by (refine (eq_rect _ (fun z => app (f4 (-1) 0x2aaaab (-3)) z _ _) (const_app Hw (f4 (-1) 0x2aaaab (-3)) (-11184811) 67108864 (11184811 / 67108864) eq_refl eq_refl _ _) _ _); [vm_compute; reflexivity|rewrite Rabs_left; lra|lra]).
  assert (Hm2 : app (fmul (fadd (fmul (f4 (-1) 0x4e6000 (-13)) (fmul X X)) (f4 1 0x088880 (-7))) (fmul X X)) ((((- 1651 / 8388608) * (x * x)) + (69905 / 8388608)) * (x * x)) (5277489 / 1000000000) (9528271 / 10000000000000000)) by (refine (mul_w Hw _ _ _ _ _ _ _ _ _ _ Hy1 Ht _ _ _ _ _ _ _); rewrite ?u4; lra).
  assert (Hy2 : app (fadd (fmul (fadd (fmul (f4 (-1) 0x4e6000 (-13)) (fmul X X)) (f4 1 0x088880 (-7))) (fmul X X)) (f4 (-1) 0x2aaaab (-3))) (((((- 1651 / 8388608) * (x * x)) + (69905 / 8388608)) * (x * x)) + (- 11184811 / 67108864)) (859721 / 5000000) (1120151 / 100000000000000)) by (refine (add_w Hw _ _ _ _ _ _ _ _ _ _ Hm2 Hc2 _ _ _); rewrite ?u4; lra).
  assert (Ha : app (fmul (fmul X X) X) ((x * x) * x) (493039 / 1000000) (1469371 / 25000000000000)) by (refine (mul_w Hw _ _ _ _ _ _ _ _ _ _ Ht Hx _ _ _ _ _ _ _); rewrite ?u4; lra).
  assert (Hb : app (fmul (fadd (fmul (fadd (fmul (f4 (-1) 0x4e6000 (-13)) (fmul X X)) (f4 1 0x088880 (-7))) (fmul X X)) (f4 (-1) 0x2aaaab (-3))) (fmul (fmul X X) X)) ((((((- 1651 / 8388608) * (x * x)) + (69905 / 8388608)) * (x * x)) + (- 11184811 / 67108864)) * ((x * x) * x)) (105969 / 1250000) (1034089 / 50000000000000)) by (refine (mul_w Hw _ _ _ _ _ _ _ _ _ _ Hy2 Ha _ _ _ _ _ _ _); rewrite ?u4; lra).
  assert (Hr : app (fadd (fmul (fadd (fmul (fadd (fmul (f4 (-1) 0x4e6000 (-13)) (fmul X X)) (f4 1 0x088880 (-7))) (fmul X X)) (f4 (-1) 0x2aaaab (-3))) (fmul (fmul X X) X)) X) (((((((- 1651 / 8388608) * (x * x)) + (69905 / 8388608)) * (x * x)) + (- 11184811 / 67108864)) * ((x * x) * x)) + x) (7900001 / 10000000) (3388473 / 50000000000000)) by (refine (add_b Hw _ _ _ _ _ _ _ _ _ _ Hb Hx _ _ _); [exact PB|rewrite ?u4; lra|rewrite ?u4; lra]).
  destruct Hr as (FR & _ & ER). change (sin_series4 X) with (fadd (fmul (fadd (fmul (fadd (fmul (f4 (-1) 0x4e6000 (-13)) (fmul X X)) (f4 1 0x088880 (-7))) (fmul X X)) (f4 (-1) 0x2aaaab (-3))) (fmul (fmul X X) X)) X). split; [exact FR|].
  match goal with |- Rabs (?a - ?c) <= _ => replace (a - c) with ((a - (((((((- 1651 / 8388608) * (x * x)) + (69905 / 8388608)) * (x * x)) + (- 11184811 / 67108864)) * ((x * x) * x)) + x)) + ((((((((- 1651 / 8388608) * (x * x)) + (69905 / 8388608)) * (x * x)) + (- 11184811 / 67108864)) * ((x * x) * x)) + x) - c)) by ring end. eapply Rle_trans; [apply Rabs_triang|]. lra.
Qed.
Lemma cos_poly4 x : - (79 / 100) <= x <= 79 / 100 -> let t := x * x in Rabs (((((((((13 / 524288) * t) + (- 5825 / 4194304)) * t) + (11184811 / 268435456)) * (t * t)) - ((1 / 2) * t)) + 1) - cos x) <= (53 / 1000000000).
Proof.
  intros H t. destruct (cos_taylor2 x H) as (L & _), (cos_taylor2 x H) as (_ & U). fold t in L, U.
  assert (T : 0 <= t <= (6241 / 10000)) by (unfold t; nra).
  pose (m0 := 1). pose (m1 := m0 * t). pose (m2 := m1 * t). pose (m3 := m2 * t). pose (m4 := m3 * t). pose (m5 := m4 * t). pose (m6 := m5 * t).
  assert (EL : ((((((((13 / 524288) * t) + (- 5825 / 4194304)) * t) + (11184811 / 268435456)) * (t * t)) - ((1 / 2) * t)) + 1) - (1 - t ^ 1 / 2 + t ^ 2 / 24 - t ^ 3 / 720 + t ^ 4 / 40320 - t ^ 5 / 3628800) = (1 / 805306368) * m2 + (19 / 188743680) * m3 + (- 1 / 165150720) * m4 + (1 / 3628800) * m5) by (unfold m6, m5, m4, m3, m2, m1, m0; field).
  assert (EU : ((((((((13 / 524288) * t) + (- 5825 / 4194304)) * t) + (11184811 / 268435456)) * (t * t)) - ((1 / 2) * t)) + 1) - (1 - t ^ 1 / 2 + t ^ 2 / 24 - t ^ 3 / 720 + t ^ 4 / 40320 - t ^ 5 / 3628800 + t ^ 6 / 479001600) = (1 / 805306368) * m2 + (19 / 188743680) * m3 + (- 1 / 165150720) * m4 + (1 / 3628800) * m5 + (- 1 / 479001600) * m6) by (unfold m6, m5, m4, m3, m2, m1, m0; field).
  set (P := ((((((((13 / 524288) * t) + (- 5825 / 4194304)) * t) + (11184811 / 268435456)) * (t * t)) - ((1 / 2) * t)) + 1)) in *. set (sl := 1 - t ^ 1 / 2 + t ^ 2 / 24 - t ^ 3 / 720 + t ^ 4 / 40320 - t ^ 5 / 3628800) in *. set (su := 1 - t ^ 1 / 2 + t ^ 2 / 24 - t ^ 3 / 720 + t ^ 4 / 40320 - t ^ 5 / 3628800 + t ^ 6 / 479001600) in *. set (s := cos x) in *.
  assert (M0 : 0 <= m0 <= 1) by (unfold m0; lra). clearbody m0 P sl su s t. clear H.
  assert (M1 : 0 <= m1 <= (6241 / 10000)) by (pose proof (mono m0 t _ _ M0 T); unfold m1; lra). assert (M2 : 0 <= m2 <= (38950081 / 100000000)) by (pose proof (mono m1 t _ _ M1 T); unfold m2; lra). assert (M3 : 0 <= m3 <= (243087455521 / 1000000000000)) by (pose proof (mono m2 t _ _ M2 T); unfold m3; lra). assert (M4 : 0 <= m4 <= (151710880991 / 1000000000000)) by (pose proof (mono m3 t _ _ M3 T); unfold m4; lra). assert (M5 : 0 <= m5 <= (189365521653 / 2000000000000)) by (pose proof (mono m4 t _ _ M4 T); unfold m5; lra). assert (M6 : 0 <= m6 <= (590915110319 / 10000000000000)) by (pose proof (mono m5 t _ _ M5 T); unfold m6; lra). clearbody m1 m2 m3 m4 m5 m6. apply Rabs_le. lra.
Qed.
Lemma cos_poly4' x : Rabs x <= 79 / 100 -> Rabs (((((((((13 / 524288) * (x * x)) + (- 5825 / 4194304)) * (x * x)) + (11184811 / 268435456)) * ((x * x) * (x * x))) - ((1 / 2) * (x * x))) + 1) - cos x) <= (53 / 1000000000).
Proof. intros H. apply (cos_poly4 x). apply Rabs_def2' || (unfold Rabs in H; destruct (Rcase_abs x); lra). Qed.
Lemma cos_app4 (X : word 4) : is_Finite X = true -> Rabs (real X) <= 79 / 100 ->
  is_Finite (cos_series4 X) = true /\ Rabs (real (cos_series4 X) - cos (real X)) <= (217989 / 1250000000000).
Proof.
  intros F HX. set (Hw := fp4). pose proof (cos_poly4' (real X) HX) as PD. pose proof (app_exact X _ F HX) as Hx. set (x := real X) in *.
  assert (SB : Rabs (cos x) <= 1) by (destruct (COS_bound x); apply Rabs_le; lra).
  assert (PB : Rabs ((((((((13 / 524288) * (x * x)) + (- 5825 / 4194304)) * (x * x)) + (11184811 / 268435456)) * ((x * x) * (x * x))) - ((1 / 2) * (x * x))) + 1) <= (1000001 / 1000000)) by (replace ((((((((13 / 524288) * (x * x)) + (- 5825 / 4194304)) * (x * x)) + (11184811 / 268435456)) * ((x * x) * (x * x))) - ((1 / 2) * (x * x))) + 1) with ((((((((((13 / 524288) * (x * x)) + (- 5825 / 4194304)) * (x * x)) + (11184811 / 268435456)) * ((x * x) * (x * x))) - ((1 / 2) * (x * x))) + 1) - cos x) + cos x) by ring; eapply Rle_trans; [apply Rabs_triang|lra]).
  clear SB.
  assert (Ht : app (fmul X X) (x * x) (6241 / 10000) (1859963 / 50000000000000)) by (refine (mul_w Hw _ _ _ _ _ _ _ _ _ _ Hx Hx _ _ _ _ _ _ _); rewrite ?u4; lra).
  assert (Hc0 : app (f4 1 0x500000 (-16)) (13 / 524288) (13 / 524288) 0) by (refine (eq_rect _ (fun z => app (f4 1 0x500000 (-16)) z _ _) (const_app Hw (f4 1 0x500000 (-16)) (13) 524288 (13 / 524288) eq_refl eq_refl _ _) _ _); [vm_compute; reflexivity|rewrite Rabs_right; lra|lra]).
  assert (Hc1 : app (f4 (-1) 0x360800 (-10)) (- 5825 / 4194304) (5825 / 4194304) 0) by (refine (eq_rect _ (fun z => app (f4 (-1) 0x360800 (-10)) z _ _) (const_app Hw (f4 (-1) 0x360800 (-10)) (-5825) 4194304 (5825 / 4194304) eq_refl eq_refl _ _) _ _); [vm_compute; reflexivity|rewrite Rabs_left; lra|lra]).
  assert (Hm1 : app (fmul (f4 1 0x500000 (-16)) (fmul X X)) ((13 / 524288) * (x * x)) (154749 / 10000000000) (1844751 / 1000000000000000000)) by (refine (mul_w Hw _ _ _ _ _ _ _ _ _ _ Hc0 Ht _ _ _ _ _ _ _); rewrite ?u4; lra).
  assert (Hy1 : app (fadd (fmul (f4 1 0x500000 (-16)) (fmul X X)) (f4 (-1) 0x360800 (-10))) (((13 / 524288) * (x * x)) + (- 5825 / 4194304)) (175533 / 125000000) (8554541 / 100000000000000000)) by (refine (add_w Hw _ _ _ _ _ _ _ _ _ _ Hm1 Hc1 _ _ _); rewrite ?u4; lra).
  assert (Hc2 : app (f4 1 0x2aaaab (-5)) (11184811 / 268435456) (11184811 / 268435456) 0) by (refine (eq_rect _ (fun z => app (f4 1 0x2aaaab (-5)) z _ _) (const_app Hw (f4 1 0x2aaaab (-5)) (11184811) 268435456 (11184811 / 268435456) eq_refl eq_refl _ _) _ _); [vm_compute; reflexivity|rewrite Rabs_right; lra|lra]).
  assert (Hm2 : app (fmul (fadd (fmul (f4 1 0x500000 (-16)) (fmul X X)) (f4 (-1) 0x360800 (-10))) (fmul X X)) ((((13 / 524288) * (x * x)) + (- 5825 / 4194304)) * (x * x)) (2191003 / 2500000000) (1578641 / 10000000000000000)) by (refine (mul_w Hw _ _ _ _ _ _ _ _ _ _ Hy1 Ht _ _ _ _ _ _ _); rewrite ?u4; lra).
  assert (Hy2 : app (fadd (fmul (fadd (fmul (f4 1 0x500000 (-16)) (fmul X X)) (f4 (-1) 0x360800 (-10))) (fmul X X)) (f4 1 0x2aaaab (-5))) (((((13 / 524288) * (x * x)) + (- 5825 / 4194304)) * (x * x)) + (11184811 / 268435456)) (4254307 / 100000000) (2693629 / 1000000000000000)) by (refine (add_w Hw _ _ _ _ _ _ _ _ _ _ Hm2 Hc2 _ _ _); rewrite ?u4; lra).
  assert (Hh : app (half 4) (1 / 2) (1 / 2) 0) by (refine (eq_rect _ (fun z => app (half 4) z _ _) (const_app Hw (half 4) (1) 2 (1 / 2) eq_refl eq_refl _ _) _ _); [vm_compute; reflexivity|rewrite Rabs_right; lra|lra]).
  assert (Ho : app (one 4) 1 1 0) by (refine (eq_rect _ (fun z => app (one 4) z _ _) (const_app Hw (one 4) (1) 1 1 eq_refl eq_refl _ _) _ _); [vm_compute; reflexivity|rewrite Rabs_right; lra|lra]).
  assert (Ha : app (fmul (fmul X X) (fmul X X)) ((x * x) * (x * x)) (3895009 / 10000000) (3482409 / 50000000000000)) by (refine (mul_w Hw _ _ _ _ _ _ _ _ _ _ Ht Ht _ _ _ _ _ _ _); rewrite ?u4; lra).
  assert (Hb : app (fmul (fadd (fmul (fadd (fmul (f4 1 0x500000 (-16)) (fmul X X)) (f4 (-1) 0x360800 (-10))) (fmul X X)) (f4 1 0x2aaaab (-5))) (fmul (fmul X X) (fmul X X))) ((((((13 / 524288) * (x * x)) + (- 5825 / 4194304)) * (x * x)) + (11184811 / 268435456)) * ((x * x) * (x * x))) (1657057 / 100000000) (2499951 / 500000000000000)) by (refine (mul_w Hw _ _ _ _ _ _ _ _ _ _ Hy2 Ha _ _ _ _ _ _ _); rewrite ?u4; lra).
  assert (Hd : app (fmul (half 4) (fmul X X)) ((1 / 2) * (x * x)) (6241 / 20000) (3719927 / 100000000000000)) by (refine (mul_w Hw _ _ _ _ _ _ _ _ _ _ Hh Ht _ _ _ _ _ _ _); rewrite ?u4; lra).
  assert (He : app (fsub (fmul (fadd (fmul (fadd (fmul (f4 1 0x500000 (-16)) (fmul X X)) (f4 (-1) 0x360800 (-10))) (fmul X X)) (f4 1 0x2aaaab (-5))) (fmul (fmul X X) (fmul X X))) (fmul (half 4) (fmul X X))) (((((((13 / 524288) * (x * x)) + (- 5825 / 4194304)) * (x * x)) + (11184811 / 268435456)) * ((x * x) * (x * x))) - ((1 / 2) * (x * x))) (1643103 / 5000000) (6178649 / 100000000000000)) by (refine (sub_w Hw _ _ _ _ _ _ _ _ _ _ Hb Hd _ _ _); rewrite ?u4; lra).
  assert (Hr : app (fadd (fsub (fmul (fadd (fmul (fadd (fmul (f4 1 0x500000 (-16)) (fmul X X)) (f4 (-1) 0x360800 (-10))) (fmul X X)) (f4 1 0x2aaaab (-5))) (fmul (fmul X X) (fmul X X))) (fmul (half 4) (fmul X X))) (one 4)) ((((((((13 / 524288) * (x * x)) + (- 5825 / 4194304)) * (x * x)) + (11184811 / 268435456)) * ((x * x) * (x * x))) - ((1 / 2) * (x * x))) + 1) (1000001 / 1000000) (151739 / 1250000000000)) by (refine (add_b Hw _ _ _ _ _ _ _ _ _ _ He Ho _ _ _); [exact PB|rewrite ?u4; lra|rewrite ?u4; lra]).
  destruct Hr as (FR & _ & ER). change (cos_series4 X) with (fadd (fsub (fmul (fadd (fmul (fadd (fmul (f4 1 0x500000 (-16)) (fmul X X)) (f4 (-1) 0x360800 (-10))) (fmul X X)) (f4 1 0x2aaaab (-5))) (fmul (fmul X X) (fmul X X))) (fmul (half 4) (fmul X X))) (one 4)). split; [exact FR|].
  match goal with |- Rabs (?a - ?c) <= _ => replace (a - c) with ((a - ((((((((13 / 524288) * (x * x)) + (- 5825 / 4194304)) * (x * x)) + (11184811 / 268435456)) * ((x * x) * (x * x))) - ((1 / 2) * (x * x))) + 1)) + (((((((((13 / 524288) * (x * x)) + (- 5825 / 4194304)) * (x * x)) + (11184811 / 268435456)) * ((x * x) * (x * x))) - ((1 / 2) * (x * x))) + 1) - c)) by ring end. eapply Rle_trans; [apply Rabs_triang|]. lra.
Qed.
Lemma sin_poly8 x : 0 <= x <= 79 / 100 -> let t := x * x in Rabs ((((((((((((((((- 6863 / 9007199254740992) * t) + (361617 / 2251799813685248)) * t) + (- 451298663 / 18014398509481984)) * t) + (24821426517 / 9007199254740992)) * t) + (- 893571354637 / 4503599627370496)) * t) + (300239975158033 / 36028797018963968)) * t) + (- 6004799503160661 / 36028797018963968)) * (t * x)) + x) - sin x) <= (9 / 125000000000000000).
Proof.
  intros H t. destruct (sin_taylor4 x H) as (L & _), (sin_taylor3 x H) as (_ & U). fold t in L, U.
  assert (T : 0 <= t <= (6241 / 10000)) by (unfold t; nra).
  pose (m0 := x). pose (m1 := m0 * t). pose (m2 := m1 * t). pose (m3 := m2 * t). pose (m4 := m3 * t). pose (m5 := m4 * t). pose (m6 := m5 * t). pose (m7 := m6 * t). pose (m8 := m7 * t). pose (m9 := m8 * t).
  assert (EL : (((((((((((((((- 6863 / 9007199254740992) * t) + (361617 / 2251799813685248)) * t) + (- 451298663 / 18014398509481984)) * t) + (24821426517 / 9007199254740992)) * t) + (- 893571354637 / 4503599627370496)) * t) + (300239975158033 / 36028797018963968)) * t) + (- 6004799503160661 / 36028797018963968)) * (t * x)) + x) - (x - x * t ^ 1 / 6 + x * t ^ 2 / 120 - x * t ^ 3 / 5040 + x * t ^ 4 / 362880 - x * t ^ 5 / 39916800 + x * t ^ 6 / 6227020800 - x * t ^ 7 / 1307674368000 + x * t ^ 8 / 355687428096000 - x * t ^ 9 / 121645100408832000) = (1 / 108086391056891904) * m1 + (- 1 / 540431955284459520) * m2 + (1 / 1418633882621706240) * m3 + (- 1969 / 25535409887190712320) * m4 + (149389 / 2808895087590978355200) * m5 + (- 3157277 / 13693363552006019481600) * m6 + (15932649979 / 5751212691842528182272000) * m7 + (- 1 / 355687428096000) * m8 + (1 / 121645100408832000) * m9) by (unfold m9, m8, m7, m6, m5, m4, m3, m2, m1, m0; field).
  assert (EU : (((((((((((((((- 6863 / 9007199254740992) * t) + (361617 / 2251799813685248)) * t) + (- 451298663 / 18014398509481984)) * t) + (24821426517 / 9007199254740992)) * t) + (- 893571354637 / 4503599627370496)) * t) + (300239975158033 / 36028797018963968)) * t) + (- 6004799503160661 / 36028797018963968)) * (t * x)) + x) - (x - x * t ^ 1 / 6 + x * t ^ 2 / 120 - x * t ^ 3 / 5040 + x * t ^ 4 / 362880 - x * t ^ 5 / 39916800 + x * t ^ 6 / 6227020800 - x * t ^ 7 / 1307674368000 + x * t ^ 8 / 355687428096000) = (1 / 108086391056891904) * m1 + (- 1 / 540431955284459520) * m2 + (1 / 1418633882621706240) * m3 + (- 1969 / 25535409887190712320) * m4 + (149389 / 2808895087590978355200) * m5 + (- 3157277 / 13693363552006019481600) * m6 + (15932649979 / 5751212691842528182272000) * m7 + (- 1 / 355687428096000) * m8) by (unfold m9, m8, m7, m6, m5, m4, m3, m2, m1, m0; field).
  set (P := (((((((((((((((- 6863 / 9007199254740992) * t) + (361617 / 2251799813685248)) * t) + (- 451298663 / 18014398509481984)) * t) + (24821426517 / 9007199254740992)) * t) + (- 893571354637 / 4503599627370496)) * t) + (300239975158033 / 36028797018963968)) * t) + (- 6004799503160661 / 36028797018963968)) * (t * x)) + x)) in *. set (sl := x - x * t ^ 1 / 6 + x * t ^ 2 / 120 - x * t ^ 3 / 5040 + x * t ^ 4 / 362880 - x * t ^ 5 / 39916800 + x * t ^ 6 / 6227020800 - x * t ^ 7 / 1307674368000 + x * t ^ 8 / 355687428096000 - x * t ^ 9 / 121645100408832000) in *. set (su := x - x * t ^ 1 / 6 + x * t ^ 2 / 120 - x * t ^ 3 / 5040 + x * t ^ 4 / 362880 - x * t ^ 5 / 39916800 + x * t ^ 6 / 6227020800 - x * t ^ 7 / 1307674368000 + x * t ^ 8 / 355687428096000) in *. set (s := sin x) in *.
  assert (M0 : 0 <= m0 <= (79 / 100)) by (unfold m0; lra). clearbody m0 P sl su s t. clear H.
  destruct (Rle_dec t (1 / 2)) as [T0|T0]; [assert (T' : 0 <= t <= (1 / 2)) by lra; clear T; assert (T : 0 <= t <= (1 / 2)) by lra; assert (M1 : 0 <= m1 <= (79 / 200)) by (pose proof (mono m0 t _ _ M0 T); unfold m1; lra); assert (Q1 : m1 <= (1 / 2) * m0) by (unfold m1; rewrite (Rmult_comm m0); apply Rmult_le_compat_r; lra); assert (M2 : 0 <= m2 <= (79 / 400)) by (pose proof (mono m1 t _ _ M1 T); unfold m2; lra); assert (Q2 : m2 <= (1 / 2) * m1) by (unfold m2; rewrite (Rmult_comm m1); apply Rmult_le_compat_r; lra); assert (M3 : 0 <= m3 <= (79 / 800)) by (pose proof (mono m2 t _ _ M2 T); unfold m3; lra); assert (Q3 : m3 <= (1 / 2) * m2) by (unfold m3; rewrite (Rmult_comm m2); apply Rmult_le_compat_r; lra); assert (M4 : 0 <= m4 <= (79 / 1600)) by (pose proof (mono m3 t _ _ M3 T); unfold m4; lra); assert (Q4 : m4 <= (1 / 2) * m3) by (unfold m4; rewrite (Rmult_comm m3); apply Rmult_le_compat_r; lra); assert (M5 : 0 <= m5 <= (79 / 3200)) by (pose proof (mono m4 t _ _ M4 T); unfold m5; lra); assert (Q5 : m5 <= (1 / 2) * m4) by (unfold m5; rewrite (Rmult_comm m4); apply Rmult_le_compat_r; lra); assert (M6 : 0 <= m6 <= (79 / 6400)) by (pose proof (mono m5 t _ _ M5 T); unfold m6; lra); assert (Q6 : m6 <= (1 / 2) * m5) by (unfold m6; rewrite (Rmult_comm m5); apply Rmult_le_compat_r; lra); assert (M7 : 0 <= m7 <= (79 / 12800)) by (pose proof (mono m6 t _ _ M6 T); unfold m7; lra); assert (Q7 : m7 <= (1 / 2) * m6) by (unfold m7; rewrite (Rmult_comm m6); apply Rmult_le_compat_r; lra); assert (M8 : 0 <= m8 <= (79 / 25600)) by (pose proof (mono m7 t _ _ M7 T); unfold m8; lra); assert (Q8 : m8 <= (1 / 2) * m7) by (unfold m8; rewrite (Rmult_comm m7); apply Rmult_le_compat_r; lra); assert (M9 : 0 <= m9 <= (79 / 51200)) by (pose proof (mono m8 t _ _ M8 T); unfold m9; lra); assert (Q9 : m9 <= (1 / 2) * m8) by (unfold m9; rewrite (Rmult_comm m8); apply Rmult_le_compat_r; lra); clearbody m1 m2 m3 m4 m5 m6 m7 m8 m9; apply Rabs_le; lra|].
  assert (T' : (1 / 2) <= t <= (6241 / 10000)) by lra.
  assert (M1 : 0 <= m1 <= (493039 / 1000000)) by (pose proof (mono m0 t _ _ M0 T); unfold m1; lra). assert (Q1 : m1 <= (6241 / 10000) * m0) by (unfold m1; rewrite (Rmult_comm m0); apply Rmult_le_compat_r; lra). assert (N1 : (1 / 2) * m0 <= m1) by (unfold m1; rewrite (Rmult_comm m0); apply Rmult_le_compat_r; lra). assert (M2 : 0 <= m2 <= (3077056399 / 10000000000)) by (pose proof (mono m1 t _ _ M1 T); unfold m2; lra). assert (Q2 : m2 <= (6241 / 10000) * m1) by (unfold m2; rewrite (Rmult_comm m1); apply Rmult_le_compat_r; lra). assert (N2 : (1 / 2) * m1 <= m2) by (unfold m2; rewrite (Rmult_comm m1); apply Rmult_le_compat_r; lra). assert (M3 : 0 <= m3 <= (96019544931 / 500000000000)) by (pose proof (mono m2 t _ _ M2 T); unfold m3; lra). assert (Q3 : m3 <= (6241 / 10000) * m2) by (unfold m3; rewrite (Rmult_comm m2); apply Rmult_le_compat_r; lra). assert (N3 : (1 / 2) * m2 <= m3) by (unfold m3; rewrite (Rmult_comm m2); apply Rmult_le_compat_r; lra). assert (M4 : 0 <= m4 <= (119851595983 / 1000000000000)) by (pose proof (mono m3 t _ _ M3 T); unfold m4; lra). assert (Q4 : m4 <= (6241 / 10000) * m3) by (unfold m4; rewrite (Rmult_comm m3); apply Rmult_le_compat_r; lra). assert (N4 : (1 / 2) * m3 <= m4) by (unfold m4; rewrite (Rmult_comm m3); apply Rmult_le_compat_r; lra). assert (M5 : 0 <= m5 <= (74799381053 / 1000000000000)) by (pose proof (mono m4 t _ _ M4 T); unfold m5; lra). assert (Q5 : m5 <= (6241 / 10000) * m4) by (unfold m5; rewrite (Rmult_comm m4); apply Rmult_le_compat_r; lra). assert (N5 : (1 / 2) * m4 <= m5) by (unfold m5; rewrite (Rmult_comm m4); apply Rmult_le_compat_r; lra). assert (M6 : 0 <= m6 <= (7294108393 / 156250000000)) by (pose proof (mono m5 t _ _ M5 T); unfold m6; lra). assert (Q6 : m6 <= (6241 / 10000) * m5) by (unfold m6; rewrite (Rmult_comm m5); apply Rmult_le_compat_r; lra). assert (N6 : (1 / 2) * m5 <= m6) by (unfold m6; rewrite (Rmult_comm m5); apply Rmult_le_compat_r; lra). assert (M7 : 0 <= m7 <= (291344195077 / 10000000000000)) by (pose proof (mono m6 t _ _ M6 T); unfold m7; lra). assert (Q7 : m7 <= (6241 / 10000) * m6) by (unfold m7; rewrite (Rmult_comm m6); apply Rmult_le_compat_r; lra). assert (N7 : (1 / 2) * m6 <= m7) by (unfold m7; rewrite (Rmult_comm m6); apply Rmult_le_compat_r; lra). assert (M8 : 0 <= m8 <= (45456978037 / 2500000000000)) by (pose proof (mono m7 t _ _ M7 T); unfold m8; lra). assert (Q8 : m8 <= (6241 / 10000) * m7) by (unfold m8; rewrite (Rmult_comm m7); apply Rmult_le_compat_r; lra). assert (N8 : (1 / 2) * m7 <= m8) by (unfold m8; rewrite (Rmult_comm m7); apply Rmult_le_compat_r; lra). assert (M9 : 0 <= m9 <= (28369699993 / 2500000000000)) by (pose proof (mono m8 t _ _ M8 T); unfold m9; lra). assert (Q9 : m9 <= (6241 / 10000) * m8) by (unfold m9; rewrite (Rmult_comm m8); apply Rmult_le_compat_r; lra). assert (N9 : (1 / 2) * m8 <= m9) by (unfold m9; rewrite (Rmult_comm m8); apply Rmult_le_compat_r; lra). clearbody m1 m2 m3 m4 m5 m6 m7 m8 m9. apply Rabs_le. lra.
Qed.
Lemma sin_poly8' x : Rabs x <= 79 / 100 -> Rabs ((((((((((((((((- 6863 / 9007199254740992) * (x * x)) + (361617 / 2251799813685248)) * (x * x)) + (- 451298663 / 18014398509481984)) * (x * x)) + (24821426517 / 9007199254740992)) * (x * x)) + (- 893571354637 / 4503599627370496)) * (x * x)) + (300239975158033 / 36028797018963968)) * (x * x)) + (- 6004799503160661 / 36028797018963968)) * ((x * x) * x)) + x) - sin x) <= (9 / 125000000000000000).
Proof.
  intros H. destruct (Rle_dec 0 x) as [P|P]; [apply (sin_poly8 x); rewrite Rabs_pos_eq in H by exact P; lra|]. rewrite Rabs_left in H by lra.
  pose proof (sin_poly8 (- x) ltac:(lra)) as Q. cbv zeta in Q. rewrite sin_neg in Q. rewrite <- Rabs_Ropp. eapply Rle_trans; [right|exact Q]. f_equal. field.
Qed.
Lemma sin_app8 (X : word 8) : is_Finite X = true -> Rabs (real X) <= 79 / 100 ->
  is_Finite (sin_series8 X) = true /\ Rabs (real (sin_series8 X) - sin (real X)) <= (396471 / 2000000000000000000000).
Proof.
  intros F HX. set (Hw := fp8). pose proof (sin_poly8' (real X) HX) as PD. pose proof (app_exact X _ F HX) as Hx. set (x := real X) in *.
  assert (SB : Rabs (sin x) <= 79 / 100) by (eapply Rle_trans; [apply sin_le_abs|exact HX]).
  assert (PB : Rabs (((((((((((((((- 6863 / 9007199254740992) * (x * x)) + (361617 / 2251799813685248)) * (x * x)) + (- 451298663 / 18014398509481984)) * (x * x)) + (24821426517 / 9007199254740992)) * (x * x)) + (- 893571354637 / 4503599627370496)) * (x * x)) + (300239975158033 / 36028797018963968)) * (x * x)) + (- 6004799503160661 / 36028797018963968)) * ((x * x) * x)) + x) <= (7900001 / 10000000)) by (replace (((((((((((((((- 6863 / 9007199254740992) * (x * x)) + (361617 / 2251799813685248)) * (x * x)) + (- 451298663 / 18014398509481984)) * (x * x)) + (24821426517 / 9007199254740992)) * (x * x)) + (- 893571354637 / 4503599627370496)) * (x * x)) + (300239975158033 / 36028797018963968)) * (x * x)) + (- 6004799503160661 / 36028797018963968)) * ((x * x) * x)) + x) with (((((((((((((((((- 6863 / 9007199254740992) * (x * x)) + (361617 / 2251799813685248)) * (x * x)) + (- 451298663 / 18014398509481984)) * (x * x)) + (24821426517 / 9007199254740992)) * (x * x)) + (- 893571354637 / 4503599627370496)) * (x * x)) + (300239975158033 / 36028797018963968)) * (x * x)) + (- 6004799503160661 / 36028797018963968)) * ((x * x) * x)) + x) - sin x) + sin x) by ring; eapply Rle_trans; [apply Rabs_triang|lra]).
  clear SB.
  assert (Ht : app (fmul X X) (x * x) (6241 / 10000) (3464451 / 50000000000000000000000)) by (refine (mul_w Hw _ _ _ _ _ _ _ _ _ _ Hx Hx _ _ _ _ _ _ _); rewrite ?u8; lra).
  assert (Hc0 : app (f8 (-1) 0xacf0000000000 (-41)) (- 6863 / 9007199254740992) (6863 / 9007199254740992) 0) by (refine (eq_rect _ (fun z => app (f8 (-1) 0xacf0000000000 (-41)) z _ _) (const_app Hw (f8 (-1) 0xacf0000000000 (-41)) (-6863) 9007199254740992 (6863 / 9007199254740992) eq_refl eq_refl _ _) _ _); [vm_compute; reflexivity|rewrite Rabs_left; lra|lra]).
  assert (Hc1 : app (f8 1 0x6124400000000 (-33)) (361617 / 2251799813685248) (361617 / 2251799813685248) 0) by (refine (eq_rect _ (fun z => app (f8 1 0x6124400000000 (-33)) z _ _) (const_app Hw (f8 1 0x6124400000000 (-33)) (361617) 2251799813685248 (361617 / 2251799813685248) eq_refl eq_refl _ _) _ _); [vm_compute; reflexivity|rewrite Rabs_right; lra|lra]).
  assert (Hm1 : app (fmul (f8 (-1) 0xacf0000000000 (-41)) (fmul X X)) ((- 6863 / 9007199254740992) * (x * x)) (2377653 / 5000000000000000000) (1063779 / 10000000000000000000000000000000000)) by (refine (mul_w Hw _ _ _ _ _ _ _ _ _ _ Hc0 Ht _ _ _ _ _ _ _); rewrite ?u8; lra).
  assert (Hy1 : app (fadd (fmul (f8 (-1) 0xacf0000000000 (-41)) (fmul X X)) (f8 1 0x6124400000000 (-33))) (((- 6863 / 9007199254740992) * (x * x)) + (361617 / 2251799813685248)) (805329 / 5000000000000000) (449707 / 25000000000000000000000000000000)) by (refine (add_w Hw _ _ _ _ _ _ _ _ _ _ Hm1 Hc1 _ _ _); rewrite ?u8; lra).
  assert (Hc2 : app (f8 (-1) 0xae64567000000 (-26)) (- 451298663 / 18014398509481984) (451298663 / 18014398509481984) 0) by (refine (eq_rect _ (fun z => app (f8 (-1) 0xae64567000000 (-26)) z _ _) (const_app Hw (f8 (-1) 0xae64567000000 (-26)) (-451298663) 18014398509481984 (451298663 / 18014398509481984) eq_refl eq_refl _ _) _ _); [vm_compute; reflexivity|rewrite Rabs_left; lra|lra]).
  assert (Hm2 : app (fmul (fadd (fmul (f8 (-1) 0xacf0000000000 (-41)) (fmul X X)) (f8 1 0x6124400000000 (-33))) (fmul X X)) ((((- 6863 / 9007199254740992) * (x * x)) + (361617 / 2251799813685248)) * (x * x)) (251303 / 2500000000000000) (1677373 / 50000000000000000000000000000000)) by (refine (mul_w Hw _ _ _ _ _ _ _ _ _ _ Hy1 Ht _ _ _ _ _ _ _); rewrite ?u8; lra).
  assert (Hy2 : app (fadd (fmul (fadd (fmul (f8 (-1) 0xacf0000000000 (-41)) (fmul X X)) (f8 1 0x6124400000000 (-33))) (fmul X X)) (f8 (-1) 0xae64567000000 (-26))) (((((- 6863 / 9007199254740992) * (x * x)) + (361617 / 2251799813685248)) * (x * x)) + (- 451298663 / 18014398509481984)) (2515263 / 100000000000000) (2826051 / 1000000000000000000000000000000)) by (refine (add_w Hw _ _ _ _ _ _ _ _ _ _ Hm2 Hc2 _ _ _); rewrite ?u8; lra).
  assert (Hc3 : app (f8 1 0x71de3a5540000 (-19)) (24821426517 / 9007199254740992) (24821426517 / 9007199254740992) 0) by (refine (eq_rect _ (fun z => app (f8 1 0x71de3a5540000 (-19)) z _ _) (const_app Hw (f8 1 0x71de3a5540000 (-19)) (24821426517) 9007199254740992 (24821426517 / 9007199254740992) eq_refl eq_refl _ _) _ _); [vm_compute; reflexivity|rewrite Rabs_right; lra|lra]).
  assert (Hm3 : app (fmul (fadd (fmul (fadd (fmul (f8 (-1) 0xacf0000000000 (-41)) (fmul X X)) (f8 1 0x6124400000000 (-33))) (fmul X X)) (f8 (-1) 0xae64567000000 (-26))) (fmul X X)) ((((((- 6863 / 9007199254740992) * (x * x)) + (361617 / 2251799813685248)) * (x * x)) + (- 451298663 / 18014398509481984)) * (x * x)) (98111 / 6250000000000) (2624671 / 500000000000000000000000000000)) by (refine (mul_w Hw _ _ _ _ _ _ _ _ _ _ Hy2 Ht _ _ _ _ _ _ _); rewrite ?u8; lra).
  assert (Hy3 : app (fadd (fmul (fadd (fmul (fadd (fmul (f8 (-1) 0xacf0000000000 (-41)) (fmul X X)) (f8 1 0x6124400000000 (-33))) (fmul X X)) (f8 (-1) 0xae64567000000 (-26))) (fmul X X)) (f8 1 0x71de3a5540000 (-19))) (((((((- 6863 / 9007199254740992) * (x * x)) + (361617 / 2251799813685248)) * (x * x)) + (- 451298663 / 18014398509481984)) * (x * x)) + (24821426517 / 9007199254740992)) (277143 / 100000000000) (3129399 / 10000000000000000000000000000)) by (refine (add_w Hw _ _ _ _ _ _ _ _ _ _ Hm3 Hc3 _ _ _); rewrite ?u8; lra).
  assert (Hc4 : app (f8 (-1) 0xa01a01a01a000 (-13)) (- 893571354637 / 4503599627370496) (893571354637 / 4503599627370496) 0) by (refine (eq_rect _ (fun z => app (f8 (-1) 0xa01a01a01a000 (-13)) z _ _) (const_app Hw (f8 (-1) 0xa01a01a01a000 (-13)) (-893571354637) 4503599627370496 (893571354637 / 4503599627370496) eq_refl eq_refl _ _) _ _); [vm_compute; reflexivity|rewrite Rabs_left; lra|lra]).
  assert (Hm4 : app (fmul (fadd (fmul (fadd (fmul (fadd (fmul (f8 (-1) 0xacf0000000000 (-41)) (fmul X X)) (f8 1 0x6124400000000 (-33))) (fmul X X)) (f8 (-1) 0xae64567000000 (-26))) (fmul X X)) (f8 1 0x71de3a5540000 (-19))) (fmul X X)) ((((((((- 6863 / 9007199254740992) * (x * x)) + (361617 / 2251799813685248)) * (x * x)) + (- 451298663 / 18014398509481984)) * (x * x)) + (24821426517 / 9007199254740992)) * (x * x)) (34593 / 20000000000) (1448413 / 2500000000000000000000000000)) by (refine (mul_w Hw _ _ _ _ _ _ _ _ _ _ Hy3 Ht _ _ _ _ _ _ _); rewrite ?u8; lra).
  assert (Hy4 : app (fadd (fmul (fadd (fmul (fadd (fmul (fadd (fmul (f8 (-1) 0xacf0000000000 (-41)) (fmul X X)) (f8 1 0x6124400000000 (-33))) (fmul X X)) (f8 (-1) 0xae64567000000 (-26))) (fmul X X)) (f8 1 0x71de3a5540000 (-19))) (fmul X X)) (f8 (-1) 0xa01a01a01a000 (-13))) (((((((((- 6863 / 9007199254740992) * (x * x)) + (361617 / 2251799813685248)) * (x * x)) + (- 451298663 / 18014398509481984)) * (x * x)) + (24821426517 / 9007199254740992)) * (x * x)) + (- 893571354637 / 4503599627370496)) (125089 / 625000000) (569991 / 25000000000000000000000000)) by (refine (add_w Hw _ _ _ _ _ _ _ _ _ _ Hm4 Hc4 _ _ _); rewrite ?u8; lra).
  assert (Hc5 : app (f8 1 0x1111111111110 (-7)) (300239975158033 / 36028797018963968) (300239975158033 / 36028797018963968) 0) by (refine (eq_rect _ (fun z => app (f8 1 0x1111111111110 (-7)) z _ _) (const_app Hw (f8 1 0x1111111111110 (-7)) (300239975158033) 36028797018963968 (300239975158033 / 36028797018963968) eq_refl eq_refl _ _) _ _); [vm_compute; reflexivity|rewrite Rabs_right; lra|lra]).
  assert (Hm5 : app (fmul (fadd (fmul (fadd (fmul (fadd (fmul (fadd (fmul (f8 (-1) 0xacf0000000000 (-41)) (fmul X X)) (f8 1 0x6124400000000 (-33))) (fmul X X)) (f8 (-1) 0xae64567000000 (-26))) (fmul X X)) (f8 1 0x71de3a5540000 (-19))) (fmul X X)) (f8 (-1) 0xa01a01a01a000 (-13))) (fmul X X)) ((((((((((- 6863 / 9007199254740992) * (x * x)) + (361617 / 2251799813685248)) * (x * x)) + (- 451298663 / 18014398509481984)) * (x * x)) + (24821426517 / 9007199254740992)) * (x * x)) + (- 893571354637 / 4503599627370496)) * (x * x)) (1249089 / 10000000000) (209823 / 5000000000000000000000000)) by (refine (mul_w Hw _ _ _ _ _ _ _ _ _ _ Hy4 Ht _ _ _ _ _ _ _); rewrite ?u8; lra).
  assert (Hy5 : app (fadd (fmul (fadd (fmul (fadd (fmul (fadd (fmul (fadd (fmul (f8 (-1) 0xacf0000000000 (-41)) (fmul X X)) (f8 1 0x6124400000000 (-33))) (fmul X X)) (f8 (-1) 0xae64567000000 (-26))) (fmul X X)) (f8 1 0x71de3a5540000 (-19))) (fmul X X)) (f8 (-1) 0xa01a01a01a000 (-13))) (fmul X X)) (f8 1 0x1111111111110 (-7))) (((((((((((- 6863 / 9007199254740992) * (x * x)) + (361617 / 2251799813685248)) * (x * x)) + (- 451298663 / 18014398509481984)) * (x * x)) + (24821426517 / 9007199254740992)) * (x * x)) + (- 893571354637 / 4503599627370496)) * (x * x)) + (300239975158033 / 36028797018963968)) (8458243 / 1000000000) (9810183 / 10000000000000000000000000)) by (refine (add_w Hw _ _ _ _ _ _ _ _ _ _ Hm5 Hc5 _ _ _); rewrite ?u8; lra).
  assert (Hc6 : app (f8 (-1) 0x5555555555555 (-3)) (- 6004799503160661 / 36028797018963968) (6004799503160661 / 36028797018963968) 0) by (refine (eq_rect _ (fun z => app (f8 (-1) 0x5555555555555 (-3)) z _ _) (const_app Hw (f8 (-1) 0x5555555555555 (-3)) (-6004799503160661) 36028797018963968 (6004799503160661 / 36028797018963968) eq_refl eq_refl _ _) _ _); [vm_compute; reflexivity|rewrite Rabs_left; lra|lra]).
  assert (Hm6 : app (fmul (fadd (fmul (fadd (fmul (fadd (fmul (fadd (fmul (fadd (fmul (f8 (-1) 0xacf0000000000 (-41)) (fmul X X)) (f8 1 0x6124400000000 (-33))) (fmul X X)) (f8 (-1) 0xae64567000000 (-26))) (fmul X X)) (f8 1 0x71de3a5540000 (-19))) (fmul X X)) (f8 (-1) 0xa01a01a01a000 (-13))) (fmul X X)) (f8 1 0x1111111111110 (-7))) (fmul X X)) ((((((((((((- 6863 / 9007199254740992) * (x * x)) + (361617 / 2251799813685248)) * (x * x)) + (- 451298663 / 18014398509481984)) * (x * x)) + (24821426517 / 9007199254740992)) * (x * x)) + (- 893571354637 / 4503599627370496)) * (x * x)) + (300239975158033 / 36028797018963968)) * (x * x)) (527879 / 100000000) (1784381 / 1000000000000000000000000)) by (refine (mul_w Hw _ _ _ _ _ _ _ _ _ _ Hy5 Ht _ _ _ _ _ _ _); rewrite ?u8; lra).
  assert (Hy6 : app (fadd (fmul (fadd (fmul (fadd (fmul (fadd (fmul (fadd (fmul (fadd (fmul (f8 (-1) 0xacf0000000000 (-41)) (fmul X X)) (f8 1 0x6124400000000 (-33))) (fmul X X)) (f8 (-1) 0xae64567000000 (-26))) (fmul X X)) (f8 1 0x71de3a5540000 (-19))) (fmul X X)) (f8 (-1) 0xa01a01a01a000 (-13))) (fmul X X)) (f8 1 0x1111111111110 (-7))) (fmul X X)) (f8 (-1) 0x5555555555555 (-3))) (((((((((((((- 6863 / 9007199254740992) * (x * x)) + (361617 / 2251799813685248)) * (x * x)) + (- 451298663 / 18014398509481984)) * (x * x)) + (24821426517 / 9007199254740992)) * (x * x)) + (- 893571354637 / 4503599627370496)) * (x * x)) + (300239975158033 / 36028797018963968)) * (x * x)) + (- 6004799503160661 / 36028797018963968)) (343891 / 2000000) (2087417 / 100000000000000000000000)) by (refine (add_w Hw _ _ _ _ _ _ _ _ _ _ Hm6 Hc6 _ _ _); rewrite ?u8; lra).
  assert (Ha : app (fmul (fmul X X) X) ((x * x) * x) (493039 / 1000000) (1094767 / 10000000000000000000000)) by (refine (mul_w Hw _ _ _ _ _ _ _ _ _ _ Ht Hx _ _ _ _ _ _ _); rewrite ?u8; lra).
  assert (Hb : app (fmul (fadd (fmul (fadd (fmul (fadd (fmul (fadd (fmul (fadd (fmul (fadd (fmul (f8 (-1) 0xacf0000000000 (-41)) (fmul X X)) (f8 1 0x6124400000000 (-33))) (fmul X X)) (f8 (-1) 0xae64567000000 (-26))) (fmul X X)) (f8 1 0x71de3a5540000 (-19))) (fmul X X)) (f8 (-1) 0xa01a01a01a000 (-13))) (fmul X X)) (f8 1 0x1111111111110 (-7))) (fmul X X)) (f8 (-1) 0x5555555555555 (-3))) (fmul (fmul X X) X)) ((((((((((((((- 6863 / 9007199254740992) * (x * x)) + (361617 / 2251799813685248)) * (x * x)) + (- 451298663 / 18014398509481984)) * (x * x)) + (24821426517 / 9007199254740992)) * (x * x)) + (- 893571354637 / 4503599627370496)) * (x * x)) + (300239975158033 / 36028797018963968)) * (x * x)) + (- 6004799503160661 / 36028797018963968)) * ((x * x) * x)) (529849 / 6250000) (1926391 / 50000000000000000000000)) by (refine (mul_w Hw _ _ _ _ _ _ _ _ _ _ Hy6 Ha _ _ _ _ _ _ _); rewrite ?u8; lra).
  assert (Hr : app (fadd (fmul (fadd (fmul (fadd (fmul (fadd (fmul (fadd (fmul (fadd (fmul (fadd (fmul (f8 (-1) 0xacf0000000000 (-41)) (fmul X X)) (f8 1 0x6124400000000 (-33))) (fmul X X)) (f8 (-1) 0xae64567000000 (-26))) (fmul X X)) (f8 1 0x71de3a5540000 (-19))) (fmul X X)) (f8 (-1) 0xa01a01a01a000 (-13))) (fmul X X)) (f8 1 0x1111111111110 (-7))) (fmul X X)) (f8 (-1) 0x5555555555555 (-3))) (fmul (fmul X X) X)) X) (((((((((((((((- 6863 / 9007199254740992) * (x * x)) + (361617 / 2251799813685248)) * (x * x)) + (- 451298663 / 18014398509481984)) * (x * x)) + (24821426517 / 9007199254740992)) * (x * x)) + (- 893571354637 / 4503599627370496)) * (x * x)) + (300239975158033 / 36028797018963968)) * (x * x)) + (- 6004799503160661 / 36028797018963968)) * ((x * x) * x)) + x) (7900001 / 10000000) (252471 / 2000000000000000000000)) by (refine (add_b Hw _ _ _ _ _ _ _ _ _ _ Hb Hx _ _ _); [exact PB|rewrite ?u8; lra|rewrite ?u8; lra]).
  destruct Hr as (FR & _ & ER). change (sin_series8 X) with (fadd (fmul (fadd (fmul (fadd (fmul (fadd (fmul (fadd (fmul (fadd (fmul (fadd (fmul (f8 (-1) 0xacf0000000000 (-41)) (fmul X X)) (f8 1 0x6124400000000 (-33))) (fmul X X)) (f8 (-1) 0xae64567000000 (-26))) (fmul X X)) (f8 1 0x71de3a5540000 (-19))) (fmul X X)) (f8 (-1) 0xa01a01a01a000 (-13))) (fmul X X)) (f8 1 0x1111111111110 (-7))) (fmul X X)) (f8 (-1) 0x5555555555555 (-3))) (fmul (fmul X X) X)) X). split; [exact FR|].
  match goal with |- Rabs (?a - ?c) <= _ => replace (a - c) with ((a - (((((((((((((((- 6863 / 9007199254740992) * (x * x)) + (361617 / 2251799813685248)) * (x * x)) + (- 451298663 / 18014398509481984)) * (x * x)) + (24821426517 / 9007199254740992)) * (x * x)) + (- 893571354637 / 4503599627370496)) * (x * x)) + (300239975158033 / 36028797018963968)) * (x * x)) + (- 6004799503160661 / 36028797018963968)) * ((x * x) * x)) + x)) + ((((((((((((((((- 6863 / 9007199254740992) * (x * x)) + (361617 / 2251799813685248)) * (x * x)) + (- 451298663 / 18014398509481984)) * (x * x)) + (24821426517 / 9007199254740992)) * (x * x)) + (- 893571354637 / 4503599627370496)) * (x * x)) + (300239975158033 / 36028797018963968)) * (x * x)) + (- 6004799503160661 / 36028797018963968)) * ((x * x) * x)) + x) - c)) by ring end. eapply Rle_trans; [apply Rabs_triang|]. lra.
Qed.
Lemma cos_poly8 x : - (79 / 100) <= x <= 79 / 100 -> let t := x * x in Rabs ((((((((((((((((((107 / 2251799813685248) * t) + (- 25829 / 2251799813685248)) * t) + (4701027 / 2251799813685248)) * t) + (- 1241071325 / 4503599627370496)) * t) + (223392838659 / 9007199254740992)) * t) + (- 6254999482459 / 4503599627370496)) * t) + (1501199875790165 / 36028797018963968)) * t) - (1 / 2)) * t) + 1) - cos x) <= (71 / 1000000000000000000).
Proof.
  intros H t. destruct (cos_taylor4 x H) as (L & _), (cos_taylor4 x H) as (_ & U). fold t in L, U.
  assert (T : 0 <= t <= (6241 / 10000)) by (unfold t; nra).
  pose (m0 := 1). pose (m1 := m0 * t). pose (m2 := m1 * t). pose (m3 := m2 * t). pose (m4 := m3 * t). pose (m5 := m4 * t). pose (m6 := m5 * t). pose (m7 := m6 * t). pose (m8 := m7 * t). pose (m9 := m8 * t). pose (m10 := m9 * t).
  assert (EL : (((((((((((((((((107 / 2251799813685248) * t) + (- 25829 / 2251799813685248)) * t) + (4701027 / 2251799813685248)) * t) + (- 1241071325 / 4503599627370496)) * t) + (223392838659 / 9007199254740992)) * t) + (- 6254999482459 / 4503599627370496)) * t) + (1501199875790165 / 36028797018963968)) * t) - (1 / 2)) * t) + 1) - (1 - t ^ 1 / 2 + t ^ 2 / 24 - t ^ 3 / 720 + t ^ 4 / 40320 - t ^ 5 / 3628800 + t ^ 6 / 479001600 - t ^ 7 / 87178291200 + t ^ 8 / 20922789888000 - t ^ 9 / 6402373705728000) = (- 1 / 108086391056891904) * m2 + (1 / 202661983231672320) * m3 + (- 79 / 2837267765243412480) * m4 + (12541 / 63838524717976780800) * m5 + (- 350627 / 1053335657846616883200) * m6 + (35024551 / 95853544864042136371200) * m7 + (- 398599111 / 1437803172960632045568000) * m8 + (1 / 6402373705728000) * m9) by (unfold m10, m9, m8, m7, m6, m5, m4, m3, m2, m1, m0; field).
  assert (EU : (((((((((((((((((107 / 2251799813685248) * t) + (- 25829 / 2251799813685248)) * t) + (4701027 / 2251799813685248)) * t) + (- 1241071325 / 4503599627370496)) * t) + (223392838659 / 9007199254740992)) * t) + (- 6254999482459 / 4503599627370496)) * t) + (1501199875790165 / 36028797018963968)) * t) - (1 / 2)) * t) + 1) - (1 - t ^ 1 / 2 + t ^ 2 / 24 - t ^ 3 / 720 + t ^ 4 / 40320 - t ^ 5 / 3628800 + t ^ 6 / 479001600 - t ^ 7 / 87178291200 + t ^ 8 / 20922789888000 - t ^ 9 / 6402373705728000 + t ^ 10 / 2432902008176640000) = (- 1 / 108086391056891904) * m2 + (1 / 202661983231672320) * m3 + (- 79 / 2837267765243412480) * m4 + (12541 / 63838524717976780800) * m5 + (- 350627 / 1053335657846616883200) * m6 + (35024551 / 95853544864042136371200) * m7 + (- 398599111 / 1437803172960632045568000) * m8 + (1 / 6402373705728000) * m9 + (- 1 / 2432902008176640000) * m10) by (unfold m10, m9, m8, m7, m6, m5, m4, m3, m2, m1, m0; field).
  set (P := (((((((((((((((((107 / 2251799813685248) * t) + (- 25829 / 2251799813685248)) * t) + (4701027 / 2251799813685248)) * t) + (- 1241071325 / 4503599627370496)) * t) + (223392838659 / 9007199254740992)) * t) + (- 6254999482459 / 4503599627370496)) * t) + (1501199875790165 / 36028797018963968)) * t) - (1 / 2)) * t) + 1)) in *. set (sl := 1 - t ^ 1 / 2 + t ^ 2 / 24 - t ^ 3 / 720 + t ^ 4 / 40320 - t ^ 5 / 3628800 + t ^ 6 / 479001600 - t ^ 7 / 87178291200 + t ^ 8 / 20922789888000 - t ^ 9 / 6402373705728000) in *. set (su := 1 - t ^ 1 / 2 + t ^ 2 / 24 - t ^ 3 / 720 + t ^ 4 / 40320 - t ^ 5 / 3628800 + t ^ 6 / 479001600 - t ^ 7 / 87178291200 + t ^ 8 / 20922789888000 - t ^ 9 / 6402373705728000 + t ^ 10 / 2432902008176640000) in *. set (s := cos x) in *.
  assert (M0 : 0 <= m0 <= 1) by (unfold m0; lra). clearbody m0 P sl su s t. clear H.
  assert (M1 : 0 <= m1 <= (6241 / 10000)) by (pose proof (mono m0 t _ _ M0 T); unfold m1; lra). assert (M2 : 0 <= m2 <= (38950081 / 100000000)) by (pose proof (mono m1 t _ _ M1 T); unfold m2; lra). assert (M3 : 0 <= m3 <= (243087455521 / 1000000000000)) by (pose proof (mono m2 t _ _ M2 T); unfold m3; lra). assert (M4 : 0 <= m4 <= (151710880991 / 1000000000000)) by (pose proof (mono m3 t _ _ M3 T); unfold m4; lra). assert (M5 : 0 <= m5 <= (189365521653 / 2000000000000)) by (pose proof (mono m4 t _ _ M4 T); unfold m5; lra). assert (M6 : 0 <= m6 <= (590915110319 / 10000000000000)) by (pose proof (mono m5 t _ _ M5 T); unfold m6; lra). assert (M7 : 0 <= m7 <= (368790120351 / 10000000000000)) by (pose proof (mono m6 t _ _ M6 T); unfold m7; lra). assert (M8 : 0 <= m8 <= (899069977 / 39062500000)) by (pose proof (mono m7 t _ _ M7 T); unfold m8; lra). assert (M9 : 0 <= m9 <= (71822025299 / 5000000000000)) by (pose proof (mono m8 t _ _ M8 T); unfold m9; lra). assert (M10 : 0 <= m10 <= (896482519783 / 100000000000000)) by (pose proof (mono m9 t _ _ M9 T); unfold m10; lra). clearbody m1 m2 m3 m4 m5 m6 m7 m8 m9 m10. apply Rabs_le. lra.
Qed.
Lemma cos_poly8' x : Rabs x <= 79 / 100 -> Rabs ((((((((((((((((((107 / 2251799813685248) * (x * x)) + (- 25829 / 2251799813685248)) * (x * x)) + (4701027 / 2251799813685248)) * (x * x)) + (- 1241071325 / 4503599627370496)) * (x * x)) + (223392838659 / 9007199254740992)) * (x * x)) + (- 6254999482459 / 4503599627370496)) * (x * x)) + (1501199875790165 / 36028797018963968)) * (x * x)) - (1 / 2)) * (x * x)) + 1) - cos x) <= (71 / 1000000000000000000).
Proof. intros H. apply (cos_poly8 x). apply Rabs_def2' || (unfold Rabs in H; destruct (Rcase_abs x); lra). Qed.
Lemma cos_app8 (X : word 8) : is_Finite X = true -> Rabs (real X) <= 79 / 100 ->
  is_Finite (cos_series8 X) = true /\ Rabs (real (cos_series8 X) - cos (real X)) <= (2971093 / 10000000000000000000000).
Proof.
  intros F HX. set (Hw := fp8). pose proof (cos_poly8' (real X) HX) as PD. pose proof (app_exact X _ F HX) as Hx. set (x := real X) in *.
  assert (SB : Rabs (cos x) <= 1) by (destruct (COS_bound x); apply Rabs_le; lra).
  assert (PB : Rabs (((((((((((((((((107 / 2251799813685248) * (x * x)) + (- 25829 / 2251799813685248)) * (x * x)) + (4701027 / 2251799813685248)) * (x * x)) + (- 1241071325 / 4503599627370496)) * (x * x)) + (223392838659 / 9007199254740992)) * (x * x)) + (- 6254999482459 / 4503599627370496)) * (x * x)) + (1501199875790165 / 36028797018963968)) * (x * x)) - (1 / 2)) * (x * x)) + 1) <= (1000001 / 1000000)) by (replace (((((((((((((((((107 / 2251799813685248) * (x * x)) + (- 25829 / 2251799813685248)) * (x * x)) + (4701027 / 2251799813685248)) * (x * x)) + (- 1241071325 / 4503599627370496)) * (x * x)) + (223392838659 / 9007199254740992)) * (x * x)) + (- 6254999482459 / 4503599627370496)) * (x * x)) + (1501199875790165 / 36028797018963968)) * (x * x)) - (1 / 2)) * (x * x)) + 1) with (((((((((((((((((((107 / 2251799813685248) * (x * x)) + (- 25829 / 2251799813685248)) * (x * x)) + (4701027 / 2251799813685248)) * (x * x)) + (- 1241071325 / 4503599627370496)) * (x * x)) + (223392838659 / 9007199254740992)) * (x * x)) + (- 6254999482459 / 4503599627370496)) * (x * x)) + (1501199875790165 / 36028797018963968)) * (x * x)) - (1 / 2)) * (x * x)) + 1) - cos x) + cos x) by ring; eapply Rle_trans; [apply Rabs_triang|lra]).
  clear SB.
  assert (Ht : app (fmul X X) (x * x) (6241 / 10000) (3464451 / 50000000000000000000000)) by (refine (mul_w Hw _ _ _ _ _ _ _ _ _ _ Hx Hx _ _ _ _ _ _ _); rewrite ?u8; lra).
  assert (Hc0 : app (f8 1 0xac00000000000 (-45)) (107 / 2251799813685248) (107 / 2251799813685248) 0) by (refine (eq_rect _ (fun z => app (f8 1 0xac00000000000 (-45)) z _ _) (const_app Hw (f8 1 0xac00000000000 (-45)) (107) 2251799813685248 (107 / 2251799813685248) eq_refl eq_refl _ _) _ _); [vm_compute; reflexivity|rewrite Rabs_right; lra|lra]).
  assert (Hc1 : app (f8 (-1) 0x9394000000000 (-37)) (- 25829 / 2251799813685248) (25829 / 2251799813685248) 0) by (refine (eq_rect _ (fun z => app (f8 (-1) 0x9394000000000 (-37)) z _ _) (const_app Hw (f8 (-1) 0x9394000000000 (-37)) (-25829) 2251799813685248 (25829 / 2251799813685248) eq_refl eq_refl _ _) _ _); [vm_compute; reflexivity|rewrite Rabs_left; lra|lra]).
  assert (Hm1 : app (fmul (f8 1 0xac00000000000 (-45)) (fmul X X)) ((107 / 2251799813685248) * (x * x)) (2965571 / 100000000000000000000) (5899 / 800000000000000000000000000000000)) by (refine (mul_w Hw _ _ _ _ _ _ _ _ _ _ Hc0 Ht _ _ _ _ _ _ _); rewrite ?u8; lra).
  assert (Hy1 : app (fadd (fmul (f8 1 0xac00000000000 (-45)) (fmul X X)) (f8 (-1) 0x9394000000000 (-37))) (((107 / 2251799813685248) * (x * x)) + (- 25829 / 2251799813685248)) (287501 / 25000000000000000) (256827 / 200000000000000000000000000000000)) by (refine (add_w Hw _ _ _ _ _ _ _ _ _ _ Hm1 Hc1 _ _ _); rewrite ?u8; lra).
  assert (Hc2 : app (f8 1 0x1eed8c0000000 (-29)) (4701027 / 2251799813685248) (4701027 / 2251799813685248) 0) by (refine (eq_rect _ (fun z => app (f8 1 0x1eed8c0000000 (-29)) z _ _) (const_app Hw (f8 1 0x1eed8c0000000 (-29)) (4701027) 2251799813685248 (4701027 / 2251799813685248) eq_refl eq_refl _ _) _ _); [vm_compute; reflexivity|rewrite Rabs_right; lra|lra]).
  assert (Hm2 : app (fmul (fadd (fmul (f8 1 0xac00000000000 (-45)) (fmul X X)) (f8 (-1) 0x9394000000000 (-37))) (fmul X X)) ((((107 / 2251799813685248) * (x * x)) + (- 25829 / 2251799813685248)) * (x * x)) (287087 / 40000000000000000) (2395871 / 1000000000000000000000000000000000)) by (refine (mul_w Hw _ _ _ _ _ _ _ _ _ _ Hy1 Ht _ _ _ _ _ _ _); rewrite ?u8; lra).
  assert (Hy2 : app (fadd (fmul (fadd (fmul (f8 1 0xac00000000000 (-45)) (fmul X X)) (f8 (-1) 0x9394000000000 (-37))) (fmul X X)) (f8 1 0x1eed8c0000000 (-29))) (((((107 / 2251799813685248) * (x * x)) + (- 25829 / 2251799813685248)) * (x * x)) + (4701027 / 2251799813685248)) (2094853 / 1000000000000000) (2349713 / 10000000000000000000000000000000)) by (refine (add_w Hw _ _ _ _ _ _ _ _ _ _ Hm2 Hc2 _ _ _); rewrite ?u8; lra).
  assert (Hc3 : app (f8 (-1) 0x27e4fb7400000 (-22)) (- 1241071325 / 4503599627370496) (1241071325 / 4503599627370496) 0) by (refine (eq_rect _ (fun z => app (f8 (-1) 0x27e4fb7400000 (-22)) z _ _) (const_app Hw (f8 (-1) 0x27e4fb7400000 (-22)) (-1241071325) 4503599627370496 (1241071325 / 4503599627370496) eq_refl eq_refl _ _) _ _); [vm_compute; reflexivity|rewrite Rabs_left; lra|lra]).
  assert (Hm3 : app (fmul (fadd (fmul (fadd (fmul (f8 1 0xac00000000000 (-45)) (fmul X X)) (f8 (-1) 0x9394000000000 (-37))) (fmul X X)) (f8 1 0x1eed8c0000000 (-29))) (fmul X X)) ((((((107 / 2251799813685248) * (x * x)) + (- 25829 / 2251799813685248)) * (x * x)) + (4701027 / 2251799813685248)) * (x * x)) (653699 / 500000000000000) (436947 / 1000000000000000000000000000000)) by (refine (mul_w Hw _ _ _ _ _ _ _ _ _ _ Hy2 Ht _ _ _ _ _ _ _); rewrite ?u8; lra).
  assert (Hy3 : app (fadd (fmul (fadd (fmul (fadd (fmul (f8 1 0xac00000000000 (-45)) (fmul X X)) (f8 (-1) 0x9394000000000 (-37))) (fmul X X)) (f8 1 0x1eed8c0000000 (-29))) (fmul X X)) (f8 (-1) 0x27e4fb7400000 (-22))) (((((((107 / 2251799813685248) * (x * x)) + (- 25829 / 2251799813685248)) * (x * x)) + (4701027 / 2251799813685248)) * (x * x)) + (- 1241071325 / 4503599627370496)) (1384403 / 5000000000000) (3117687 / 100000000000000000000000000000)) by (refine (add_w Hw _ _ _ _ _ _ _ _ _ _ Hm3 Hc3 _ _ _); rewrite ?u8; lra).
  assert (Hc4 : app (f8 1 0xa01a01a018000 (-16)) (223392838659 / 9007199254740992) (223392838659 / 9007199254740992) 0) by (refine (eq_rect _ (fun z => app (f8 1 0xa01a01a018000 (-16)) z _ _) (const_app Hw (f8 1 0xa01a01a018000 (-16)) (223392838659) 9007199254740992 (223392838659 / 9007199254740992) eq_refl eq_refl _ _) _ _); [vm_compute; reflexivity|rewrite Rabs_right; lra|lra]).
  assert (Hm4 : app (fmul (fadd (fmul (fadd (fmul (fadd (fmul (f8 1 0xac00000000000 (-45)) (fmul X X)) (f8 (-1) 0x9394000000000 (-37))) (fmul X X)) (f8 1 0x1eed8c0000000 (-29))) (fmul X X)) (f8 (-1) 0x27e4fb7400000 (-22))) (fmul X X)) ((((((((107 / 2251799813685248) * (x * x)) + (- 25829 / 2251799813685248)) * (x * x)) + (4701027 / 2251799813685248)) * (x * x)) + (- 1241071325 / 4503599627370496)) * (x * x)) (432003 / 2500000000000) (2891353 / 50000000000000000000000000000)) by (refine (mul_w Hw _ _ _ _ _ _ _ _ _ _ Hy3 Ht _ _ _ _ _ _ _); rewrite ?u8; lra).
  assert (Hy4 : app (fadd (fmul (fadd (fmul (fadd (fmul (fadd (fmul (f8 1 0xac00000000000 (-45)) (fmul X X)) (f8 (-1) 0x9394000000000 (-37))) (fmul X X)) (f8 1 0x1eed8c0000000 (-29))) (fmul X X)) (f8 (-1) 0x27e4fb7400000 (-22))) (fmul X X)) (f8 1 0xa01a01a018000 (-16))) (((((((((107 / 2251799813685248) * (x * x)) + (- 25829 / 2251799813685248)) * (x * x)) + (4701027 / 2251799813685248)) * (x * x)) + (- 1241071325 / 4503599627370496)) * (x * x)) + (223392838659 / 9007199254740992)) (2497439 / 100000000000) (1415271 / 500000000000000000000000000)) by (refine (add_w Hw _ _ _ _ _ _ _ _ _ _ Hm4 Hc4 _ _ _); rewrite ?u8; lra).
  assert (Hc5 : app (f8 (-1) 0x6c16c16c16c00 (-10)) (- 6254999482459 / 4503599627370496) (6254999482459 / 4503599627370496) 0) by (refine (eq_rect _ (fun z => app (f8 (-1) 0x6c16c16c16c00 (-10)) z _ _) (const_app Hw (f8 (-1) 0x6c16c16c16c00 (-10)) (-6254999482459) 4503599627370496 (6254999482459 / 4503599627370496) eq_refl eq_refl _ _) _ _); [vm_compute; reflexivity|rewrite Rabs_left; lra|lra]).
  assert (Hm5 : app (fmul (fadd (fmul (fadd (fmul (fadd (fmul (fadd (fmul (f8 1 0xac00000000000 (-45)) (fmul X X)) (f8 (-1) 0x9394000000000 (-37))) (fmul X X)) (f8 1 0x1eed8c0000000 (-29))) (fmul X X)) (f8 (-1) 0x27e4fb7400000 (-22))) (fmul X X)) (f8 1 0xa01a01a018000 (-16))) (fmul X X)) ((((((((((107 / 2251799813685248) * (x * x)) + (- 25829 / 2251799813685248)) * (x * x)) + (4701027 / 2251799813685248)) * (x * x)) + (- 1241071325 / 4503599627370496)) * (x * x)) + (223392838659 / 9007199254740992)) * (x * x)) (389663 / 25000000000) (1306861 / 250000000000000000000000000)) by (refine (mul_w Hw _ _ _ _ _ _ _ _ _ _ Hy4 Ht _ _ _ _ _ _ _); rewrite ?u8; lra).
  assert (Hy5 : app (fadd (fmul (fadd (fmul (fadd (fmul (fadd (fmul (fadd (fmul (f8 1 0xac00000000000 (-45)) (fmul X X)) (f8 (-1) 0x9394000000000 (-37))) (fmul X X)) (f8 1 0x1eed8c0000000 (-29))) (fmul X X)) (f8 (-1) 0x27e4fb7400000 (-22))) (fmul X X)) (f8 1 0xa01a01a018000 (-16))) (fmul X X)) (f8 (-1) 0x6c16c16c16c00 (-10))) (((((((((((107 / 2251799813685248) * (x * x)) + (- 25829 / 2251799813685248)) * (x * x)) + (4701027 / 2251799813685248)) * (x * x)) + (- 1241071325 / 4503599627370496)) * (x * x)) + (223392838659 / 9007199254740992)) * (x * x)) + (- 6254999482459 / 4503599627370496)) (351119 / 250000000) (1611557 / 10000000000000000000000000)) by (refine (add_w Hw _ _ _ _ _ _ _ _ _ _ Hm5 Hc5 _ _ _); rewrite ?u8; lra).
  assert (Hc6 : app (f8 1 0x5555555555554 (-5)) (1501199875790165 / 36028797018963968) (1501199875790165 / 36028797018963968) 0) by (refine (eq_rect _ (fun z => app (f8 1 0x5555555555554 (-5)) z _ _) (const_app Hw (f8 1 0x5555555555554 (-5)) (1501199875790165) 36028797018963968 (1501199875790165 / 36028797018963968) eq_refl eq_refl _ _) _ _); [vm_compute; reflexivity|rewrite Rabs_right; lra|lra]).
  assert (Hm6 : app (fmul (fadd (fmul (fadd (fmul (fadd (fmul (fadd (fmul (fadd (fmul (f8 1 0xac00000000000 (-45)) (fmul X X)) (f8 (-1) 0x9394000000000 (-37))) (fmul X X)) (f8 1 0x1eed8c0000000 (-29))) (fmul X X)) (f8 (-1) 0x27e4fb7400000 (-22))) (fmul X X)) (f8 1 0xa01a01a018000 (-16))) (fmul X X)) (f8 (-1) 0x6c16c16c16c00 (-10))) (fmul X X)) ((((((((((((107 / 2251799813685248) * (x * x)) + (- 25829 / 2251799813685248)) * (x * x)) + (4701027 / 2251799813685248)) * (x * x)) + (- 1241071325 / 4503599627370496)) * (x * x)) + (223392838659 / 9007199254740992)) * (x * x)) + (- 6254999482459 / 4503599627370496)) * (x * x)) (1753067 / 2000000000) (2952069 / 10000000000000000000000000)) by (refine (mul_w Hw _ _ _ _ _ _ _ _ _ _ Hy5 Ht _ _ _ _ _ _ _); rewrite ?u8; lra).
  assert (Hy6 : app (fadd (fmul (fadd (fmul (fadd (fmul (fadd (fmul (fadd (fmul (fadd (fmul (f8 1 0xac00000000000 (-45)) (fmul X X)) (f8 (-1) 0x9394000000000 (-37))) (fmul X X)) (f8 1 0x1eed8c0000000 (-29))) (fmul X X)) (f8 (-1) 0x27e4fb7400000 (-22))) (fmul X X)) (f8 1 0xa01a01a018000 (-16))) (fmul X X)) (f8 (-1) 0x6c16c16c16c00 (-10))) (fmul X X)) (f8 1 0x5555555555554 (-5))) (((((((((((((107 / 2251799813685248) * (x * x)) + (- 25829 / 2251799813685248)) * (x * x)) + (4701027 / 2251799813685248)) * (x * x)) + (- 1241071325 / 4503599627370496)) * (x * x)) + (223392838659 / 9007199254740992)) * (x * x)) + (- 6254999482459 / 4503599627370496)) * (x * x)) + (1501199875790165 / 36028797018963968)) (4254321 / 100000000) (5018453 / 1000000000000000000000000)) by (refine (add_w Hw _ _ _ _ _ _ _ _ _ _ Hm6 Hc6 _ _ _); rewrite ?u8; lra).
  assert (Hh : app (half 8) (1 / 2) (1 / 2) 0) by (refine (eq_rect _ (fun z => app (half 8) z _ _) (const_app Hw (half 8) (1) 2 (1 / 2) eq_refl eq_refl _ _) _ _); [vm_compute; reflexivity|rewrite Rabs_right; lra|lra]).
  assert (Ho : app (one 8) 1 1 0) by (refine (eq_rect _ (fun z => app (one 8) z _ _) (const_app Hw (one 8) (1) 1 1 eq_refl eq_refl _ _) _ _); [vm_compute; reflexivity|rewrite Rabs_right; lra|lra]).
  assert (Hb : app (fmul (fadd (fmul (fadd (fmul (fadd (fmul (fadd (fmul (fadd (fmul (fadd (fmul (f8 1 0xac00000000000 (-45)) (fmul X X)) (f8 (-1) 0x9394000000000 (-37))) (fmul X X)) (f8 1 0x1eed8c0000000 (-29))) (fmul X X)) (f8 (-1) 0x27e4fb7400000 (-22))) (fmul X X)) (f8 1 0xa01a01a018000 (-16))) (fmul X X)) (f8 (-1) 0x6c16c16c16c00 (-10))) (fmul X X)) (f8 1 0x5555555555554 (-5))) (fmul X X)) ((((((((((((((107 / 2251799813685248) * (x * x)) + (- 25829 / 2251799813685248)) * (x * x)) + (4701027 / 2251799813685248)) * (x * x)) + (- 1241071325 / 4503599627370496)) * (x * x)) + (223392838659 / 9007199254740992)) * (x * x)) + (- 6254999482459 / 4503599627370496)) * (x * x)) + (1501199875790165 / 36028797018963968)) * (x * x)) (1327561 / 50000000) (2256893 / 250000000000000000000000)) by (refine (mul_w Hw _ _ _ _ _ _ _ _ _ _ Hy6 Ht _ _ _ _ _ _ _); rewrite ?u8; lra).
  assert (Hd : app (fsub (fmul (fadd (fmul (fadd (fmul (fadd (fmul (fadd (fmul (fadd (fmul (fadd (fmul (f8 1 0xac00000000000 (-45)) (fmul X X)) (f8 (-1) 0x9394000000000 (-37))) (fmul X X)) (f8 1 0x1eed8c0000000 (-29))) (fmul X X)) (f8 (-1) 0x27e4fb7400000 (-22))) (fmul X X)) (f8 1 0xa01a01a018000 (-16))) (fmul X X)) (f8 (-1) 0x6c16c16c16c00 (-10))) (fmul X X)) (f8 1 0x5555555555554 (-5))) (fmul X X)) (half 8)) (((((((((((((((107 / 2251799813685248) * (x * x)) + (- 25829 / 2251799813685248)) * (x * x)) + (4701027 / 2251799813685248)) * (x * x)) + (- 1241071325 / 4503599627370496)) * (x * x)) + (223392838659 / 9007199254740992)) * (x * x)) + (- 6254999482459 / 4503599627370496)) * (x * x)) + (1501199875790165 / 36028797018963968)) * (x * x)) - (1 / 2)) (5265513 / 10000000) (6748651 / 100000000000000000000000)) by (refine (sub_w Hw _ _ _ _ _ _ _ _ _ _ Hb Hh _ _ _); rewrite ?u8; lra).
  assert (He : app (fmul (fsub (fmul (fadd (fmul (fadd (fmul (fadd (fmul (fadd (fmul (fadd (fmul (fadd (fmul (f8 1 0xac00000000000 (-45)) (fmul X X)) (f8 (-1) 0x9394000000000 (-37))) (fmul X X)) (f8 1 0x1eed8c0000000 (-29))) (fmul X X)) (f8 (-1) 0x27e4fb7400000 (-22))) (fmul X X)) (f8 1 0xa01a01a018000 (-16))) (fmul X X)) (f8 (-1) 0x6c16c16c16c00 (-10))) (fmul X X)) (f8 1 0x5555555555554 (-5))) (fmul X X)) (half 8)) (fmul X X)) ((((((((((((((((107 / 2251799813685248) * (x * x)) + (- 25829 / 2251799813685248)) * (x * x)) + (4701027 / 2251799813685248)) * (x * x)) + (- 1241071325 / 4503599627370496)) * (x * x)) + (223392838659 / 9007199254740992)) * (x * x)) + (- 6254999482459 / 4503599627370496)) * (x * x)) + (1501199875790165 / 36028797018963968)) * (x * x)) - (1 / 2)) * (x * x)) (3286207 / 10000000) (287717 / 2500000000000000000000)) by (refine (mul_w Hw _ _ _ _ _ _ _ _ _ _ Hd Ht _ _ _ _ _ _ _); rewrite ?u8; lra).
  assert (Hr : app (fadd (fmul (fsub (fmul (fadd (fmul (fadd (fmul (fadd (fmul (fadd (fmul (fadd (fmul (fadd (fmul (f8 1 0xac00000000000 (-45)) (fmul X X)) (f8 (-1) 0x9394000000000 (-37))) (fmul X X)) (f8 1 0x1eed8c0000000 (-29))) (fmul X X)) (f8 (-1) 0x27e4fb7400000 (-22))) (fmul X X)) (f8 1 0xa01a01a018000 (-16))) (fmul X X)) (f8 (-1) 0x6c16c16c16c00 (-10))) (fmul X X)) (f8 1 0x5555555555554 (-5))) (fmul X X)) (half 8)) (fmul X X)) (one 8)) (((((((((((((((((107 / 2251799813685248) * (x * x)) + (- 25829 / 2251799813685248)) * (x * x)) + (4701027 / 2251799813685248)) * (x * x)) + (- 1241071325 / 4503599627370496)) * (x * x)) + (223392838659 / 9007199254740992)) * (x * x)) + (- 6254999482459 / 4503599627370496)) * (x * x)) + (1501199875790165 / 36028797018963968)) * (x * x)) - (1 / 2)) * (x * x)) + 1) (1000001 / 1000000) (2261093 / 10000000000000000000000)) by (refine (add_b Hw _ _ _ _ _ _ _ _ _ _ He Ho _ _ _); [exact PB|rewrite ?u8; lra|rewrite ?u8; lra]).
  destruct Hr as (FR & _ & ER). change (cos_series8 X) with (fadd (fmul (fsub (fmul (fadd (fmul (fadd (fmul (fadd (fmul (fadd (fmul (fadd (fmul (fadd (fmul (f8 1 0xac00000000000 (-45)) (fmul X X)) (f8 (-1) 0x9394000000000 (-37))) (fmul X X)) (f8 1 0x1eed8c0000000 (-29))) (fmul X X)) (f8 (-1) 0x27e4fb7400000 (-22))) (fmul X X)) (f8 1 0xa01a01a018000 (-16))) (fmul X X)) (f8 (-1) 0x6c16c16c16c00 (-10))) (fmul X X)) (f8 1 0x5555555555554 (-5))) (fmul X X)) (half 8)) (fmul X X)) (one 8)). split; [exact FR|].
  match goal with |- Rabs (?a - ?c) <= _ => replace (a - c) with ((a - (((((((((((((((((107 / 2251799813685248) * (x * x)) + (- 25829 / 2251799813685248)) * (x * x)) + (4701027 / 2251799813685248)) * (x * x)) + (- 1241071325 / 4503599627370496)) * (x * x)) + (223392838659 / 9007199254740992)) * (x * x)) + (- 6254999482459 / 4503599627370496)) * (x * x)) + (1501199875790165 / 36028797018963968)) * (x * x)) - (1 / 2)) * (x * x)) + 1)) + ((((((((((((((((((107 / 2251799813685248) * (x * x)) + (- 25829 / 2251799813685248)) * (x * x)) + (4701027 / 2251799813685248)) * (x * x)) + (- 1241071325 / 4503599627370496)) * (x * x)) + (223392838659 / 9007199254740992)) * (x * x)) + (- 6254999482459 / 4503599627370496)) * (x * x)) + (1501199875790165 / 36028797018963968)) * (x * x)) - (1 / 2)) * (x * x)) + 1) - c)) by ring end. eapply Rle_trans; [apply Rabs_triang|]. lra.
Qed.
