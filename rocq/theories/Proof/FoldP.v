(** Folding of the argument of sin and cos to [-pi/4, pi/4]. *)
From Coq Require Import ZArith Reals List Bool Lia Lra Psatz.
From Verif.Spec Require Import FloatSpec RoundSpec TransSpec AccuracySpec.
From Verif.Model Require Import Word Fp FpArith Transcend.
From Verif.Proof Require Import WordP FpP FpArithP FpIntP ConvertP TranscendP RealErrP PiBoundP SeriesP.
Import ListNotations.
Local Open Scope R_scope.

(** ** a turn is PI / 2 *)
Lemma pi_num : 4078020416507594100416871540687067 / 1298074214633706907132624082305024 <= PI <= 4078020416507594100416871540687071 / 1298074214633706907132624082305024.
Proof. exact pi_bounds. Qed.
Lemma near_fold x k g N : Rabs (g - IZR N) <= 1 / 2 -> Rabs (g - x * k) <= 1 / 4000 -> Rabs (x * (1 - k * PI / 2)) <= 1 / 4000 -> Rabs (x - IZR N * (PI / 2)) <= 787 / 1000.
Proof.
  intros A B C. pose proof pi_num as PB. replace (x - IZR N * (PI / 2)) with (((g - IZR N) - (g - x * k)) * (PI / 2) + x * (1 - k * PI / 2)) by field.
  eapply Rle_trans; [apply Rabs_triang|]. rewrite Rabs_mult, (Rabs_pos_eq (PI / 2)) by lra.
  assert (Rabs ((g - IZR N) - (g - x * k)) <= 1 / 2 + 1 / 4000) by (unfold Rminus at 1; eapply Rle_trans; [apply Rabs_triang|rewrite Rabs_Ropp; lra]).
  pose proof (Rabs_pos ((g - IZR N) - (g - x * k))). nra.
Qed.
(** [r] is a - N pi / 2 up to E *)
Definition folds {w} (E a : R) (f : folded w) : Prop :=
  exists N : Z, (0 <= N)%Z /\ is_Finite (fst f) = true /\ Rabs (real (fst f)) <= 79 / 100 /\ Rabs (real (fst f) - (a - IZR N * (PI / 2))) <= E /\ snd f = of_int w (Z.land N 3).

Section T.
  Context {w : nat} (Hw : fp_width w).
  Notation p := (mant_bits w). Notation U := (one_units w). Notation ue := (unit_exp w).
  Lemma real_int (y : word w) N : fvalue y = (N * U)%Z -> real y = IZR N.
  Proof using Hw. intros H. rewrite (real_eq Hw), H, mult_IZR. pose proof (IUpos Hw). field. lra. Qed.
  Lemma real_le (y : word w) k : real y <= IZR k -> (fvalue y <= k * U)%Z.
  Proof using Hw.
    intros H. apply le_IZR. rewrite mult_IZR. pose proof (IUpos Hw) as IU. rewrite (real_eq Hw) in H. apply (Rmult_le_compat_r (IZR U)) in H; [|lra]. unfold Rdiv in H. rewrite Rmult_assoc, Rinv_l, Rmult_1_r in H by lra. exact H.
  Qed.
  Lemma le_real (y : word w) k : (fvalue y <= k * U)%Z -> real y <= IZR k.
  Proof using Hw.
    intros H. apply IZR_le in H. rewrite mult_IZR in H. pose proof (IUpos Hw) as IU. rewrite (real_eq Hw). apply (Rmult_le_reg_r (IZR U)); [lra|]. unfold Rdiv. rewrite Rmult_assoc, Rinv_l, Rmult_1_r by lra. exact H.
  Qed.
  Lemma real_nonneg (y : word w) : 0 <= real y -> (0 <= fvalue y)%Z.
  Proof using Hw.
    intros H. apply le_IZR. pose proof (IUpos Hw) as IU. rewrite (real_eq Hw) in H. apply (Rmult_le_compat_r (IZR U)) in H; [|lra]. unfold Rdiv in H. rewrite Rmult_assoc, Rinv_l, Rmult_1_r, Rmult_0_l in H by lra. exact H.
  Qed.
  Lemma real_quarter (y : word w) : - (1 / 4) <= real y -> (- U <= 4 * fvalue y)%Z.
  Proof using Hw.
    intros H. apply le_IZR. pose proof (IUpos Hw) as IU. rewrite (real_eq Hw) in H. apply (Rmult_le_compat_r (IZR U)) in H; [|lra]. unfold Rdiv in H. rewrite (Rmult_assoc (IZR (fvalue y))), Rinv_l, Rmult_1_r in H by lra. rewrite opp_IZR, mult_IZR. lra.
  Qed.
  Lemma turns (Y : word w) : is_Finite Y = true -> - (1 / 4) <= real Y <= IZR (2 ^ 30) ->
    exists N, (0 <= N <= 2 ^ 30)%Z /\ is_Finite (round_to ToNearest Y) = true /\ fvalue (round_to ToNearest Y) = (N * U)%Z /\ Rabs (real Y - IZR N) <= 1 / 2 /\
      forall v, quadrant_of v (round_to ToNearest Y) = of_int v (Z.land N 3).
  Proof using Hw.
    intros F (R0 & R1). destruct (round_to_value Hw ToNearest Y F) as (F' & V & _). set (N := round_int ToNearest Y) in *. exists N.
    pose proof (one_units_pos Hw) as UP. pose proof (real_quarter _ R0) as V0. pose proof (real_le _ _ R1) as V1.
    assert (NB : (2 * Z.abs (fvalue Y - N * U) <= U)%Z).
    { unfold N. change (round_int ToNearest Y) with (rne (fvalue Y) U). destruct (rne_cases (fvalue Y) U UP) as (_ & [(-> & C & _)|(-> & C & _)]); pose proof (Z.div_mod (fvalue Y) U ltac:(lia)); pose proof (Z.mod_pos_bound (fvalue Y) U UP); nia. }
    assert (NR : (0 <= N <= 2 ^ 30)%Z) by nia. split; [exact NR|]. split; [exact F'|]. split; [exact V|]. split.
    - rewrite (real_eq Hw). pose proof (IUpos Hw) as IU. replace (IZR (fvalue Y) / IZR U - IZR N) with (IZR (fvalue Y - N * U) / IZR U) by (rewrite minus_IZR, mult_IZR; field; lra).
      unfold Rdiv. rewrite Rabs_mult, (Rabs_pos_eq (/ IZR U)), <- abs_IZR by (left; now apply Rinv_0_lt_compat). apply IZR_le in NB. rewrite mult_IZR in NB.
      apply (Rmult_le_reg_r (IZR U)); [lra|]. rewrite Rmult_assoc, Rinv_l by lra. lra.
    - intros v. unfold quadrant_of. rewrite (cvt_int32_ok Hw) by (auto; rewrite (round_int_exact Hw ToZero _ N V); lia). rewrite (round_int_exact Hw ToZero _ N V), mkw4_sval by lia. reflexivity.
  Qed.
  (** exact products *)
  Lemma mul_int_exact (Y c : word w) N C j : is_Finite Y = true -> is_Finite c = true -> fvalue Y = (N * U)%Z -> fvalue c = (C * 2 ^ j)%Z ->
    (Z.abs (N * C) < 2 ^ (p + 1))%Z -> (0 <= j)%Z -> (p + 1 + j <= top_exp w)%Z -> is_Finite (fmul Y c) = true /\ fvalue (fmul Y c) = (N * C * 2 ^ j)%Z.
  Proof using Hw.
    intros FY FC VY VC HB Hj HT. pose proof (one_units_pos Hw) as UP. pose proof (Z.pow_pos_nonneg 2 j ltac:(lia) Hj) as PJ.
    unfold fmul, nan2. rewrite !(finite_not_nan Hw), !(finite_not_inf Hw) by auto. cbn [orb].
    destruct (fround_repr Hw (xorb (negative Y) (negative c)) (fabs_value Y * fabs_value c) U (Z.abs (N * C) * 2 ^ j) UP) as (F & V & S).
    - apply (repr_pow Hw); lia.
    - rewrite !(fabs_abs Hw), VY, VC, !Z.abs_mul, (Z.abs_eq U), (Z.abs_eq (2 ^ j)) by lia. ring.
    - split; [exact F|]. rewrite (fvalue_abs Hw), V, S. rewrite (fvalue_abs Hw) in VY, VC. rewrite !(fabs_abs Hw) in VY, VC.
      assert (EY : ((if negative Y then -1 else 1) * Z.abs N = N)%Z).
      { pose proof (fvalue_abs Hw Y) as A. rewrite (fabs_abs Hw) in A. apply (Z.mul_reg_r _ _ U); [lia|]. rewrite <- VY. rewrite <- Z.mul_assoc. f_equal. rewrite A, VY. rewrite Z.abs_mul, (Z.abs_eq U) by lia. reflexivity. }
      assert (EC : ((if negative c then -1 else 1) * Z.abs C = C)%Z).
      { pose proof (fvalue_abs Hw c) as A. rewrite (fabs_abs Hw) in A. apply (Z.mul_reg_r _ _ (2 ^ j)); [lia|]. rewrite <- VC. rewrite <- Z.mul_assoc. f_equal. rewrite A, VC. rewrite Z.abs_mul, (Z.abs_eq (2 ^ j)) by lia. reflexivity. }
      rewrite Z.abs_mul. rewrite <- EY at 2. rewrite <- EC at 2. destruct (negative Y), (negative c); cbn [xorb]; ring.
  Qed.
  (** numbers from 1/2 on are multiples of 2 ^ - (p + 1) *)
  Lemma grid (X : word w) : is_Finite X = true -> 1 / 2 <= real X -> exists a, fvalue X = (a * 2 ^ (ue - p - 1))%Z.
  Proof using Hw.
    intros F H. destruct (exps Hw) as (P & E & T & _). assert (N0 : (0 <= fvalue X)%Z) by (apply real_nonneg; lra). assert (L : (2 ^ (ue - 1) <= fvalue X)%Z).
    { apply le_IZR. pose proof (IUpos Hw) as IU. rewrite (real_eq Hw) in H. apply (Rmult_le_compat_r (IZR U)) in H; [|lra]. unfold Rdiv in H. rewrite (Rmult_assoc (IZR (fvalue X))), Rinv_l, Rmult_1_r in H by lra.
      assert (E2 : U = (2 * 2 ^ (ue - 1))%Z) by (rewrite <- Z.pow_succ_r by lia; unfold one_units; f_equal; lia). rewrite E2, mult_IZR in H. lra. }
    destruct (finite_repr Hw X F) as (k & e & K & E0 & V & _). rewrite (fabs_abs Hw), Z.abs_eq in V by lia. destruct (Z_lt_le_dec e (ue - p - 1)) as [Q|Q].
    - exfalso. assert (k * 2 ^ e < 2 ^ (p + 1) * 2 ^ (ue - p - 2))%Z.
      { apply Z.lt_le_trans with (2 ^ (p + 1) * 2 ^ e)%Z; [pose proof (Z.pow_pos_nonneg 2 e); nia|]. apply Z.mul_le_mono_nonneg_l; [lia|]. apply Z.pow_le_mono_r; lia. }
      rewrite <- Z.pow_add_r in H0 by lia. replace (p + 1 + (ue - p - 2))%Z with (ue - 1)%Z in H0 by lia. lia.
    - exists (k * 2 ^ (e - (ue - p - 1)))%Z. rewrite V, <- Z.mul_assoc, <- Z.pow_add_r by lia. f_equal. f_equal. lia.
  Qed.
  Lemma sub_exact (X M : word w) : is_Finite X = true -> is_Finite M = true -> repr (w := w) (Z.abs (fvalue X - fvalue M)) ->
    is_Finite (fsub X M) = true /\ fvalue (fsub X M) = (fvalue X - fvalue M)%Z /\ real (fsub X M) = real X - real M.
  Proof using Hw.
    intros FX FM R. destruct (fsub_repr Hw X M FX FM R) as (F & V). split; [exact F|]. split; [exact V|]. rewrite !(real_eq Hw), V, minus_IZR. pose proof (IUpos Hw). field. lra.
  Qed.
  Lemma grid_repr v a : (v = a * 2 ^ (ue - p - 1))%Z -> (Z.abs v < U)%Z -> repr (w := w) (Z.abs v).
  Proof using Hw.
    intros E B. destruct (exps Hw) as (P & U0 & T & _). pose proof (Z.pow_pos_nonneg 2 (ue - p - 1) ltac:(lia) ltac:(lia)) as PP. rewrite E, Z.abs_mul, (Z.abs_eq (2 ^ _)) in * by lia.
    apply (repr_pow Hw); [|lia|lia]. split; [lia|]. apply (Z.mul_lt_mono_pos_r (2 ^ (ue - p - 1))); [lia|]. rewrite <- Z.pow_add_r by lia. unfold one_units in B. replace (p + 1 + (ue - p - 1))%Z with ue by lia. exact B.
  Qed.
  Lemma real_lt1 v : Rabs (IZR v / IZR U) < 1 -> (Z.abs v < U)%Z.
  Proof using Hw.
    intros H. pose proof (IUpos Hw) as IU. apply lt_IZR. rewrite abs_IZR. unfold Rdiv in H. rewrite Rabs_mult, (Rabs_pos_eq (/ IZR U)) in H by (left; now apply Rinv_0_lt_compat).
    apply (Rmult_lt_compat_r (IZR U)) in H; [|lra]. rewrite Rmult_assoc, Rinv_l, Rmult_1_r, Rmult_1_l in H by lra. exact H.
  Qed.
  (** Sterbenz *)
  Lemma sterbenz (X M : word w) : is_Finite X = true -> is_Finite M = true -> (0 <= fvalue X)%Z -> (0 <= fvalue M)%Z -> (fvalue X <= 2 * fvalue M)%Z -> (fvalue M <= 2 * fvalue X)%Z ->
    repr (w := w) (Z.abs (fvalue X - fvalue M)).
  Proof using Hw.
    intros FX FM X0 M0 H1 H2. destruct (finite_repr Hw X FX) as (k & e & K & E & V & T), (finite_repr Hw M FM) as (k' & e' & K' & E' & V' & T'). rewrite !(fabs_abs Hw), !Z.abs_eq in * by lia.
    destruct (Z_le_dec e e') as [L|L].
    - exists (Z.abs (k - k' * 2 ^ (e' - e)))%Z, e. pose proof (Z.pow_pos_nonneg 2 e ltac:(lia) E) as PP.
      assert (EQ : (fvalue X - fvalue M = (k - k' * 2 ^ (e' - e)) * 2 ^ e)%Z) by (rewrite V, V', Z.mul_sub_distr_r, <- Z.mul_assoc, <- Z.pow_add_r by lia; do 3 f_equal; lia).
      rewrite EQ, Z.abs_mul, (Z.abs_eq (2 ^ e)) in * by lia. assert (Z.abs (k - k' * 2 ^ (e' - e)) * 2 ^ e <= k * 2 ^ e)%Z by (rewrite <- (Z.abs_eq (2 ^ e)) at 1 by lia; rewrite <- Z.abs_mul, <- EQ, <- V; lia).
      repeat split; try lia. nia.
    - exists (Z.abs (k * 2 ^ (e - e') - k'))%Z, e'. pose proof (Z.pow_pos_nonneg 2 e' ltac:(lia) E') as PP.
      assert (EQ : (fvalue X - fvalue M = (k * 2 ^ (e - e') - k') * 2 ^ e')%Z) by (rewrite V, V', Z.mul_sub_distr_r, <- Z.mul_assoc, <- Z.pow_add_r by lia; do 3 f_equal; lia).
      rewrite EQ, Z.abs_mul, (Z.abs_eq (2 ^ e')) in * by lia. assert (Z.abs (k * 2 ^ (e - e') - k') * 2 ^ e' <= k' * 2 ^ e')%Z by (rewrite <- (Z.abs_eq (2 ^ e')) at 1 by lia; rewrite <- Z.abs_mul, <- EQ, <- V'; lia).
      repeat split; try lia. nia.
  Qed.
End T.

(** ** the folding functions *)
Section H.
  Context {w : nat} (Hw : fp_width w).
  Lemma abs_split a b c e f : Rabs (a - b) <= e -> Rabs (b - c) <= f -> Rabs (a - c) <= e + f.
  Proof. intros H1 H2. replace (a - c) with ((a - b) + (b - c)) by ring. eapply Rle_trans; [apply Rabs_triang|lra]. Qed.
  Lemma turn_const n c d nb : 0 <= n <= nb -> Rabs (PI / 2 - c) <= d -> Rabs (n * (PI / 2) - n * c) <= nb * d.
  Proof. intros (N0 & N1) H. replace (n * (PI / 2) - n * c) with (n * (PI / 2 - c)) by ring. rewrite Rabs_mult, (Rabs_pos_eq n) by lra. apply Rmult_le_compat; auto using Rabs_pos. Qed.
  Lemma int_le N k : IZR N < IZR k + 1 -> (N <= k)%Z.
  Proof. intros H. rewrite <- plus_IZR in H. apply lt_IZR in H. lia. Qed.
  Lemma scaled_real (M : word w) N C j d : fvalue M = (N * C * 2 ^ j)%Z -> (0 < d)%Z -> (2 ^ j * d = one_units w)%Z -> real M = IZR N * (IZR C / IZR d).
  Proof using Hw.
    intros V D E. rewrite (real_eq Hw), V, <- E, !mult_IZR. pose proof (IUpos Hw) as IU. rewrite <- E, mult_IZR in IU. apply IZR_lt in D. assert (0 < IZR (2 ^ j)) by nra. field. lra.
  Qed.
  (** x - N c is exact if N c is a multiple of 2 ^ -(p + 1) *)
  Lemma first_step (X M : word w) N b : is_Finite X = true -> is_Finite M = true -> 0 <= real X -> (0 <= N)%Z -> (N = 0%Z -> fvalue M = 0%Z) -> fvalue M = (b * 2 ^ (unit_exp w - mant_bits w - 1))%Z ->
    Rabs (real X - IZR N * (PI / 2)) <= 787 / 1000 -> Rabs (real X - real M) < 1 ->
    is_Finite (fsub X M) = true /\ fvalue (fsub X M) = (fvalue X - fvalue M)%Z /\ real (fsub X M) = real X - real M.
  Proof using Hw.
    intros FX FM X0 N0 NZ G H L. apply (sub_exact Hw); auto. destruct (Z.eq_dec N 0) as [E|E].
    - rewrite (NZ E), Z.sub_0_r, <- (fabs_abs Hw). now apply (finite_repr Hw).
    - pose proof pi_num. assert (N1 : 1 <= IZR N) by (apply IZR_le; lia). assert (XB : 1 / 2 <= real X) by (apply Rabs_def2' in H || (unfold Rabs in H; destruct (Rcase_abs _) in H; nra)).
      destruct (grid Hw X FX XB) as (a & EA). apply (grid_repr Hw _ (a - b)); [rewrite EA, G; ring|]. apply (real_lt1 Hw). rewrite minus_IZR. replace ((IZR (fvalue X) - IZR (fvalue M)) / IZR (one_units w)) with (real X - real M); [exact L|].
      rewrite !(real_eq Hw). pose proof (IUpos Hw). field. lra.
  Qed.
End H.

Definition E4f : R := (234551 / 5000000000000).
Lemma fold4_float_ok (X : word 4) : is_Finite X = true -> 0 <= real X <= 26 -> folds E4f (real X) (fold4_float X).
Proof.
  intros F (X0 & X1). set (Hw := fp4). pose proof pi_num as PB. assert (Hx : app X (real X) 26 0) by (apply app_exact; [exact F|rewrite Rabs_pos_eq; lra]). set (x := real X) in *.
  unfold fold4_float. cbv zeta. set (c := f4 1 0x22f983 (-1)). set (c1 := f4 1 0x490fe0 0). set (c2 := f4 (-1) 0x2bbbd3 (-21)).
  assert (Hc : app c (10680707 / 16777216) (10680707 / 16777216) 0) by (apply (const_app Hw c 10680707 16777216); [reflexivity|reflexivity|vm_compute; reflexivity|rewrite Rabs_right; lra]).
  assert (Hc2 : app c2 (-11254739 / 17592186044416) (11254739 / 17592186044416) 0) by (apply (const_app Hw c2 (-11254739) 17592186044416); [reflexivity|reflexivity|vm_compute; reflexivity|rewrite Rabs_left; lra]).
  assert (HP : app (fmul X c) (x * (10680707 / 16777216)) 17 (9865829 / 10000000000000)) by (refine (mul_w Hw _ _ _ _ _ _ _ _ _ _ Hx Hc _ _ _ _ _ _ _); rewrite ?u4; lra).
  destruct HP as (FP & _ & EP). set (P := fmul X c) in *. assert (RP : - (1 / 4) <= real P <= IZR (2 ^ 30)) by (change (2 ^ 30)%Z with 1073741824%Z; unfold Rabs in EP; destruct (Rcase_abs _) in EP; lra).
  destruct (turns Hw P FP RP) as (N & (N0 & _) & FY & VY & DY & QY). set (y := round_to ToNearest P) in *.
  pose proof (near_fold x (10680707 / 16777216) (real P) N DY ltac:(lra) ltac:(rewrite Rabs_mult, (Rabs_pos_eq x) by lra; assert (Rabs (1 - (10680707 / 16777216) * PI / 2) <= 1 / 1000000) by (apply Rabs_le; lra); pose proof (Rabs_pos (1 - (10680707 / 16777216) * PI / 2)); nra)) as NF.
  assert (N17 : (N <= 17)%Z) by (apply int_le; unfold Rabs in EP, DY; destruct (Rcase_abs _) in EP; destruct (Rcase_abs _) in DY; lra).
  assert (NB : 0 <= IZR N <= 17) by (split; apply IZR_le; lia). pose proof (real_int Hw y N VY) as RY.
  pose proof (turn_const (IZR N) (411775 / 262144) (6397579 / 10000000000000) 17 NB ltac:(apply Rabs_le; lra)) as T1.
  pose proof (turn_const (IZR N) ((411775 / 262144) + -11254739 / 17592186044416) (5390303 / 1000000000000000000000) 17 NB ltac:(apply Rabs_le; lra)) as T2.
  destruct (mul_int_exact Hw y c1 N 411775 131 FY eq_refl VY eq_refl ltac:(change (2 ^ (mant_bits 4 + 1))%Z with 16777216%Z; lia) ltac:(lia) ltac:(vm_compute; congruence)) as (FM & VM).
  set (M := fmul y c1) in *. pose proof (scaled_real Hw M N 411775 131 262144 VM eq_refl eq_refl) as RM.
  destruct (first_step Hw X M N (N * 411775 * 64) F FM X0 N0 ltac:(intros ->; exact VM) ltac:(rewrite VM; change (unit_exp 4 - mant_bits 4 - 1)%Z with 125%Z; change (2 ^ 131)%Z with (64 * 2 ^ 125)%Z; ring) NF) as (FS & _ & RS).
  { fold x. rewrite RM. eapply Rle_lt_trans; [apply (abs_split _ (IZR N * (PI / 2)) _ _ _ NF T1)|lra]. }
  set (S := fsub X M) in *. fold x in RS. rewrite RM in RS.
  assert (HS : app S (x - IZR N * (411775 / 262144)) 1 0).
  { rewrite <- RS. apply app_exact; [exact FS|]. rewrite RS. eapply Rle_trans; [apply (abs_split _ (IZR N * (PI / 2)) _ _ _ NF T1)|lra]. }
  assert (Hy : app y (IZR N) 17 0) by (rewrite <- RY; apply app_exact; [exact FY|rewrite RY, Rabs_pos_eq; lra]).
  assert (HT : app (fmul y c2) (IZR N * (-11254739 / 17592186044416)) (1087589 / 100000000000) (1620633 / 2500000000000000000)) by (refine (mul_w Hw _ _ _ _ _ _ _ _ _ _ Hy Hc2 _ _ _ _ _ _ _); rewrite ?u4; lra).
  set (T := fmul y c2) in *.
  assert (HR : app (fsub S T) (x - IZR N * (411775 / 262144) - IZR N * (-11254739 / 17592186044416)) (78701 / 100000) (469101 / 10000000000000)).
  { refine (sub_b Hw _ _ _ _ _ _ _ _ _ _ HS HT _ _ _); [|rewrite ?u4; lra|rewrite ?u4; lra].
    replace (x - IZR N * (411775 / 262144) - IZR N * (-11254739 / 17592186044416)) with (x - IZR N * ((411775 / 262144) + -11254739 / 17592186044416)) by ring.
    eapply Rle_trans; [apply (abs_split _ (IZR N * (PI / 2)) _ _ _ NF T2)|lra]. }
  destruct HR as (FR & BR & ER). exists N. cbn [fst snd]. split; [exact N0|]. split; [exact FR|]. split; [|split; [|apply QY]].
  - eapply Rle_trans; [|apply Rle_trans with ((469101 / 10000000000000) + (78701 / 100000)); [|lra]]; [|right; reflexivity]. set (z := x - _ - _) in *. replace (real (fsub S T)) with ((real (fsub S T) - z) + z) by ring. eapply Rle_trans; [apply Rabs_triang|lra].
  - unfold E4f. eapply Rle_trans; [apply (abs_split _ _ _ _ (17 * (5390303 / 1000000000000000000000)) ER)|lra].
    replace (x - IZR N * (411775 / 262144) - IZR N * (-11254739 / 17592186044416) - (x - IZR N * (PI / 2))) with (IZR N * (PI / 2) - IZR N * ((411775 / 262144) + -11254739 / 17592186044416)) by ring. exact T2.
Qed.

Definition E8f : R := (349503 / 2000000000000000000000).
Lemma pi_2_eq : fmul (of_int 8 2) (pi_4 8) = pi_2 8. Proof. apply word_ext. vm_compute. reflexivity. Qed.
Lemma pi_2_real : real (pi_2 8) = (884279719003555 / 562949953421312). Proof. apply (real_frac fp8); [reflexivity|vm_compute; reflexivity]. Qed.
(** the number of quarter turns *)
Lemma turns8_ok (X : word 8) : is_Finite X = true -> 0 <= real X <= 1073741824 ->
  exists N, (0 <= N)%Z /\ is_Finite (turns8 X) = true /\ fvalue (turns8 X) = (N * one_units 8)%Z /\ quadrant_of 8 (turns8 X) = of_int 8 (Z.land N 3) /\
    Rabs (real X - IZR N * (PI / 2)) <= 787 / 1000 /\ IZR N <= real X * (637 / 1000) + 6 / 10.
Proof.
  intros F (X0 & X1). pose proof pi_num as PB. unfold turns8. rewrite pi_2_eq. set (x := real X) in *. pose proof pi_2_real as P2. pose proof (eta_le fp8) as ET.
  assert (QQ : real X / real (pi_2 8) = x * (562949953421312 / 884279719003555)) by (rewrite P2; unfold x; field).
  assert (A : Rabs (x * (562949953421312 / 884279719003555)) = x * (562949953421312 / 884279719003555)) by (apply Rabs_pos_eq; lra).
  destruct (fdiv_real fp8 X (pi_2 8) F eq_refl) as (FP & EP).
  { vm_compute. discriminate. }
  { rewrite QQ, A. pose proof B70_big. lra. }
  rewrite QQ, A, u8 in EP. set (P := fdiv X (pi_2 8)) in *. assert (RP : - (1 / 4) <= real P <= IZR (2 ^ 30)) by (change (2 ^ 30)%Z with 1073741824%Z; unfold Rabs in EP; destruct (Rcase_abs _) in EP; lra).
  destruct (turns fp8 P FP RP) as (N & (N0 & _) & FY & VY & DY & QY). exists N. split; [exact N0|]. split; [exact FY|]. split; [exact VY|]. split; [apply QY|]. split.
  - apply (near_fold x (562949953421312 / 884279719003555) (real P) N DY); [eapply Rle_trans; [exact EP|lra]|]. rewrite Rabs_mult, (Rabs_pos_eq x) by lra. assert (Rabs (1 - (562949953421312 / 884279719003555) * PI / 2) <= 1 / 10000000000000) by (apply Rabs_le; lra). pose proof (Rabs_pos (1 - (562949953421312 / 884279719003555) * PI / 2)). nra.
  - unfold Rabs in EP, DY; destruct (Rcase_abs _) in EP; destruct (Rcase_abs _) in DY; lra.
Qed.
Lemma fold8_small_ok (X : word 8) : is_Finite X = true -> 0 <= real X <= 806 -> folds E8f (real X) (fold8_small X, quadrant_of 8 (turns8 X)).
Proof.
  intros F (X0 & X1). set (Hw := fp8). pose proof pi_num as PB. destruct (turns8_ok X F ltac:(lra)) as (N & N0 & FY & VY & QY & NF & NL).
  unfold fold8_small. cbv zeta. set (y := turns8 X) in *. set (x := real X) in *. set (c1 := f8 1 0x921fb54443000 0). set (c2 := f8 (-1) 0x73dcb3b39a000 (-43)). set (c3 := f8 1 0x45c06e0e68948 (-86)).
  assert (Hc2 : app c2 (-798567815629 / 4835703278458516698824704) (798567815629 / 4835703278458516698824704) 0) by (apply (const_app Hw c2 (-798567815629) 4835703278458516698824704); [reflexivity|reflexivity|vm_compute; reflexivity|rewrite Rabs_left; lra]).
  assert (Hc3 : app c3 (716335518372137 / 43556142965880123323311949751266331066368) (716335518372137 / 43556142965880123323311949751266331066368) 0) by (apply (const_app Hw c3 (716335518372137) 43556142965880123323311949751266331066368); [reflexivity|reflexivity|vm_compute; reflexivity|rewrite Rabs_right; lra]).
  assert (N17 : (N <= 514)%Z) by (apply int_le; lra).
  assert (NB : 0 <= IZR N <= 514) by (split; apply IZR_le; lia). pose proof (real_int Hw y N VY) as RY.
  pose proof (turn_const (IZR N) (1727108826179 / 1099511627776) (8257 / 50000000000000000) 514 NB ltac:(apply Rabs_le; lra)) as T1.
  pose proof (turn_const (IZR N) ((1727108826179 / 1099511627776) + (-798567815629 / 4835703278458516698824704)) (1644629 / 100000000000000000000000000000000) 514 NB ltac:(apply Rabs_le; lra)) as T2.
  pose proof (turn_const (IZR N) ((1727108826179 / 1099511627776) + (-798567815629 / 4835703278458516698824704) + (716335518372137 / 43556142965880123323311949751266331066368)) (1249687 / 50000000000000000000000000000000000000) 514 NB ltac:(apply Rabs_le; lra)) as T3.
  destruct (mul_int_exact Hw y c1 N 1727108826179 1034 FY eq_refl VY eq_refl ltac:(change (2 ^ (mant_bits 8 + 1))%Z with 9007199254740992%Z; lia) ltac:(lia) ltac:(vm_compute; congruence)) as (FM & VM).
  set (M := fmul y c1) in *. pose proof (scaled_real Hw M N 1727108826179 1034 1099511627776 VM eq_refl eq_refl) as RM. replace (IZR 1727108826179 / IZR 1099511627776) with (1727108826179 / 1099511627776) in RM by lra.
  destruct (first_step Hw X M N (N * 1727108826179 * 2 ^ 13) F FM X0 N0 ltac:(intros ->; exact VM) ltac:(rewrite VM; change (unit_exp 8 - mant_bits 8 - 1)%Z with 1021%Z; change (2 ^ 1034)%Z with (2 ^ 13 * 2 ^ 1021)%Z; ring) NF) as (FS & _ & RS).
  { fold x. rewrite RM. eapply Rle_lt_trans; [apply (abs_split _ (IZR N * (PI / 2)) _ _ _ NF T1)|lra]. }
  set (S := fsub X M) in *. fold x in RS. rewrite RM in RS.
  assert (HS : app S (x - IZR N * (1727108826179 / 1099511627776)) 1 0).
  { rewrite <- RS. apply app_exact; [exact FS|]. rewrite RS. eapply Rle_trans; [apply (abs_split _ (IZR N * (PI / 2)) _ _ _ NF T1)|lra]. }
  assert (Hy : app y (IZR N) 514 0) by (rewrite <- RY; apply app_exact; [exact FY|rewrite RY, Rabs_pos_eq; lra]).
  assert (HT : app (fmul y c2) (IZR N * (-798567815629 / 4835703278458516698824704)) (4244097 / 50000000000000000) (4712683 / 500000000000000000000000000000000)) by (refine (mul_w Hw _ _ _ _ _ _ _ _ _ _ Hy Hc2 _ _ _ _ _ _ _); rewrite ?u8; lra).
  set (T := fmul y c2) in *.
  assert (HR : app (fsub S T) (x - IZR N * (1727108826179 / 1099511627776) - IZR N * (-798567815629 / 4835703278458516698824704)) (78701 / 100000) (8737567 / 100000000000000000000000)).
  { refine (sub_b Hw _ _ _ _ _ _ _ _ _ _ HS HT _ _ _); [|rewrite ?u8; lra|rewrite ?u8; lra].
    replace (x - IZR N * (1727108826179 / 1099511627776) - IZR N * (-798567815629 / 4835703278458516698824704)) with (x - IZR N * ((1727108826179 / 1099511627776) + (-798567815629 / 4835703278458516698824704))) by ring.
    eapply Rle_trans; [apply (abs_split _ (IZR N * (PI / 2)) _ _ _ NF T2)|lra]. }
  set (S2 := fsub S T) in *.
  assert (HT3 : app (fmul y c3) (IZR N * (716335518372137 / 43556142965880123323311949751266331066368)) (8453377 / 1000000000000000000000000000000) (788861 / 500000000000000000000000000000000000)) by (refine (mul_w Hw _ _ _ _ _ _ _ _ _ _ Hy Hc3 _ _ _ _ _ _ _); rewrite ?u8; lra).
  set (T' := fmul y c3) in *.
  assert (HR3 : app (fsub S2 T') (x - IZR N * (1727108826179 / 1099511627776) - IZR N * (-798567815629 / 4835703278458516698824704) - IZR N * (716335518372137 / 43556142965880123323311949751266331066368)) (78701 / 100000) (873757 / 5000000000000000000000)).
  { refine (sub_b Hw _ _ _ _ _ _ _ _ _ _ HR HT3 _ _ _); [|rewrite ?u8; lra|rewrite ?u8; lra].
    replace (x - IZR N * (1727108826179 / 1099511627776) - IZR N * (-798567815629 / 4835703278458516698824704) - IZR N * (716335518372137 / 43556142965880123323311949751266331066368)) with (x - IZR N * ((1727108826179 / 1099511627776) + (-798567815629 / 4835703278458516698824704) + (716335518372137 / 43556142965880123323311949751266331066368))) by ring.
    eapply Rle_trans; [apply (abs_split _ (IZR N * (PI / 2)) _ _ _ NF T3)|lra]. }
  destruct HR3 as (FR & BR & ER). exists N. cbn [fst snd]. split; [exact N0|]. split; [exact FR|]. split; [|split; [|exact QY]].
  - set (z := x - _ - _ - _) in *. replace (real (fsub S2 T')) with ((real (fsub S2 T') - z) + z) by ring. eapply Rle_trans; [apply Rabs_triang|lra].
  - unfold E8f. eapply Rle_trans; [apply (abs_split _ _ _ _ (514 * (1249687 / 50000000000000000000000000000000000000)) ER)|lra].
    replace (x - IZR N * (1727108826179 / 1099511627776) - IZR N * (-798567815629 / 4835703278458516698824704) - IZR N * (716335518372137 / 43556142965880123323311949751266331066368) - (x - IZR N * (PI / 2))) with (IZR N * (PI / 2) - IZR N * ((1727108826179 / 1099511627776) + (-798567815629 / 4835703278458516698824704) + (716335518372137 / 43556142965880123323311949751266331066368))) by ring. exact T3.
Qed.

Lemma fold8_medium_ok (X : word 8) : is_Finite X = true -> 0 <= real X <= 1073741824 -> folds E8f (real X) (fold8_medium X, quadrant_of 8 (turns8 X)).
Proof.
  intros F (X0 & X1). set (Hw := fp8). pose proof pi_num as PB. destruct (turns8_ok X F ltac:(lra)) as (N & N0 & FY & VY & QY & NF & NL).
  unfold fold8_medium. cbv zeta. set (y := turns8 X) in *. set (x := real X) in *. set (c1 := f8 1 0x921fb40000000 0). set (c2 := f8 1 0x4442d00000000 (-24)). set (c3 := f8 1 0x8469898cc5170 (-48)).
  assert (Hc3 : app c3 (427063790847255 / 79228162514264337593543950336) (427063790847255 / 79228162514264337593543950336) 0) by (apply (const_app Hw c3 (427063790847255) 79228162514264337593543950336); [reflexivity|reflexivity|vm_compute; reflexivity|rewrite Rabs_right; lra]).
  assert (N17 : (N <= 700000000)%Z) by (apply int_le; lra).
  assert (NB : 0 <= IZR N <= 700000000) by (split; apply IZR_le; lia). pose proof (real_int Hw y N VY) as RY.
  pose proof (turn_const (IZR N) (6588397 / 4194304) (754979 / 10000000000000) 700000000 NB ltac:(apply Rabs_le; lra)) as T1.
  pose proof (turn_const (IZR N) ((6588397 / 4194304) + (1328173 / 17592186044416)) (5390303 / 1000000000000000000000) 700000000 NB ltac:(apply Rabs_le; lra)) as T2.
  pose proof (turn_const (IZR N) ((6588397 / 4194304) + (1328173 / 17592186044416) + (427063790847255 / 79228162514264337593543950336)) (1097781 / 10000000000000000000000000000000000000) 700000000 NB ltac:(apply Rabs_le; lra)) as T3.
  destruct (mul_int_exact Hw y c1 N 6588397 1052 FY eq_refl VY eq_refl ltac:(change (2 ^ (mant_bits 8 + 1))%Z with 9007199254740992%Z; lia) ltac:(lia) ltac:(vm_compute; congruence)) as (FM & VM).
  destruct (mul_int_exact Hw y c2 N 1328173 1030 FY eq_refl VY eq_refl ltac:(change (2 ^ (mant_bits 8 + 1))%Z with 9007199254740992%Z; lia) ltac:(lia) ltac:(vm_compute; congruence)) as (FT & VT).
  set (M := fmul y c1) in *. pose proof (scaled_real Hw M N 6588397 1052 4194304 VM eq_refl eq_refl) as RM. replace (IZR 6588397 / IZR 4194304) with (6588397 / 4194304) in RM by lra.
  set (T := fmul y c2) in *. pose proof (scaled_real Hw T N 1328173 1030 17592186044416 VT eq_refl eq_refl) as RT. replace (IZR 1328173 / IZR 17592186044416) with (1328173 / 17592186044416) in RT by lra.
  assert (XV : (0 <= fvalue X)%Z) by (now apply (real_nonneg Hw)). pose proof (IUpos Hw) as IU.
  assert (RPX : repr (w := 8) (Z.abs (fvalue X - fvalue M))).
  { destruct (Z.eq_dec N 0) as [->|NE].
    - rewrite VM, !Z.mul_0_l, Z.sub_0_r, <- (fabs_abs Hw). now apply (finite_repr Hw).
    - destruct (Z.eq_dec N 1) as [E1|NE1].
      + assert (XB : 1 / 2 <= x) by (rewrite E1 in NF; unfold Rabs in NF; destruct (Rcase_abs _) in NF; lra).
        destruct (grid Hw X F XB) as (a & EA). apply (grid_repr Hw _ (a - N * 6588397 * 2 ^ 31)); [rewrite EA, VM; change (unit_exp 8 - mant_bits 8 - 1)%Z with 1021%Z; change (2 ^ 1052)%Z with (2 ^ 31 * 2 ^ 1021)%Z; ring|].
        apply (real_lt1 Hw). replace (IZR (fvalue X - fvalue M) / IZR (one_units 8)) with (x - real M) by (unfold x; rewrite !(real_eq Hw), minus_IZR; field; lra).
        rewrite RM, E1. rewrite E1 in NF. clear T1 T2 T3. apply Rabs_def1; unfold Rabs in NF; destruct (Rcase_abs _) in NF; lra.
      + assert (N2 : 2 <= IZR N) by (apply IZR_le; lia). assert (XN : IZR N * (PI / 2) - 787 / 1000 <= x <= IZR N * (PI / 2) + 787 / 1000) by (unfold Rabs in NF; destruct (Rcase_abs _) in NF; lra).
        assert (TN : Rabs (IZR N * (PI / 2) - IZR N * (6588397 / 4194304)) <= IZR N / 1000) by (replace (IZR N / 1000) with (IZR N * (1 / 1000)) by field; apply (turn_const (IZR N) _ _ (IZR N)); [lra|apply Rabs_le; lra]).
        assert (TM : IZR N * (PI / 2) - IZR N / 1000 <= real M <= IZR N * (PI / 2) + IZR N / 1000) by (rewrite RM; unfold Rabs in TN; destruct (Rcase_abs _) in TN; lra).
        assert (PN : IZR N * (157 / 100) <= IZR N * (PI / 2)) by (apply Rmult_le_compat_l; lra).
        assert (V2 : forall z : Z, forall v : word 8, IZR z = real v * IZR (one_units 8) -> z = fvalue v) by (intros z v E; apply eq_IZR; rewrite E, (real_eq Hw); field; lra).
        assert (LE : forall a b : word 8, real a <= 2 * real b -> (fvalue a <= 2 * fvalue b)%Z).
        { intros a b L. apply le_IZR. rewrite mult_IZR. rewrite !(real_eq Hw) in L. apply (Rmult_le_compat_r (IZR (one_units 8))) in L; [|lra]. unfold Rdiv in L. rewrite (Rmult_assoc (IZR (fvalue a))), Rinv_l, Rmult_1_r in L by lra. eapply Rle_trans; [exact L|]. right. field. lra. }
        apply (sterbenz Hw); auto; [apply (real_nonneg Hw); lra|apply LE; fold x; lra|apply LE; fold x; lra]. }
  destruct (sub_exact Hw X M F FM RPX) as (FS & VS & RS). set (S := fsub X M) in *. fold x in RS. rewrite RM in RS.
  assert (RPS : repr (w := 8) (Z.abs (fvalue S - fvalue T))).
  { destruct (Z.eq_dec N 0) as [->|NE].
    - rewrite VS, VM, VT, !Z.mul_0_l, !Z.sub_0_r, <- (fabs_abs Hw). now apply (finite_repr Hw).
    - assert (N1 : 1 <= IZR N) by (apply IZR_le; lia). assert (XB : 1 / 2 <= x) by (unfold Rabs in NF; destruct (Rcase_abs _) in NF; nra).
      destruct (grid Hw X F XB) as (a & EA). apply (grid_repr Hw _ (a - N * 6588397 * 2 ^ 31 - N * 1328173 * 2 ^ 9)); [rewrite VS, EA, VM, VT; change (unit_exp 8 - mant_bits 8 - 1)%Z with 1021%Z; change (2 ^ 1052)%Z with (2 ^ 31 * 2 ^ 1021)%Z; change (2 ^ 1030)%Z with (2 ^ 9 * 2 ^ 1021)%Z; ring|].
      apply (real_lt1 Hw). replace (IZR (fvalue S - fvalue T) / IZR (one_units 8)) with (real S - real T) by (rewrite !(real_eq Hw), minus_IZR; field; lra).
      rewrite RS, RT. replace (x - IZR N * (6588397 / 4194304) - IZR N * (1328173 / 17592186044416)) with (x - IZR N * ((6588397 / 4194304) + (1328173 / 17592186044416))) by ring. eapply Rle_lt_trans; [apply (abs_split _ (IZR N * (PI / 2)) _ _ _ NF T2)|lra]. }
  destruct (sub_exact Hw S T FS FT RPS) as (FS2 & _ & RS2). set (S2 := fsub S T) in *. rewrite RS, RT in RS2.
  assert (HR : app S2 (x - IZR N * (6588397 / 4194304) - IZR N * (1328173 / 17592186044416)) (78701 / 100000) 0).
  { rewrite <- RS2. apply app_exact; [exact FS2|]. rewrite RS2. replace (x - IZR N * (6588397 / 4194304) - IZR N * (1328173 / 17592186044416)) with (x - IZR N * ((6588397 / 4194304) + (1328173 / 17592186044416))) by ring.
    eapply Rle_trans; [apply (abs_split _ (IZR N * (PI / 2)) _ _ _ NF T2)|lra]. }
  assert (Hy : app y (IZR N) 700000000 0) by (rewrite <- RY; apply app_exact; [exact FY|rewrite RY, Rabs_pos_eq; lra]).
  assert (HT3 : app (fmul y c3) (IZR N * (427063790847255 / 79228162514264337593543950336)) (2893897 / 500000000000) (3212871 / 5000000000000000000000000000)) by (refine (mul_w Hw _ _ _ _ _ _ _ _ _ _ Hy Hc3 _ _ _ _ _ _ _); rewrite ?u8; lra).
  set (T' := fmul y c3) in *.
  assert (HR3 : app (fsub S2 T') (x - IZR N * (6588397 / 4194304) - IZR N * (1328173 / 17592186044416) - IZR N * (427063790847255 / 79228162514264337593543950336)) (78701 / 100000) (8737631 / 100000000000000000000000)).
  { refine (sub_b Hw _ _ _ _ _ _ _ _ _ _ HR HT3 _ _ _); [|rewrite ?u8; lra|rewrite ?u8; lra].
    replace (x - IZR N * (6588397 / 4194304) - IZR N * (1328173 / 17592186044416) - IZR N * (427063790847255 / 79228162514264337593543950336)) with (x - IZR N * ((6588397 / 4194304) + (1328173 / 17592186044416) + (427063790847255 / 79228162514264337593543950336))) by ring.
    eapply Rle_trans; [apply (abs_split _ (IZR N * (PI / 2)) _ _ _ NF T3)|lra]. }
  destruct HR3 as (FR & BR & ER). exists N. cbn [fst snd]. split; [exact N0|]. split; [exact FR|]. split; [|split; [|exact QY]].
  - set (z := x - _ - _ - _) in *. replace (real (fsub S2 T')) with ((real (fsub S2 T') - z) + z) by ring. eapply Rle_trans; [apply Rabs_triang|lra].
  - unfold E8f. eapply Rle_trans; [apply (abs_split _ _ _ _ (700000000 * (1097781 / 10000000000000000000000000000000000000)) ER)|lra].
    replace (x - IZR N * (6588397 / 4194304) - IZR N * (1328173 / 17592186044416) - IZR N * (427063790847255 / 79228162514264337593543950336) - (x - IZR N * (PI / 2))) with (IZR N * (PI / 2) - IZR N * ((6588397 / 4194304) + (1328173 / 17592186044416) + (427063790847255 / 79228162514264337593543950336))) by ring. exact T3.
Qed.
