(** The accuracy of sin and cos: from the folded argument to the result, for every path. *)
From Coq Require Import ZArith Reals List Bool Lia Lra Psatz.
From Verif.Spec Require Import Seq FloatSpec RoundSpec TransSpec AccuracySpec.
From Verif.Model Require Import Word Fp FpArith Transcend.
From Verif.Proof Require Import SeqP WordP FpP FpArithP FpIntP ConvertP MathP TranscendP RealErrP PiBoundP SeriesP FoldP.
Import ListNotations.
Local Open Scope R_scope.

(** ** conversions *)
Lemma fone48 : (one_units 4 * 2 ^ 925 = one_units 8)%Z. Proof. vm_compute. reflexivity. Qed.
Lemma to_double_real (x : word 4) : is_Finite x = true -> is_Finite (to_double x) = true /\ real (to_double x) = real x.
Proof.
  intros F. destruct (to_double_ok x F) as (F' & V & _). split; [exact F'|]. rewrite (real_eq fp8), (real_eq fp4), V, <- fone48, !mult_IZR.
  pose proof (IUpos fp4). assert (0 < IZR (2 ^ 925)) by (apply IZR_lt; reflexivity). field. lra.
Qed.
Lemma to_float_real (y : word 8) : is_Finite y = true -> Rabs (real y) <= 1000 -> is_Finite (to_float y) = true /\ Rabs (real (to_float y) - real y) <= / 16777216 * Rabs (real y) + / 1267650600228229401496703205376.
Proof.
  intros F H. unfold to_float. rewrite (finite_not_nan fp8 y F), (finite_not_inf fp8 y F). change (1074 - 149)%Z with 925%Z. pose proof (fabs_nonneg fp8 y) as Y0.
  pose proof (IUpos fp4) as IU4. pose proof (IUpos fp8) as IU8. assert (I9 : 0 < IZR (2 ^ 925)) by (apply IZR_lt; reflexivity). pose proof (eta_le fp4) as ET.
  assert (EQ : IZR (one_units 8) = IZR (one_units 4) * IZR (2 ^ 925)) by (rewrite <- mult_IZR; f_equal; symmetry; exact fone48).
  assert (HB : (fabs_value y <= 2 ^ 70 * one_units 4 * 2 ^ 925)%Z).
  { apply le_IZR. rewrite (real_abs fp8), EQ in H. rewrite !mult_IZR. fold B70. pose proof B70_big. apply (Rmult_le_compat_r (IZR (one_units 4) * IZR (2 ^ 925))) in H; [|nra].
    replace (IZR (fabs_value y) / (IZR (one_units 4) * IZR (2 ^ 925)) * (IZR (one_units 4) * IZR (2 ^ 925))) with (IZR (fabs_value y)) in H by (field; lra). assert (0 < IZR (one_units 4) * IZR (2 ^ 925)) by nra. nra. }
  destruct (fround_real fp4 (negative y) (fabs_value y) (2 ^ 925) Y0 ltac:(reflexivity) HB) as (FR & G & _). split; [exact FR|].
  replace ((if negative y then -1 else 1) * (IZR (fabs_value y) / IZR (2 ^ 925)) / IZR (one_units 4)) with (real y) in G.
  - rewrite <- u4. lra.
  - rewrite (real_sign fp8 y), (real_abs fp8), EQ. destruct (negative y); field; lra.
Qed.
Lemma abs_real {w} (Hw : fp_width w) (x : word w) : is_Finite x = true -> is_Finite (l_abs x) = true /\ real (l_abs x) = Rabs (real x).
Proof.
  intros F. destruct (fields Hw x) as (_ & _ & R). split.
  - rewrite (finite_mag Hw) in *. unfold l_abs. rewrite (magnitude_with_sign Hw) by lia. exact F.
  - rewrite (real_abs Hw), (real_eq Hw). f_equal. f_equal. unfold l_abs. rewrite (fvalue_with_sign Hw) by lia. rewrite (fabs_mval Hw). lia.
Qed.
Lemma folds_weak {w} E E' a (f : folded w) : folds E a f -> E <= E' -> folds E' a f.
Proof. intros (N & H1 & H2 & H3 & H4 & H5) L. exists N. repeat split; auto. lra. Qed.

(** ** folding in double precision *)
Definition E4 : R := (2349429 / 50000000000000).
Lemma fold4_double_ok (x0 : word 4) : is_Finite x0 = true -> Rabs (real x0) <= 527449 -> folds E4 (Rabs (real x0)) (fold4_double (l_abs x0)).
Proof.
  intros F0 HX. set (Hw := fp8). pose proof pi_num as PB. destruct (abs_real fp4 x0 F0) as (FA & RA). unfold fold4_double. rewrite (abs_pos fp4 (l_abs x0) (neg_abs fp4 x0)). cbv zeta.
  destruct (to_double_real (l_abs x0) FA) as (F & RX). rewrite RA in RX. set (X := to_double (l_abs x0)) in *. set (x := Rabs (real x0)) in *. assert (X0 : 0 <= x) by apply Rabs_pos.
  assert (Hx : app X x 527449 0) by (rewrite <- RX; apply app_exact; [exact F|rewrite RX, Rabs_pos_eq; lra]).
  set (c := f8 1 0x45f306dc9c883 (-1)). set (c1 := f8 1 0x921fb54442d18 0).
  assert (Hc : app c (5734161139222659 / 9007199254740992) (5734161139222659 / 9007199254740992) 0) by (apply (const_app Hw c 5734161139222659 9007199254740992); [reflexivity|reflexivity|vm_compute; reflexivity|rewrite Rabs_right; lra]).
  assert (Hc1 : app c1 (884279719003555 / 562949953421312) (884279719003555 / 562949953421312) 0) by (apply (const_app Hw c1 884279719003555 562949953421312); [reflexivity|reflexivity|vm_compute; reflexivity|rewrite Rabs_right; lra]).
  assert (HP : app (fmul X c) (x * (5734161139222659 / 9007199254740992)) 400000 (3727957 / 100000000000000000)) by (refine (mul_w Hw _ _ _ _ _ _ _ _ _ _ Hx Hc _ _ _ _ _ _ _); rewrite ?u8; lra).
  destruct HP as (FP & _ & EP). set (P := fmul X c) in *. assert (RP : - (1 / 4) <= real P <= IZR (2 ^ 30)) by (change (2 ^ 30)%Z with 1073741824%Z; unfold Rabs in EP; destruct (Rcase_abs _) in EP; lra).
  destruct (turns Hw P FP RP) as (N & (N0 & _) & FY & VY & DY & QY). set (y := round_to ToNearest P) in *.
  pose proof (near_fold x (5734161139222659 / 9007199254740992) (real P) N DY ltac:(lra) ltac:(rewrite Rabs_mult, (Rabs_pos_eq x) by lra; assert (Rabs (1 - (5734161139222659 / 9007199254740992) * PI / 2) <= 1 / 10000000000) by (apply Rabs_le; lra); pose proof (Rabs_pos (1 - (5734161139222659 / 9007199254740992) * PI / 2)); nra)) as NF.
  assert (N17 : (N <= 335786)%Z) by (apply int_le; unfold Rabs in EP, DY; destruct (Rcase_abs _) in EP; destruct (Rcase_abs _) in DY; lra).
  assert (NB : 0 <= IZR N <= 335786) by (split; apply IZR_le; lia). pose proof (real_int Hw y N VY) as RY.
  pose proof (turn_const (IZR N) (884279719003555 / 562949953421312) (3061617 / 50000000000000000000000) 335786 NB ltac:(apply Rabs_le; lra)) as T1.
  assert (Hy : app y (IZR N) 335786 0) by (rewrite <- RY; apply app_exact; [exact FY|rewrite RY, Rabs_pos_eq; lra]).
  assert (HT : app (fmul y c1) (IZR N * (884279719003555 / 562949953421312)) (1054903 / 2) (365993 / 6250000000000000)) by (refine (mul_w Hw _ _ _ _ _ _ _ _ _ _ Hy Hc1 _ _ _ _ _ _ _); rewrite ?u8; lra).
  set (T := fmul y c1) in *.
  assert (HR : app (fsub X T) (x - IZR N * (884279719003555 / 562949953421312)) (78701 / 100000) (5855897 / 100000000000000000)).
  { refine (sub_b Hw _ _ _ _ _ _ _ _ _ _ Hx HT _ _ _); [|rewrite ?u8; lra|rewrite ?u8; lra]. eapply Rle_trans; [apply (abs_split _ (IZR N * (PI / 2)) _ _ _ NF T1)|lra]. }
  destruct HR as (FR & BR & ER). set (R := fsub X T) in *.
  assert (RB : Rabs (real R) <= (787010000059 / 1000000000000)) by (replace (real R) with ((real R - (x - IZR N * (884279719003555 / 562949953421312))) + (x - IZR N * (884279719003555 / 562949953421312))) by ring; eapply Rle_trans; [apply Rabs_triang|lra]).
  destruct (to_float_real R FR ltac:(lra)) as (FF & EF). exists N. cbn [fst snd]. split; [exact N0|]. split; [exact FF|]. split; [|split; [|apply QY]].
  - replace (real (to_float R)) with ((real (to_float R) - real R) + real R) by ring. eapply Rle_trans; [apply Rabs_triang|lra].
  - unfold E4. assert (Q : Rabs (real R - (x - IZR N * (PI / 2))) <= (3955997 / 50000000000000000)).
    { eapply Rle_trans; [apply (abs_split _ _ _ _ (335786 * (3061617 / 50000000000000000000000)) ER)|lra]. replace (x - IZR N * (884279719003555 / 562949953421312) - (x - IZR N * (PI / 2))) with (IZR N * (PI / 2) - IZR N * (884279719003555 / 562949953421312)) by ring. exact T1. }
    eapply Rle_trans; [apply (abs_split _ _ _ _ _ EF Q)|lra].
Qed.

(** ** sin and cos of sums *)
Lemma sin_near a b : Rabs (sin a - sin b) <= Rabs (a - b).
Proof.
  rewrite form4. rewrite !Rabs_mult, (Rabs_pos_eq 2) by lra. pose proof (sin_le_abs ((a - b) / 2)) as S. assert (C : Rabs (cos ((a + b) / 2)) <= 1) by (destruct (COS_bound ((a + b) / 2)); apply Rabs_le; lra).
  assert (E : Rabs ((a - b) / 2) = Rabs (a - b) / 2) by (unfold Rdiv; rewrite Rabs_mult, (Rabs_pos_eq (/ 2)) by lra; reflexivity). rewrite E in S.
  pose proof (Rabs_pos (cos ((a + b) / 2))). pose proof (Rabs_pos (sin ((a - b) / 2))). nra.
Qed.
Lemma sin_79 a : Rabs a <= 79 / 100 -> Rabs (sin a) <= 711 / 1000.
Proof.
  assert (P : forall y, 0 <= y <= 79 / 100 -> 0 <= sin y <= 711 / 1000).
  { intros y Hy. pose proof pi_num. split; [apply sin_ge_0; lra|]. apply Rle_trans with (sin (79 / 100)); [apply sin_incr_1; lra|]. destruct (sin_taylor1 (79 / 100) ltac:(lra)) as (_ & U). eapply Rle_trans; [exact U|]. lra. }
  intros H. destruct (Rle_dec 0 a) as [Q|Q].
  - rewrite Rabs_pos_eq in H by exact Q. destruct (P a ltac:(lra)). rewrite Rabs_pos_eq; lra.
  - rewrite Rabs_left in H by lra. rewrite <- Rabs_Ropp, <- sin_neg. destruct (P (- a) ltac:(lra)). rewrite Rabs_pos_eq; lra.
Qed.
Lemma cos_near a b : Rabs a <= 79 / 100 -> Rabs (a - b) <= 1 / 1000 -> Rabs (cos a - cos b) <= 72 / 100 * Rabs (a - b).
Proof.
  intros HA HD. rewrite form2. rewrite !Rabs_mult. replace (Rabs (-2)) with 2 by (rewrite Rabs_left; lra). pose proof (sin_le_abs ((a - b) / 2)) as S.
  assert (E : Rabs ((a - b) / 2) = Rabs (a - b) / 2) by (unfold Rdiv; rewrite Rabs_mult, (Rabs_pos_eq (/ 2)) by lra; reflexivity). rewrite E in S.
  assert (M : Rabs (sin ((a + b) / 2)) <= 72 / 100).
  { pose proof (sin_79 a HA) as A. pose proof (sin_near ((a + b) / 2) a) as B. replace ((a + b) / 2 - a) with (- ((a - b) / 2)) in B by field. rewrite Rabs_Ropp, E in B.
    replace (sin ((a + b) / 2)) with ((sin ((a + b) / 2) - sin a) + sin a) by ring. eapply Rle_trans; [apply Rabs_triang|lra]. }
  pose proof (Rabs_pos (sin ((a + b) / 2))). pose proof (Rabs_pos (sin ((a - b) / 2))). nra.
Qed.
Lemma quarter N : (0 <= N)%Z -> exists k : nat, exists q : Z, (0 <= q < 4)%Z /\ Z.land N 3 = q /\ IZR N = 4 * INR k + IZR q.
Proof.
  intros H. exists (Z.to_nat (N / 4)), (N mod 4)%Z. split; [apply Z.mod_pos_bound; lia|]. split; [change 3%Z with (Z.ones 2); rewrite Z.land_ones by lia; reflexivity|].
  rewrite INR_IZR_INZ, Z2Nat.id by (apply Z.div_pos; lia). rewrite <- mult_IZR, <- plus_IZR. f_equal. apply Z.div_mod. lia.
Qed.
Lemma sin_turns b k q : sin (b + (4 * INR k + q) * (PI / 2)) = sin (b + q * (PI / 2)).
Proof. replace (b + (4 * INR k + q) * (PI / 2)) with (b + q * (PI / 2) + 2 * INR k * PI) by field. apply sin_period. Qed.
Lemma cos_turns b k q : cos (b + (4 * INR k + q) * (PI / 2)) = cos (b + q * (PI / 2)).
Proof. replace (b + (4 * INR k + q) * (PI / 2)) with (b + q * (PI / 2) + 2 * INR k * PI) by field. apply cos_period. Qed.
Definition turned (q : Z) (s c : R) : R := match q with 0%Z => s | 1%Z => c | 2%Z => - s | _ => - c end.
Lemma three_q b : b + 3 * (PI / 2) = b + PI / 2 + PI. Proof. field. Qed.
Lemma sin_turned b N : (0 <= N)%Z -> sin (b + IZR N * (PI / 2)) = turned (Z.land N 3) (sin b) (cos b).
Proof.
  intros H. destruct (quarter N H) as (k & q & Q & -> & ->). rewrite sin_turns. assert (C : q = 0%Z \/ q = 1%Z \/ q = 2%Z \/ q = 3%Z) by lia. destruct C as [->|[->|[->| ->]]]; cbn [turned].
  - f_equal. field.
  - rewrite Rmult_1_l, sin_plus, cos_PI2, sin_PI2. ring.
  - replace (b + 2 * (PI / 2)) with (b + PI) by field. apply neg_sin.
  - rewrite three_q, neg_sin, sin_plus, cos_PI2, sin_PI2. ring.
Qed.
Lemma cos_turned b N : (0 <= N)%Z -> cos (b + IZR N * (PI / 2)) = turned (Z.land N 3) (cos b) (- sin b).
Proof.
  intros H. destruct (quarter N H) as (k & q & Q & -> & ->). rewrite cos_turns. assert (C : q = 0%Z \/ q = 1%Z \/ q = 2%Z \/ q = 3%Z) by lia. destruct C as [->|[->|[->| ->]]]; cbn [turned].
  - f_equal. field.
  - rewrite Rmult_1_l, cos_plus, cos_PI2, sin_PI2. ring.
  - replace (b + 2 * (PI / 2)) with (b + PI) by field. apply neg_cos.
  - rewrite three_q, neg_cos, cos_plus, cos_PI2, sin_PI2. ring.
Qed.

(** ** the last step *)
Lemma quadrants {w} (Hw : fp_width w) q : (0 <= q < 4)%Z ->
  even_quadrant (of_int w q) = Z.even q /\ negative (fsub (one w) (of_int w q)) = (2 <=? q)%Z /\
  negative (fsub (half w) (of_int w q)) && negative (fsub (of_int w q) (flit w 25 1)) = ((q =? 1) || (q =? 2))%Z.
Proof.
  intros H. assert (Q : q = 0%Z \/ q = 1%Z \/ q = 2%Z \/ q = 3%Z) by lia. destruct Q as [->|[->|[->| ->]]]; destruct Hw as [->| ->]; vm_compute; auto.
Qed.
Section F.
  Context {w : nat} (Hw : fp_width w) (S C : word w -> word w) (eS eC E D : R).
  Hypothesis HS : forall X, is_Finite X = true -> Rabs (real X) <= 79 / 100 -> is_Finite (S X) = true /\ Rabs (real (S X) - sin (real X)) <= eS.
  Hypothesis HC : forall X, is_Finite X = true -> Rabs (real X) <= 79 / 100 -> is_Finite (C X) = true /\ Rabs (real (C X) - cos (real X)) <= eC.
  Hypothesis HE : E <= 1 / 1000. Hypothesis HDS : eS + E <= D. Hypothesis HDC : eC + 72 / 100 * E <= D.
  Lemma flip_real (s : bool) (y : word w) : is_Finite (l_flip s y) = is_Finite y /\ real (l_flip s y) = if s then - real y else real y.
  Proof using Hw. destruct s; cbn [l_flip]; [|now split]. split; [apply (fneg_value Hw y)|apply (real_fneg Hw)]. Qed.
  Lemma near_S X b : is_Finite X = true -> Rabs (real X) <= 79 / 100 -> Rabs (real X - b) <= E -> is_Finite (S X) = true /\ Rabs (real (S X) - sin b) <= D.
  Proof using HS HDS. intros F H1 H2. destruct (HS X F H1) as (FS & ES). split; [exact FS|]. pose proof (sin_near (real X) b). eapply Rle_trans; [apply (abs_split _ (sin (real X)) _ eS E); lra|lra]. Qed.
  Lemma near_C X b : is_Finite X = true -> Rabs (real X) <= 79 / 100 -> Rabs (real X - b) <= E -> is_Finite (C X) = true /\ Rabs (real (C X) - cos b) <= D.
  Proof using HC HDC HE. intros F H1 H2. destruct (HC X F H1) as (FC & EC). split; [exact FC|]. pose proof (cos_near (real X) b H1 ltac:(lra)). eapply Rle_trans; [apply (abs_split _ (cos (real X)) _ eC (72 / 100 * E)); lra|lra]. Qed.
  Lemma opp_near a b : Rabs (a - b) <= D -> Rabs (- a - - b) <= D.
  Proof. intros H. replace (- a - - b) with (- (a - b)) by ring. now rewrite Rabs_Ropp. Qed.
  Lemma finish_sin_ok (x : word w) f : folds E (Rabs (real x)) f -> is_Finite (finish_sin S C x f) = true /\ Rabs (real (finish_sin S C x f) - sin (real x)) <= D.
  Proof using Hw HS HC HE HDS HDC.
    destruct f as (r & q0). intros (N & N0 & F & R79 & RE & Q). cbn [fst snd] in *. subst q0. unfold finish_sin. set (b := Rabs (real x) - IZR N * (PI / 2)) in *.
    assert (SX : sin (Rabs (real x)) = turned (Z.land N 3) (sin b) (cos b)) by (rewrite <- (sin_turned b N N0); f_equal; unfold b; ring).
    destruct (quarter N N0) as (_ & q & QB & QE & _). rewrite QE in *. destruct (quadrants Hw q QB) as (-> & -> & _). destruct (near_S r b F R79 RE) as (FS & DS). destruct (near_C r b F R79 RE) as (FC & DC).
    assert (G : forall n : bool, n = (2 <=? q)%Z -> forall v, v = (if Z.even q then S r else C r) -> is_Finite v = true /\ Rabs ((if n then - real v else real v) - sin (Rabs (real x))) <= D).
    { intros n -> v ->. rewrite SX. assert (CQ : q = 0%Z \/ q = 1%Z \/ q = 2%Z \/ q = 3%Z) by lia. destruct CQ as [->|[->|[->| ->]]]; cbn [Z.even Z.leb Z.compare Pos.compare Pos.compare_cont turned]; split; auto using opp_near. }
    destruct (G _ eq_refl _ eq_refl) as (FV & DV). set (v := if Z.even q then S r else C r) in *. destruct (flip_real (xorb (negative x) (2 <=? q)%Z) v) as (-> & ->). split; [exact FV|].
    rewrite (real_sign Hw x) at 1. destruct (negative x); cbn [xorb].
    - replace (-1 * Rabs (real x)) with (- Rabs (real x)) by ring. rewrite sin_neg. destruct (2 <=? q)%Z; cbn [negb]; [rewrite <- (Ropp_involutive (real v)) at 1|]; now apply opp_near.
    - rewrite Rmult_1_l. destruct (2 <=? q)%Z; exact DV.
  Qed.
  Lemma finish_cos_ok (x : word w) f : folds E (Rabs (real x)) f -> is_Finite (finish_cos S C f) = true /\ Rabs (real (finish_cos S C f) - cos (real x)) <= D.
  Proof using Hw HS HC HE HDS HDC.
    destruct f as (r & q0). intros (N & N0 & F & R79 & RE & Q). cbn [fst snd] in *. subst q0. unfold finish_cos. set (b := Rabs (real x) - IZR N * (PI / 2)) in *.
    assert (SX : cos (Rabs (real x)) = turned (Z.land N 3) (cos b) (- sin b)) by (rewrite <- (cos_turned b N N0); f_equal; unfold b; ring).
    assert (CX : cos (real x) = cos (Rabs (real x))) by (unfold Rabs; destruct (Rcase_abs (real x)); [now rewrite cos_neg|reflexivity]). rewrite CX.
    destruct (quarter N N0) as (_ & q & QB & QE & _). rewrite QE in *. destruct (quadrants Hw q QB) as (-> & _ & ->). destruct (near_S r b F R79 RE) as (FS & DS). destruct (near_C r b F R79 RE) as (FC & DC).
    destruct (flip_real ((q =? 1) || (q =? 2))%Z (if Z.even q then C r else S r)) as (-> & ->). rewrite SX.
    assert (CQ : q = 0%Z \/ q = 1%Z \/ q = 2%Z \/ q = 3%Z) by lia. destruct CQ as [->|[->|[->| ->]]]; cbn [Z.even Z.eqb Pos.eqb orb turned]; split; auto using opp_near. now rewrite Ropp_involutive.
  Qed.
End F.

(** ** lanes *)
Definition fits8 (b : branch) (x : word 8) : Prop :=
  is_Finite x = true /\ match b with Bzero => Rabs (real x) <= 79 / 100 | Bsmall => Rabs (real x) <= 806 | Bmedium => Rabs (real x) <= 1073741824 | Blarge => False end.
Definition fits4 (b : branch_f) (x : word 4) : Prop :=
  is_Finite x = true /\ match b with Fzero => Rabs (real x) <= 79 / 100 | Ffloat => Rabs (real x) <= 26 | Fdouble => Rabs (real x) <= 527449 | Fwide b => fits8 b (to_double x) end.
Lemma of_int_0 {w} (Hw : fp_width w) : w0 w = of_int w 0. Proof. destruct Hw as [->| ->]; apply word_ext; vm_compute; reflexivity. Qed.
Lemma folds_0 {w} (Hw : fp_width w) E (x : word w) : is_Finite x = true -> Rabs (real x) <= 79 / 100 -> 0 <= E -> folds E (Rabs (real x)) (l_abs x, w0 w).
Proof.
  intros F H E0. destruct (abs_real Hw x F) as (FA & RA). exists 0%Z. cbn [fst snd]. rewrite RA. repeat split; auto; [lia| | |apply (of_int_0 Hw)].
  - rewrite Rabs_Rabsolu. exact H.
  - rewrite Rmult_0_l, Rminus_0_r, Rminus_eq_0, Rabs_R0. exact E0.
Qed.
Lemma lane8_ok b (x : word 8) : fits8 b x -> folds E8f (Rabs (real x)) (lane8 b (l_abs x)).
Proof.
  intros (F & H). destruct (abs_real fp8 x F) as (FA & RA). pose proof (Rabs_pos (real x)) as R0. destruct b; cbn [lane8].
  - apply (folds_0 fp8); auto. unfold E8f. lra.
  - rewrite <- RA. apply fold8_small_ok; [exact FA|rewrite RA; lra].
  - rewrite <- RA. apply fold8_medium_ok; [exact FA|rewrite RA; lra].
  - contradiction.
Qed.
Lemma sin8_lane_ok b x : fits8 b x -> is_Finite (sin8_lane b x) = true /\ Rabs (real (sin8_lane b x) - sin (real x)) <= / 2251799813685248.
Proof. intros H. apply (finish_sin_ok fp8 sin_series8 cos_series8 _ _ E8f _ sin_app8 cos_app8); [unfold E8f; lra..|]. now apply lane8_ok. Qed.
Lemma cos8_lane_ok b x : fits8 b x -> is_Finite (cos8_lane b x) = true /\ Rabs (real (cos8_lane b x) - cos (real x)) <= / 2251799813685248.
Proof. intros H. apply (finish_cos_ok fp8 sin_series8 cos_series8 _ _ E8f _ sin_app8 cos_app8); [unfold E8f; lra..|]. now apply lane8_ok. Qed.
Lemma lane4_ok b (x : word 4) : fits4 b x -> (forall b', b <> Fwide b') -> folds E4 (Rabs (real x)) (lane4 b (l_abs x)).
Proof.
  intros (F & H) NW. destruct (abs_real fp4 x F) as (FA & RA). pose proof (Rabs_pos (real x)) as R0. destruct b; cbn [lane4].
  - apply (folds_0 fp4); auto. unfold E4. lra.
  - apply folds_weak with E4f; [|unfold E4f, E4; lra]. rewrite <- RA. apply fold4_float_ok; [exact FA|rewrite RA; lra].
  - now apply fold4_double_ok.
  - now destruct (NW b).
Qed.
Lemma narrow_ok (y : word 8) r : Rabs r <= 1 -> is_Finite y = true /\ Rabs (real y - r) <= / 2251799813685248 -> is_Finite (to_float y) = true /\ Rabs (real (to_float y) - r) <= / 4194304.
Proof.
  intros R1 (F & D). assert (YB : Rabs (real y) <= 1001 / 1000) by (replace (real y) with ((real y - r) + r) by ring; eapply Rle_trans; [apply Rabs_triang|lra]).
  destruct (to_float_real y F ltac:(lra)) as (F' & D'). split; [exact F'|]. eapply Rle_trans; [apply (abs_split _ _ _ _ _ D' D)|lra].
Qed.
Lemma sin_1 r : Rabs (sin r) <= 1. Proof. destruct (SIN_bound r). apply Rabs_le. lra. Qed.
Lemma cos_1 r : Rabs (cos r) <= 1. Proof. destruct (COS_bound r). apply Rabs_le. lra. Qed.
Lemma sin4_lane_ok b x : fits4 b x -> is_Finite (sin4_lane b x) = true /\ Rabs (real (sin4_lane b x) - sin (real x)) <= / 4194304.
Proof.
  intros H. destruct b as [| | |b]; cbn [sin4_lane]; [apply (finish_sin_ok fp4 sin_series4 cos_series4 _ _ E4 _ sin_app4 cos_app4); [unfold E4; lra..|]; apply lane4_ok; [exact H|discriminate]..|].
  destruct H as (F & H). destruct (to_double_real x F) as (_ & <-). apply narrow_ok; [apply sin_1|]. now apply sin8_lane_ok.
Qed.
Lemma cos4_lane_ok b x : fits4 b x -> is_Finite (cos4_lane b x) = true /\ Rabs (real (cos4_lane b x) - cos (real x)) <= / 4194304.
Proof.
  intros H. destruct b as [| | |b]; cbn [cos4_lane]; [apply (finish_cos_ok fp4 sin_series4 cos_series4 _ _ E4 _ sin_app4 cos_app4); [unfold E4; lra..|]; apply lane4_ok; [exact H|discriminate]..|].
  destruct H as (F & H). destruct (to_double_real x F) as (_ & <-). apply narrow_ok; [apply cos_1|]. now apply cos8_lane_ok.
Qed.

(** ** vectors *)
Lemma flt_real {w} (Hw : fp_width w) (a b : word w) : flt a b = true -> real a <= real b.
Proof.
  rewrite (flt_ok Hw). unfold float_lt. intros H. apply andb_prop in H. destruct H as (_ & H). apply Z.ltb_lt in H. rewrite !(real_eq Hw). pose proof (IUpos Hw). apply Rmult_le_compat_r; [left; now apply Rinv_0_lt_compat|]. apply IZR_le. lia.
Qed.
Lemma within_real {w} (Hw : fp_width w) b (x : word w) : within b x -> is_Finite x = true /\ Rabs (real x) <= IZR b.
Proof.
  intros (F & H). split; [exact F|]. rewrite (fone_units Hw) in H. apply IZR_le in H. rewrite abs_IZR, mult_IZR in H. pose proof (IUpos Hw) as IU. rewrite (real_eq Hw). unfold Rdiv. rewrite Rabs_mult, (Rabs_pos_eq (/ IZR (one_units w))) by (left; now apply Rinv_0_lt_compat).
  apply (Rmult_le_reg_r (IZR (one_units w))); [lra|]. rewrite Rmult_assoc, Rinv_l, Rmult_1_r by lra. exact H.
Qed.
Lemma c806 : real (fmul (of_int 8 1025) (pi_4 8)) <= 806.
Proof. apply (le_real fp8). apply Z.leb_le. vm_compute. reflexivity. Qed.
Lemma c79_8 : real (pi_4 8) <= 79 / 100.
Proof. rewrite (real_frac fp8 _ 884279719003555 1125899906842624); [lra|reflexivity|vm_compute; reflexivity]. Qed.
Lemma c79_4 : real (pi_4 4) <= 79 / 100.
Proof. rewrite (real_frac fp4 _ 13176795 16777216); [lra|reflexivity|vm_compute; reflexivity]. Qed.
Lemma c26 : real (fmul (of_int 4 33) (pi_4 4)) <= 26.
Proof. apply (le_real fp4). apply Z.leb_le. vm_compute. reflexivity. Qed.
Lemma all_abs {w} (f : word w -> bool) (xs : list (word w)) x : forallb f (map l_abs xs) = true -> In x xs -> f (l_abs x) = true.
Proof. intros H I. rewrite forallb_forall in H. apply H, in_map, I. Qed.
Lemma branch8_fits (xs : list (word 8)) x : Forall (within (2 ^ 30)) xs -> In x xs -> fits8 (branch8 (map l_abs xs)) x.
Proof.
  intros W I. rewrite Forall_forall in W. destruct (within_real fp8 _ x (W x I)) as (F & B). split; [exact F|]. destruct (abs_real fp8 x F) as (FA & RA). unfold branch8.
  destruct (forallb (fun x => flt x (pi_4 8)) (map l_abs xs)) eqn:E1.
  { pose proof (flt_real fp8 _ _ (all_abs _ _ _ E1 I)). rewrite <- RA. pose proof c79_8. lra. }
  destruct (forallb (fun x => flt x (fmul (of_int 8 1025) (pi_4 8))) (map l_abs xs)) eqn:E2.
  { pose proof (flt_real fp8 _ _ (all_abs _ _ _ E2 I)). rewrite <- RA. pose proof c806. lra. }
  assert (E3 : forallb (fun x => fle (turns8 x) (f8 1 0 30)) (map l_abs xs) = true).
  { apply forallb_forall. intros a Ha. apply in_map_iff in Ha. destruct Ha as (z & <- & Iz). destruct (within_real fp8 _ z (W z Iz)) as (Fz & Bz). destruct (abs_real fp8 z Fz) as (Fa & Ra). pose proof (Rabs_pos (real z)).
    change (IZR (2 ^ 30)) with 1073741824 in Bz. destruct (turns8_ok (l_abs z) Fa ltac:(rewrite Ra; lra)) as (N & N0 & FT & VT & _ & _ & NL). rewrite Ra in NL.
    assert (NB : (N <= 2 ^ 30)%Z) by (apply int_le; change (IZR (2 ^ 30)) with 1073741824; lra).
    rewrite (fle_ok fp8). unfold float_le, ordered. rewrite (nan_ok fp8), (finite_not_nan fp8 _ FT). apply andb_true_intro. split; [vm_compute; reflexivity|]. apply Z.leb_le. rewrite VT. change (fvalue (f8 1 0 30)) with (2 ^ 30 * one_units 8)%Z. apply Z.mul_le_mono_nonneg_r; [pose proof (one_units_pos fp8); lia|exact NB]. }
  rewrite E3. exact B.
Qed.
Lemma sin8_vec xs i : Forall (within (2 ^ 30)) xs -> an_entry xs i -> accurate (entry (sin8 xs) i) (sin (real (entry xs i))) (/ 2 ^ 51) /\ accurate (entry (cos8 xs) i) (cos (real (entry xs i))) (/ 2 ^ 51).
Proof.
  intros W Hi. unfold an_entry in Hi. unfold entry, accurate. rewrite !znth_in by (rewrite ?cos8_length, ?sin8_length; lia). rewrite sin8_map, cos8_map.
  rewrite !(nth_map _ xs (Z.to_nat i) (w0 8) (w0 8)) by lia. pose proof (branch8_fits xs _ W (nth_In xs (w0 8) (n := Z.to_nat i) ltac:(lia))) as H. replace (2 ^ 51) with 2251799813685248 by ring.
  split; [now apply sin8_lane_ok|now apply cos8_lane_ok].
Qed.
Lemma not_large c limit xs x : any_large c limit xs = false -> In x xs -> is_Finite x = true -> is_nan (of_int 4 limit) = false -> fvalue (of_int 4 limit) = (limit * one_units 4)%Z -> Rabs (real x) <= IZR limit.
Proof.
  intros H I F N V. destruct (abs_real fp4 x F) as (FA & RA). unfold any_large in H. assert (G : l_ge c (l_abs x) (of_int 4 limit) = false).
  { destruct (l_ge c (l_abs x) (of_int 4 limit)) eqn:E; [|reflexivity]. rewrite <- H. symmetry. apply existsb_exists. now exists x. }
  unfold l_ge, unordered in G. rewrite (finite_not_nan fp4 _ FA), N in G. cbn [orb] in G. rewrite (fle_ok fp4) in G. unfold float_le, ordered in G. rewrite !(nan_ok fp4), N, (finite_not_nan fp4 _ FA) in G. cbn [negb andb] in G. apply Z.leb_gt in G. rewrite V in G.
  rewrite <- RA. apply (le_real fp4). lia.
Qed.
Lemma within_double b x : within b x -> within b (to_double x).
Proof.
  intros (F & H). destruct (to_double_ok x F) as (F' & V & _). split; [exact F'|]. rewrite V, Z.abs_mul, (Z.abs_eq (2 ^ 925)) by (vm_compute; discriminate). rewrite (fone_units fp4) in H. rewrite (fone_units fp8), <- fone48, Z.mul_assoc. apply Z.mul_le_mono_nonneg_r; [vm_compute; discriminate|exact H].
Qed.
Lemma in_half xs i : (i < length xs)%nat -> In (nth i xs (w0 4)) (if (i <? length xs / 2)%nat then lower_half xs else upper_half xs).
Proof.
  intros H. rewrite (nth_halves xs i (w0 4)). assert (Hd : (length xs / 2 <= length xs)%nat) by (apply Nat.div_le_upper_bound; lia). destruct (Nat.ltb_spec i (length xs / 2)); apply nth_In; unfold lower_half, upper_half; rewrite ?firstn_length, ?skipn_length; lia.
Qed.
Lemma half_in xs (b : bool) (x : word 4) : In x (if b then lower_half xs else upper_half xs) -> In x xs.
Proof. rewrite <- (firstn_skipn (length xs / 2) xs) at 3. rewrite in_app_iff. destruct b; auto. Qed.
Lemma branch4_fits (large : bool) limit c xs i : Forall (within (2 ^ 30)) xs -> (i < length xs)%nat -> any_large c limit xs = large -> (limit <= 527449)%Z -> is_nan (of_int 4 limit) = false -> fvalue (of_int 4 limit) = (limit * one_units 4)%Z ->
  fits4 (branch4_at large xs i) (nth i xs (w0 4)).
Proof.
  intros W Hi HL LL NL VL. assert (I : In (nth i xs (w0 4)) xs) by (now apply nth_In). pose proof W as W'. rewrite Forall_forall in W'. destruct (within_real fp4 _ _ (W' _ I)) as (F & B). split; [exact F|]. unfold branch4_at. destruct large.
  - apply branch8_fits; [|now apply in_map, in_half]. apply Forall_forall. intros z Hz. apply in_map_iff in Hz. destruct Hz as (y & <- & Hy). apply within_double, W'. exact (half_in _ _ _ Hy).
  - destruct (abs_real fp4 _ F) as (FA & RA). unfold branch4. destruct (forallb (fun x => flt x (pi_4 4)) (map l_abs xs)) eqn:E1.
    { pose proof (flt_real fp4 _ _ (all_abs _ _ _ E1 I)). rewrite <- RA. pose proof c79_4. lra. }
    destruct (forallb (fun x => flt x (fmul (of_int 4 33) (pi_4 4))) (map l_abs xs)) eqn:E2.
    { pose proof (flt_real fp4 _ _ (all_abs _ _ _ E2 I)). rewrite <- RA. pose proof c26. lra. }
    pose proof (not_large c limit xs _ HL I F NL VL). apply IZR_le in LL. lra.
Qed.
Lemma sin4_vec c xs i : Forall (within (2 ^ 30)) xs -> an_entry xs i -> accurate (entry (sin4 c xs) i) (sin (real (entry xs i))) (/ 2 ^ 22) /\ accurate (entry (cos4 c xs) i) (cos (real (entry xs i))) (/ 2 ^ 22).
Proof.
  intros W Hi. unfold an_entry in Hi. unfold entry, accurate. rewrite !znth_in by (rewrite ?cos4_length, ?sin4_length; lia). rewrite (sin4_nth c xs _ (w0 4)), (cos4_nth c xs _ (w0 4)) by lia. replace (2 ^ 22) with 4194304 by ring.
  split; [apply sin4_lane_ok|apply cos4_lane_ok]; eapply branch4_fits; try reflexivity; auto; try lia; vm_compute; congruence.
Qed.
(** sincos chooses one path for both results *)
Lemma sincos4_vec c xs i : Forall (within (2 ^ 30)) xs -> an_entry xs i ->
  accurate (entry (fst (sincos4 c xs)) i) (sin (real (entry xs i))) (/ 2 ^ 22) /\ accurate (entry (snd (sincos4 c xs)) i) (cos (real (entry xs i))) (/ 2 ^ 22).
Proof.
  intros W Hi. split.
  - unfold an_entry in Hi. assert (FT : fits4 (branch4_at (any_large c 393382 xs) xs (Z.to_nat i)) (nth (Z.to_nat i) xs (w0 4))) by (eapply branch4_fits; try reflexivity; auto; try lia; vm_compute; congruence).
    assert (E : nth (Z.to_nat i) (fst (sincos4 c xs)) (w0 4) = sin4_lane (branch4_at (any_large c 393382 xs) xs (Z.to_nat i)) (nth (Z.to_nat i) xs (w0 4))).
    { unfold sincos4, branch4_at. destruct (any_large c 393382 xs); cbn [fst].
      - now rewrite (in_double_nth _ sin8_lane) by (try lia; exact sin8_map).
      - rewrite fold4_lane, map2_self. set (b := branch4 _). rewrite (nth_map _ xs _ (w0 4)) by lia. unfold sin4_lane. destruct b eqn:E; auto. destruct (branch4_narrow _ _ E). }
    assert (L : length (fst (sincos4 c xs)) = length xs).
    { unfold sincos4. destruct (any_large c 393382 xs); cbn [fst]; [apply (in_double_length _ sin8_lane), sin8_map|]. now rewrite fold4_lane, map2_self, map_length. }
    unfold entry, accurate. rewrite !znth_in by (rewrite ?L; lia). rewrite E. replace (2 ^ 22) with 4194304 by ring. now apply sin4_lane_ok.
  - replace (snd (sincos4 c xs)) with (cos4 c xs); [now apply sin4_vec|]. unfold sincos4, cos4. destruct (any_large c 393382 xs); reflexivity.
Qed.
