(** asin of every number between -1 and 1. *)
From Coq Require Import ZArith Reals List Bool Lia Lra Psatz.
From Verif.Spec Require Import FloatSpec RoundSpec AccuracySpec.
From Verif.Model Require Import Word Fp FpArith ScalarMath Transcend.
From Verif.Proof Require Import WordP FpP FpArithP FpIntP ScalarMathP Transcend2P RealErrP SeriesP ExpRealP RealOpsP FoldP AccuracyP LogOpsP AtanAccP SqrtP AsinRealP AsinSerP.
From Coq Require Import Ratan.
Import ListNotations.
Local Open Scope R_scope.
Section A.
  Context {w : nat} (Hw : fp_width w).
  Lemma one_real : is_Finite (one w) = true /\ fvalue (one w) = one_units w /\ real (one w) = 1.
  Proof using Hw.
    assert (F : is_Finite (one w) = true) by (destruct Hw as [->| ->]; reflexivity). assert (V : fvalue (one w) = one_units w) by (destruct Hw as [->| ->]; vm_compute; reflexivity).
    split; [exact F|]. split; [exact V|]. rewrite (real_eq Hw), V. pose proof (IUpos Hw). field. lra.
  Qed.
  Lemma grid_low (A : word w) : is_Finite A = true -> 1 / 2 <= real A <= 1 -> exists k, (0 <= k < 2 ^ (mant_bits w + 1))%Z /\ (one_units w - fvalue A = k * 2 ^ (unit_exp w - mant_bits w - 1))%Z.
  Proof using Hw.
    intros F (L & H). destruct (grid Hw A F L) as (k & K). destruct (exps Hw) as (P & E & T & _). pose proof (IUpos Hw) as IU. set (g := (2 ^ (unit_exp w - mant_bits w - 1))%Z) in *. assert (G : (0 < g)%Z) by (apply Z.pow_pos_nonneg; lia).
    assert (U1 : one_units w = (2 ^ (mant_bits w + 1) * g)%Z) by (unfold g, one_units; rewrite <- Z.pow_add_r by lia; f_equal; lia).
    rewrite (real_eq Hw) in L, H. assert (L' : (fvalue A <= one_units w)%Z). { apply le_IZR. apply (Rmult_le_compat_r (IZR (one_units w))) in H; [|lra]. unfold Rdiv in H. rewrite Rmult_assoc, Rinv_l in H; lra. }
    assert (H' : (0 < fvalue A)%Z). { apply lt_IZR. apply (Rmult_le_compat_r (IZR (one_units w))) in L; [|lra]. unfold Rdiv in L. rewrite (Rmult_assoc (IZR (fvalue A))), Rinv_l in L; lra. }
    exists (2 ^ (mant_bits w + 1) - k)%Z. rewrite K in *. rewrite U1 in *. split; [nia|ring].
  Qed.
  Lemma one_minus (A : word w) : is_Finite A = true -> 1 / 2 <= real A <= 1 -> is_Finite (fsub (one w) A) = true /\ fvalue (fsub (one w) A) = (one_units w - fvalue A)%Z /\ real (fsub (one w) A) = 1 - real A.
  Proof using Hw.
    intros F H. destruct one_real as (F1 & V1 & R1). destruct (grid_low A F H) as (k & K & E). destruct (exps Hw) as (P & UE & T & _).
    assert (RP : repr (w := w) (Z.abs (fvalue (one w) - fvalue A))).
    { rewrite V1. rewrite E. clear - K P UE T Hw. rewrite Z.abs_eq; [|apply Z.mul_nonneg_nonneg; [lia|apply Z.pow_nonneg; lia]]. apply (repr_pow Hw); [exact K|lia|lia]. }
    destruct (sub_exact Hw (one w) A F1 F RP) as (G1 & G2 & G3).
    rewrite V1 in G2. rewrite R1 in G3. exact (conj G1 (conj G2 G3)).
  Qed.
  Lemma half_minus (A : word w) : is_Finite A = true -> 1 / 2 <= real A <= 1 -> is_Finite (fmul (fsub (one w) A) (half w)) = true /\ real (fmul (fsub (one w) A) (half w)) = (1 - real A) / 2.
  Proof using Hw.
    intros F H. destruct (one_minus A F H) as (G1 & G2 & G3). destruct (grid_low A F H) as (k & K & E). destruct (exps Hw) as (P & UE & T & _). replace (half w) with (s_half w) by (clear - Hw; apply word_ext; destruct Hw as [->| ->]; vm_compute; reflexivity).
    assert (E2 : (one_units w - fvalue A = 2 * (k * 2 ^ (unit_exp w - mant_bits w - 2)))%Z) by (rewrite E; replace (unit_exp w - mant_bits w - 1)%Z with (1 + (unit_exp w - mant_bits w - 2))%Z by lia; rewrite Z.pow_add_r by lia; ring).
    destruct (half_product Hw (fsub (one w) A) (k * 2 ^ (unit_exp w - mant_bits w - 2)) G1) as (X & Y); [now rewrite G2|rewrite Z.abs_eq by (apply Z.mul_nonneg_nonneg; [lia|apply Z.pow_nonneg; lia]); apply (repr_pow Hw); [exact K|lia|lia]|].
    split; [exact X|]. rewrite <- G3, !(real_eq Hw), Y, G2, E2, (mult_IZR 2). field. pose proof (IUpos Hw). lra.
  Qed.
  Lemma double_real (Z : word w) : is_Finite Z = true -> Rabs (real Z) <= 4 -> is_Finite (fadd Z Z) = true /\ real (fadd Z Z) = 2 * real Z.
  Proof using Hw.
    intros F H. pose proof (IUpos Hw) as IU. rewrite (real_abs Hw) in H. assert (L : (fabs_value Z <= 4 * one_units w)%Z). { apply le_IZR. rewrite mult_IZR. apply (Rmult_le_compat_r (IZR (one_units w))) in H; [|lra]. unfold Rdiv in H. rewrite Rmult_assoc, Rinv_l in H; lra. }
    destruct (exps Hw) as (P & UE & T & _). destruct (fadd_repr Hw Z Z F F) as (G1 & G2 & _).
    - replace (Z.abs (fvalue Z + fvalue Z)) with (fabs_value Z * 2 ^ 1)%Z by (rewrite (fabs_abs Hw); lia). apply repr_scale; [lia|now apply finite_repr|]. eapply Z.le_lt_trans with (2 ^ (3 + unit_exp w))%Z; [|apply Z.pow_lt_mono_r; lia]. rewrite Z.pow_add_r by lia. unfold one_units in L. lia.
    - split; [exact G1|]. rewrite !(real_eq Hw), G2, plus_IZR. field. lra.
  Qed.
  (** x + tau x, as computed from a slightly wrong x *)
  Lemma asin_fin (M X T : word w) b tau B E kap dl ec : is_Finite T = true -> is_Finite X = true -> 0 <= b <= 1 -> 0 <= tau <= B -> Rabs (real T - tau) <= E -> Rabs (real X - b) <= dl * b -> B <= 1 -> 0 <= E <= 1 / 8 -> 0 <= kap <= 1 / 8 -> 0 <= dl <= 1 / 8 ->
    Rabs (b * tau + b - asin b) <= kap * asin b -> (Rabs (real T * real X) <= B70 -> is_Finite M = true /\ Rabs (real M - real T * real X) <= uu (w := w) * Rabs (real T * real X) + eta (w := w)) ->
    (E + uu (w := w) * (B + E)) * (1 + dl) + dl * (1 + B) + kap <= ec -> ec <= 1 / 4 ->
    is_Finite (fadd M X) = true /\ Rabs (real (fadd M X) - asin b) <= ec * asin b + eta (w := w) + uu (w := w) * (asin b + (ec * asin b + eta (w := w))).
  Proof using Hw.
    intros FT FX B1 BT ET EX BB E0 K0 D0 AP HM EC E1. pose proof (uu_pos Hw) as U. pose proof (eta_pos Hw) as P. pose proof B70_big. pose proof (eta_le Hw) as EL. set (x := real X) in *. pose proof (asin_ge b B1) as AG. pose proof (asin_pos b B1) as AB. pose proof pi_num as PN.
    assert (TA : Rabs (real T) <= B + E) by (replace (real T) with (tau + (real T - tau)) by ring; eapply Rle_trans; [apply Rabs_triang|rewrite (Rabs_pos_eq tau) by lra; lra]).
    assert (XA : Rabs x <= (1 + dl) * b) by (replace x with (b + (x - b)) by ring; eapply Rle_trans; [apply Rabs_triang|rewrite (Rabs_pos_eq b) by lra; lra]).
    assert (X2 : (1 + dl) * b <= 2) by nra. pose proof (Rabs_pos x) as XP. pose proof (Rabs_pos (real T)) as TP.
    destruct HM as (FM & EM); [rewrite Rabs_mult; nra|].
    assert (D : Rabs (real M + x - asin b) <= ((E + uu (w := w) * (B + E)) * (1 + dl) + dl * (1 + B)) * b + kap * asin b + eta (w := w)).
    { replace (real M + x - asin b) with ((real M - real T * x) + ((real T - tau) * x + ((x - b) * (1 + tau) + (b * tau + b - asin b)))) by ring.
      eapply Rle_trans; [apply Rabs_triang|]. pose proof (Rabs_triang ((real T - tau) * x) ((x - b) * (1 + tau) + (b * tau + b - asin b))) as T2. pose proof (Rabs_triang ((x - b) * (1 + tau)) (b * tau + b - asin b)) as T3. rewrite (Rabs_mult (real T - tau)) in T2. rewrite (Rabs_mult (x - b)), (Rabs_pos_eq (1 + tau)) in T3 by lra. rewrite Rabs_mult in EM.
      assert (Q1 : Rabs (real T - tau) * Rabs x <= E * ((1 + dl) * b)) by (apply Rmult_le_compat; auto using Rabs_pos). assert (Q2 : Rabs (x - b) * (1 + tau) <= dl * b * (1 + B)) by (apply Rmult_le_compat; auto using Rabs_pos; lra).
      assert (Q3 : uu (w := w) * (Rabs (real T) * Rabs x) <= uu (w := w) * ((B + E) * ((1 + dl) * b))) by (apply Rmult_le_compat_l; [lra|]; apply Rmult_le_compat; lra). lra. }
    set (k := (E + uu (w := w) * (B + E)) * (1 + dl) + dl * (1 + B)) in *. assert (K1 : 0 <= k) by (unfold k; assert (0 <= uu (w := w) * (B + E)) by (apply Rmult_le_pos; lra); assert (0 <= (E + uu (w := w) * (B + E)) * (1 + dl)) by (apply Rmult_le_pos; lra); assert (0 <= dl * (1 + B)) by (apply Rmult_le_pos; lra); lra).
    assert (D' : Rabs (real M + x - asin b) <= ec * asin b + eta (w := w)) by (eapply Rle_trans; [exact D|]; assert (k * b <= k * asin b) by (apply Rmult_le_compat_l; lra); assert ((k + kap) * asin b <= ec * asin b) by (apply Rmult_le_compat_r; lra); lra).
    assert (EA : ec * asin b <= 1 / 4 * asin b) by (apply Rmult_le_compat_r; lra).
    destruct (final_add Hw M X (asin b) _ FM FX D') as (F & R); [rewrite Rabs_pos_eq by lra; lra|lra|]. split; [exact F|]. rewrite (Rabs_pos_eq (asin b)) in R by lra. exact R.
  Qed.
End A.
(** ** float *)
Lemma half_real4 : is_Finite (half 4) = true /\ real (half 4) = 1 / 2.
Proof. split; [reflexivity|]. exact (const_real fp4 (half 4) 1 2 eq_refl eq_refl eq_refl). Qed.
Lemma small_real4 : is_Finite small_asin4 = true /\ real small_asin4 = 13743895 / 137438953472.
Proof. split; [reflexivity|]. exact (const_real fp4 small_asin4 13743895 137438953472 eq_refl eq_refl eq_refl). Qed.
Definition asin_core4 (Z X : word 4) : word 4 := fadd (fmul (asin_t4 Z) X) X.
Lemma asin_core_ok4 Z X b dl : app Z (b * b) (1 / 4) (752509 / 50000000000000) -> is_Finite X = true -> 0 <= b <= 1 / 2 -> 0 <= dl <= / 16000000 -> Rabs (real X - b) <= dl * b ->
  is_Finite (asin_core4 Z X) = true /\ Rabs (real (asin_core4 Z X) - asin b) <= (dl * (106 / 100) + 458 / 100 * / 16777216) * asin b + 2 * eta (w := 4).
Proof.
  intros HZ FX HB HD EX. assert (Y : 0 <= b * b <= 1 / 4) by nra. destruct (asin_t_ok4 Z (b * b) HZ Y) as (FT & _ & ET). pose proof (tau_low4 (b * b) Y) as TL. pose proof (asin_poly4 b HB) as AP. pose proof (eta_pos fp4) as E0. pose proof (eta_le fp4) as E1.
  destruct (asin_fin fp4 (fmul (asin_t4 Z) X) X (asin_t4 Z) b (tau4 (b * b)) (6 / 125) (385643 / 40000000000000) (39877 / 200000000000) dl (dl * (105 / 100) + 3556 / 1000 * / 16777216) FT FX) as (F & R); auto; try lra.
  - intros BB. exact (fmul_real fp4 _ _ FT FX BB).
  - rewrite u4. lra.
  - split; [exact F|]. unfold asin_core4. eapply Rle_trans; [exact R|]. rewrite u4. pose proof (asin_pos b ltac:(lra)) as A0. set (v := asin b) in *. clearbody v. clear - A0 HD E0 E1. set (e := eta (w := 4)) in *. clearbody e.
    assert (Q : dl * v <= / 16000000 * v) by (apply Rmult_le_compat_r; lra). assert (Q0 : 0 <= dl * v) by (apply Rmult_le_pos; lra). lra.
Qed.
Lemma asin_direct4 (A : word 4) : is_Finite A = true -> 1 / 20000 <= real A <= 1 / 2 -> is_Finite (asin_core4 (fmul A A) A) = true /\ Rabs (real (asin_core4 (fmul A A) A) - asin (real A)) <= / 1048576 * asin (real A).
Proof.
  intros F HA. set (a := real A) in *. pose proof B70_big as BB. pose proof (eta_le fp4) as EL. pose proof (eta_pos fp4) as EP.
  destruct (fmul_real fp4 A A F F) as (FM & EM); [fold a; rewrite Rabs_pos_eq by nra; nra|]. fold a in EM. rewrite u4, (Rabs_pos_eq (a * a)) in EM by nra.
  assert (HZ : app (fmul A A) (a * a) (1 / 4) (752509 / 50000000000000)) by (split; [exact FM|]; split; [rewrite Rabs_pos_eq by nra; nra|eapply Rle_trans; [exact EM|]; assert (a * a <= 1 / 4) by nra; lra]).
  destruct (asin_core_ok4 (fmul A A) A a 0 HZ F) as (G1 & G2); [lra|lra|fold a; unfold Rminus; rewrite Rplus_opp_r, Rabs_R0; lra|]. split; [exact G1|]. eapply Rle_trans; [exact G2|]. pose proof (asin_ge a ltac:(lra)). lra.
Qed.
Lemma asin_large4 (A : word 4) : is_Finite A = true -> 1 / 2 <= real A <= 1 ->
  let z := fmul (fsub (one 4) A) (half 4) in let r := asin_core4 z (fsqrt z) in is_Finite (fsub (pi_2 4) (fadd r r)) = true /\ Rabs (real (fsub (pi_2 4) (fadd r r)) - asin (real A)) <= / 1048576 * asin (real A).
Proof.
  intros F HA z r. pose proof B70_big as BB. pose proof (eta_le fp4) as EL. pose proof (eta_pos fp4) as EP. pose proof pi_num as PN. destruct (half_minus fp4 A F HA) as (FZ & RZ). fold z in FZ, RZ. set (a := real A) in *.
  destruct (fsqrt_real fp4 z FZ) as (FS & ES); [rewrite RZ; lra|]. rewrite RZ in ES. destruct (upper_root a 0 ltac:(lra) ltac:(lra)) as (B0 & B2 & B1). pose proof (asin_upper a ltac:(lra)) as AU. cbv zeta in AU. set (b := sqrt ((1 - a) / 2)) in *. clearbody b.
  assert (HB : 0 <= b <= 1 / 2) by nra. rewrite u4 in ES. change (IZR (2 ^ 73)) with (IZR 9444732965739290427392) in ES.
  destruct (asin_core_ok4 z (fsqrt z) b (/ 16777216 + / 9444732965739290427392)) as (G1 & G2); [|exact FS|exact HB|lra|exact ES|].
  { split; [exact FZ|]. split; [rewrite Rabs_pos_eq by nra; nra|]. rewrite RZ, B2. unfold Rminus. rewrite Rplus_opp_r, Rabs_R0. lra. }
  fold r in G1, G2. pose proof (asin_mono b (1 / 2) ltac:(lra) ltac:(lra) ltac:(lra)) as AM. rewrite asin_half in AM. pose proof (asin_pos b ltac:(lra)) as AP. set (v := asin b) in *. clearbody v.
  assert (G2' : Rabs (real r - v) <= 297 / 100 * / 16777216) by (eapply Rle_trans; [exact G2|]; assert (v <= 5236 / 10000) by lra; assert (((/ 16777216 + / 9444732965739290427392) * (106 / 100) + 458 / 100 * / 16777216) * v <= ((/ 16777216 + / 9444732965739290427392) * (106 / 100) + 458 / 100 * / 16777216) * (5236 / 10000)) by (apply Rmult_le_compat_l; lra); lra).
  clear G2. destruct (double_real fp4 r G1) as (D1 & D2); [apply abs_le_inv in G2'; apply Rabs_le; lra|].
  destruct pi2_real4 as (FP & RP). destruct (fsub_real fp4 (pi_2 4) (fadd r r) FP D1) as (H1 & H2); [rewrite RP, D2; apply abs_le_inv in G2'; apply Rabs_le; lra|]. split; [exact H1|]. rewrite RP, D2, u4 in H2.
  assert (LO : PI / 6 <= asin a) by (rewrite <- asin_half; apply asin_mono; lra). set (y := real (fsub (pi_2 4) (fadd r r))) in *. set (q := real r) in *. clearbody y q. rewrite AU in *. clear - H2 G2' AM AP LO PN.
  apply abs_le_inv in G2'. assert (Q : Rabs (13176795 / 8388608 - 2 * q) <= (PI / 2 - 2 * v) + 8 * / 16777216) by (apply Rabs_le; lra). apply abs_le_inv in H2. apply Rabs_le. lra.
Qed.
Lemma asin_small4 a : 0 <= a <= 10001 / 100000000 -> Rabs (a - asin a) <= / 16777216 * asin a.
Proof.
  intros A. pose proof (asin_ge a ltac:(lra)) as G. pose proof (asin_lip 0 (10001 / 100000000) (1 + / 50000000) ltac:(lra) ltac:(lra) ltac:(lra) ltac:(lra) a A) as L. rewrite asin_0 in L. apply Rabs_le. lra.
Qed.
Lemma asin_body_eq4 c A : asin_body4 c A = if flt A small_asin4 then A else if l_gt c A (half 4) then fsub (pi_2 4) (fadd (asin_core4 (fmul (fsub (one 4) A) (half 4)) (fsqrt (fmul (fsub (one 4) A) (half 4)))) (asin_core4 (fmul (fsub (one 4) A) (half 4)) (fsqrt (fmul (fsub (one 4) A) (half 4))))) else asin_core4 (fmul A A) A.
Proof. unfold asin_body4, asin_core4, asin_t4. cbv zeta. destruct (flt A small_asin4), (l_gt c A (half 4)); cbn [l_set]; reflexivity. Qed.
Lemma asin_body_ok4 c (A : word 4) : is_Finite A = true -> 0 <= real A <= 1 -> is_Finite (asin_body4 c A) = true /\ Rabs (real (asin_body4 c A) - asin (real A)) <= / 1048576 * asin (real A).
Proof.
  intros F HA. destruct half_real4 as (FH & RH). destruct small_real4 as (FS & RS). pose proof (asin_pos (real A) HA) as AP. rewrite asin_body_eq4.
  rewrite (lt_num fp4 A small_asin4 (finite_not_nan fp4 A F) eq_refl). destruct (Z.ltb_spec (fvalue A) (fvalue small_asin4)) as [L|L].
  - split; [exact F|]. assert (L' : real A < 13743895 / 137438953472) by (rewrite <- RS, !(real_eq fp4); pose proof (IUpos fp4); apply IZR_lt in L; apply Rmult_lt_compat_r; [now apply Rinv_0_lt_compat|exact L]).
    eapply Rle_trans; [apply asin_small4; lra|]. apply Rmult_le_compat_r; lra.
  - assert (L' : 13743895 / 137438953472 <= real A) by (rewrite <- RS, !(real_eq fp4); pose proof (IUpos fp4); apply IZR_le in L; apply Rmult_le_compat_r; [left; now apply Rinv_0_lt_compat|exact L]).
    destruct (gt_real fp4 c A (half 4) F FH) as [(EH & BH)|(EH & BH)]; rewrite RH in BH; rewrite EH.
    + exact (asin_large4 A F ltac:(lra)).
    + exact (asin_direct4 A F ltac:(lra)).
Qed.
Lemma asin_ok4 c (x : word 4) : is_Finite x = true -> Rabs (real x) <= 1 -> is_Finite (asin4 c x) = true /\ Rabs (real (asin4 c x) - asin (real x)) <= / 1048576 * Rabs (asin (real x)).
Proof.
  intros F X. destruct (abs_real fp4 x F) as (FA & RA). destruct (one_real fp4) as (F1 & _ & R1). rewrite asin4_body.
  destruct (gt_real fp4 c (l_abs x) (one 4) FA F1) as [(E & B)|(E & B)]; rewrite R1, RA in B; [lra|]. rewrite E. cbn [l_qnan].
  destruct (asin_body_ok4 c (l_abs x) FA ltac:(rewrite RA; pose proof (Rabs_pos (real x)); lra)) as (G1 & G2). rewrite RA in G2. destruct (flip_real fp4 (flt x (w0 4)) (asin_body4 c (l_abs x))) as (H1 & H2). rewrite H1, H2. split; [exact G1|]. set (y := real (asin_body4 c (l_abs x))) in *. clearbody y.
  destruct (lt_zero_real fp4 x F) as [(EL & L)|(EL & L)]; rewrite EL; [rewrite (Rabs_left (real x)), asin_opp in G2 by lra|rewrite (Rabs_pos_eq (real x)) in G2 by lra]; pose proof (Rle_abs (asin (real x))) as Q1; pose proof (Rle_abs (- asin (real x))) as Q2; rewrite Rabs_Ropp in Q2.
  - replace (- y - asin (real x)) with (- (y - - asin (real x))) by ring. rewrite Rabs_Ropp. lra.
  - lra.
Qed.
(** ** double *)
Lemma large_real8 : is_Finite large_asin8 = true /\ real large_asin8 = 5 / 8.
Proof. split; [reflexivity|]. exact (const_real fp8 large_asin8 5 8 eq_refl eq_refl eq_refl). Qed.
Lemma small_real8 : is_Finite small_asin8 = true /\ real small_asin8 = 3022314549036573 / 302231454903657293676544.
Proof. split; [reflexivity|]. exact (const_real fp8 small_asin8 3022314549036573 302231454903657293676544 eq_refl eq_refl eq_refl). Qed.
Definition asin_core8 (A : word 8) : word 8 := fadd (fmul A (asin_t8p (fmul A A))) A.
Lemma asin_direct8 (A : word 8) : is_Finite A = true -> 1 / 200000000 <= real A <= 5 / 8 -> is_Finite (asin_core8 A) = true /\ Rabs (real (asin_core8 A) - asin (real A)) <= / 562949953421312 * asin (real A).
Proof.
  intros F HA. set (a := real A) in *. pose proof B70_big as BB. pose proof (eta_le fp8) as EL. pose proof (eta_pos fp8) as EP.
  destruct (fmul_real fp8 A A F F) as (FM & EM); [fold a; rewrite Rabs_pos_eq by nra; nra|]. fold a in EM. rewrite u8, (Rabs_pos_eq (a * a)) in EM by nra.
  assert (Y : 0 <= a * a <= 25 / 64) by nra.
  assert (HZ : app (fmul A A) (a * a) (25 / 64) (4336809 / 100000000000000000000000)) by (split; [exact FM|]; split; [rewrite Rabs_pos_eq by lra; lra|eapply Rle_trans; [exact EM|]; lra]).
  destruct (asin_t_ok8p (fmul A A) (a * a) HZ Y) as (FT & _ & ET). pose proof (tau_low8p (a * a) Y) as TL. pose proof (asin_poly8p a ltac:(lra)) as AP. set (T := asin_t8p (fmul A A)) in *.
  destruct (asin_fin fp8 (fmul A T) A T a (tau8p (a * a)) (81 / 1000) (997313 / 2500000000000000000000) (7 / 9007199254740992) 0 (11 * / 9007199254740992) FT F) as (G1 & G2); auto; try lra.
  - fold a. unfold Rminus. rewrite Rplus_opp_r, Rabs_R0. lra.
  - rewrite (Rmult_comm (real T)). exact (fmul_real fp8 _ _ F FT).
  - rewrite u8. lra.
  - split; [exact G1|]. unfold asin_core8. fold T. eapply Rle_trans; [exact G2|]. rewrite u8. pose proof (asin_ge a ltac:(lra)). lra.
Qed.
Definition asin_top8 (A : word 8) : word 8 :=
  let zz := fsub (one 8) A in let s := fsqrt (fadd zz zz) in
  fadd (fsub (fsub (pi_4 8) s) (fsub (fmul s (asin_t8r zz)) pi_2_rem8)) (pi_4 8).
Lemma asin_large8 (A : word 8) : is_Finite A = true -> 5 / 8 <= real A <= 1 -> is_Finite (asin_top8 A) = true /\ Rabs (real (asin_top8 A) - asin (real A)) <= / 562949953421312 * asin (real A).
Proof.
  intros F HA. pose proof B70_big as BB. pose proof (eta_le fp8) as EL. pose proof (eta_pos fp8) as EP. pose proof pi_num as PN. unfold asin_top8. cbv zeta.
  destruct (one_minus fp8 A F ltac:(lra)) as (FZ & _ & RZ). set (zz := fsub (one 8) A) in *. set (a := real A) in *. destruct (double_real fp8 zz FZ) as (FD & RD); [rewrite RZ; apply Rabs_le; lra|]. rewrite RZ in RD.
  destruct (fsqrt_real fp8 (fadd zz zz) FD) as (FS & ES); [rewrite RD; lra|]. rewrite RD in ES. destruct (upper_root a 0 ltac:(lra) ltac:(lra)) as (B0 & B2 & B1). pose proof (asin_upper a ltac:(lra)) as AU. cbv zeta in AU.
  assert (SB : sqrt (2 * (1 - a)) = 2 * sqrt ((1 - a) / 2)) by (apply sqrt_lem_1; try lra; nra). rewrite SB in ES. clear SB. set (b := sqrt ((1 - a) / 2)) in *. clearbody b.
  assert (HB : 0 <= b <= 4331 / 10000) by nra. rewrite u8 in ES. change (IZR (2 ^ 73)) with (IZR 9444732965739290427392) in ES.
  assert (HZ : app zz (1 - a) (47 / 125) (4174439 / 100000000000000000000000)) by (split; [exact FZ|]; split; [rewrite Rabs_pos_eq by lra; lra|rewrite RZ; unfold Rminus; rewrite Rplus_opp_r, Rabs_R0; lra]).
  pose proof (asin_t_ok8r zz (1 - a) HZ ltac:(lra)) as HT. pose proof (tau_low8r (b * b) ltac:(lra)) as TL. pose proof (asin_poly8r b HB) as AP. replace (2 * (b * b)) with (1 - a) in TL, AP by lra. set (tau := tau8r (1 - a)) in *. set (T := asin_t8r zz) in *. clearbody T tau. set (Hw := fp8).
  set (S := fsqrt (fadd zz zz)) in *. clearbody S. assert (HS : app S (2 * b) (8662 / 10000) (9617 / 100000000000000000000)) by (split; [exact FS|]; split; [rewrite Rabs_pos_eq by lra; lra|eapply Rle_trans; [exact ES|]; lra]).
  assert (HM : app (fmul S T) (2 * b * tau) (34648 / 1000000) (485 / 10000000000000000000)) by (refine (mul_w Hw _ _ _ _ _ _ _ _ _ _ HS HT _ _ _ _ _ _ _); rewrite ?u8; lra).
  destruct pi4_real8 as (FP & RP). destruct more_real as (FR & RR). pose proof (app_exact (pi_4 8) 1 FP ltac:(rewrite RP; apply Rabs_le; lra)) as HP. pose proof (app_exact pi_2_rem8 1 FR ltac:(rewrite RR; apply Rabs_le; lra)) as HR. rewrite RP in HP. rewrite RR in HR.
  assert (BT : 0 <= b * tau <= 18 / 1000) by (split; [apply Rmult_le_pos; lra|apply Rle_trans with (4331 / 10000 * (1 / 25)); [apply Rmult_le_compat; lra|lra]]).
  set (p4 := 884279719003555 / 1125899906842624) in *. set (re := 4967757600021511 / 81129638414606681695789005144064) in *. assert (P4 : 785398 / 1000000 <= p4 <= 785399 / 1000000) by (unfold p4; lra). assert (RE : 0 <= re <= 7 / 100000000000000000) by (unfold re; lra).
  assert (PE : Rabs (2 * p4 + re - PI / 2) <= / 1000000000000000000000000000000) by (unfold p4, re; apply Rabs_le; lra).
  assert (H1 : app (fsub (pi_4 8) S) (p4 - 2 * b) (7854 / 10000) (1834 / 10000000000000000000)) by (refine (sub_b Hw _ _ _ _ _ _ _ _ _ _ HP HS _ _ _); [apply Rabs_le; lra|lra|rewrite ?u8; lra]).
  assert (H2 : app (fsub (fmul S T) pi_2_rem8) (2 * b * tau - re) (361 / 10000) (526 / 10000000000000000000)) by (refine (sub_b Hw _ _ _ _ _ _ _ _ _ _ HM HR _ _ _); [apply Rabs_le; lra|lra|rewrite ?u8; lra]).
  assert (H3 : app (fsub (fsub (pi_4 8) S) (fsub (fmul S T) pi_2_rem8)) ((p4 - 2 * b) - (2 * b * tau - re)) (786 / 1000) (3235 / 10000000000000000000)) by (refine (sub_b Hw _ _ _ _ _ _ _ _ _ _ H1 H2 _ _ _); [apply Rabs_le; lra|lra|rewrite ?u8; lra]).
  destruct H3 as (F3 & _ & E3). set (z := fsub (fsub (pi_4 8) S) (fsub (fmul S T) pi_2_rem8)) in *. clearbody z.
  pose proof (asin_lip 0 (4331 / 10000) (111 / 100) ltac:(lra) ltac:(lra) ltac:(lra) ltac:(lra) b HB) as LI. rewrite asin_0 in LI. pose proof (asin_ge a ltac:(lra)) as AG. pose proof (asin_pos b ltac:(lra)) as AB. pose proof (asin_bound a) as AB2.
  assert (D : Rabs (real z + real (pi_4 8) - asin a) <= 5400 / 10000000000000000000) by (rewrite RP, AU; set (v := asin b) in *; clearbody v; clear - E3 AP LI PE AB HB; apply abs_le_inv in E3, AP, PE; apply Rabs_le; lra).
  destruct (final_add fp8 z (pi_4 8) (asin a) _ F3 FP D) as (G1 & G2); [rewrite Rabs_pos_eq; lra|lra|]. split; [exact G1|]. eapply Rle_trans; [exact G2|]. rewrite u8, Rabs_pos_eq by lra. lra.
Qed.
Lemma asin_small8 a : 0 <= a <= 100001 / 10000000000000 -> Rabs (a - asin a) <= / 4503599627370496 * asin a.
Proof.
  intros A. pose proof (asin_ge a ltac:(lra)) as G. pose proof (asin_lip 0 (100001 / 10000000000000) (1 + / 9007199254740992) ltac:(lra) ltac:(lra) ltac:(lra) ltac:(lra) a A) as L. rewrite asin_0 in L. apply Rabs_le. lra.
Qed.
Lemma asin_body_eq8 c A : asin_body8 c A = if l_gt c A large_asin8 then asin_top8 A else asin_core8 A.
Proof. unfold asin_body8, asin_core8, asin_top8, asin_t8p, asin_t8r. cbv zeta. destruct (l_gt c A large_asin8); cbn [l_set negb]; reflexivity. Qed.
Lemma asin_body_ok8 c (A : word 8) : is_Finite A = true -> 1 / 200000000 <= real A <= 1 -> is_Finite (asin_body8 c A) = true /\ Rabs (real (asin_body8 c A) - asin (real A)) <= / 562949953421312 * asin (real A).
Proof.
  intros F HA. destruct large_real8 as (FH & RH). rewrite asin_body_eq8.
  destruct (gt_real fp8 c A large_asin8 F FH) as [(EH & BH)|(EH & BH)]; rewrite RH in BH; rewrite EH.
  - exact (asin_large8 A F ltac:(lra)).
  - exact (asin_direct8 A F ltac:(lra)).
Qed.
Lemma asin_ok8 c (x : word 8) : is_Finite x = true -> Rabs (real x) <= 1 -> is_Finite (asin8 c x) = true /\ Rabs (real (asin8 c x) - asin (real x)) <= / 562949953421312 * Rabs (asin (real x)).
Proof.
  intros F X. destruct (abs_real fp8 x F) as (FA & RA). destruct (one_real fp8) as (F1 & _ & R1). destruct small_real8 as (FS & RS). pose proof (Rabs_pos (real x)) as XP. rewrite asin8_body.
  destruct (gt_real fp8 c (l_abs x) (one 8) FA F1) as [(E & B)|(E & B)]; rewrite R1, RA in B; [lra|]. rewrite E. cbn [l_qnan].
  rewrite (lt_num fp8 (l_abs x) small_asin8 (finite_not_nan fp8 _ FA) eq_refl). pose proof (IUpos fp8) as IU. pose proof (Rle_abs (asin (real x))) as Q1. pose proof (Rle_abs (- asin (real x))) as Q2. rewrite Rabs_Ropp in Q2. pose proof (lt_zero_real fp8 x F) as SG.
  destruct (Z.ltb_spec (fvalue (l_abs x)) (fvalue small_asin8)) as [L|L]; cbn [l_set].
  - split; [exact F|]. assert (L' : Rabs (real x) < 3022314549036573 / 302231454903657293676544) by (rewrite <- RA, <- RS, !(real_eq fp8); apply IZR_lt in L; apply Rmult_lt_compat_r; [now apply Rinv_0_lt_compat|exact L]).
    pose proof (asin_small8 (Rabs (real x)) ltac:(lra)) as G2. pose proof (asin_pos (Rabs (real x)) ltac:(lra)) as AP.
    destruct SG as [(_ & S)|(_ & S)]; [rewrite (Rabs_left (real x)), asin_opp in G2, AP by lra|rewrite (Rabs_pos_eq (real x)) in G2, AP by lra].
    + replace (real x - asin (real x)) with (- (- real x - - asin (real x))) by ring. rewrite Rabs_Ropp. lra.
    + lra.
  - assert (L' : 3022314549036573 / 302231454903657293676544 <= Rabs (real x)) by (rewrite <- RA, <- RS, !(real_eq fp8); apply IZR_le in L; apply Rmult_le_compat_r; [left; now apply Rinv_0_lt_compat|exact L]).
    destruct (asin_body_ok8 c (l_abs x) FA ltac:(rewrite RA; lra)) as (G1 & G2). rewrite RA in G2. destruct (flip_real fp8 (flt x (w0 8)) (asin_body8 c (l_abs x))) as (H1 & H2). rewrite H1, H2. split; [exact G1|]. set (y := real (asin_body8 c (l_abs x))) in *. clearbody y.
    destruct SG as [(EL & S)|(EL & S)]; rewrite EL; [rewrite (Rabs_left (real x)), asin_opp in G2 by lra|rewrite (Rabs_pos_eq (real x)) in G2 by lra].
    + replace (- y - asin (real x)) with (- (y - - asin (real x))) by ring. rewrite Rabs_Ropp. lra.
    + lra.
Qed.
