(** atan of every finite number. *)
From Coq Require Import ZArith Reals List Bool Lia Lra Psatz.
From Verif.Spec Require Import FloatSpec RoundSpec AccuracySpec.
From Verif.Model Require Import Word Fp FpArith Transcend.
From Verif.Proof Require Import WordP FpP FpArithP FpIntP Transcend2P RealErrP SeriesP ExpRealP RealOpsP FoldP AccuracyP LogOpsP AtanRealP AtanSerP.
From Coq Require Import Ratan.
Import ListNotations.
Local Open Scope R_scope.
Section A.
  Context {w : nat} (Hw : fp_width w).
  Lemma gt_real c (a b : word w) : is_Finite a = true -> is_Finite b = true -> (l_gt c a b = true /\ real b < real a) \/ (l_gt c a b = false /\ real a <= real b).
  Proof using Hw.
    intros Fa Fb. rewrite (gt_num Hw c a b) by (now apply (finite_not_nan Hw)). pose proof (IUpos Hw) as IU. rewrite !(real_eq Hw). assert (I : 0 < / IZR (one_units w)) by (apply Rinv_0_lt_compat; lra). unfold Rdiv.
    destruct (Z.ltb_spec (fvalue b) (fvalue a)) as [L|L]; [left|right]; (split; [reflexivity|]); [apply IZR_lt in L|apply IZR_le in L]; nra.
  Qed.
  Lemma zero_add (a z : word w) : is_Finite a = true -> is_Finite z = true -> fvalue z = 0%Z -> is_Finite (fadd z a) = true /\ real (fadd z a) = real a.
  Proof using Hw.
    intros Fa Fz V. destruct (fadd_repr Hw z a Fz Fa) as (F & E & _); [rewrite V, Z.add_0_l, <- (fabs_abs Hw); now apply finite_repr|]. split; [exact F|]. rewrite !(real_eq Hw), E, V, Z.add_0_l. reflexivity.
  Qed.
  Lemma const_real (c : word w) n d : is_Finite c = true -> (0 < d)%Z -> (fvalue c * d =? n * one_units w)%Z = true -> real c = IZR n / IZR d.
  Proof using Hw. intros F D E. destruct (const_ok Hw c n d F D E) as (_ & _ & R). apply abs_le_inv in R. lra. Qed.
End A.
Lemma lt_zero_real {w} (Hw : fp_width w) (x : word w) : is_Finite x = true -> (flt x (w0 w) = true /\ real x < 0) \/ (flt x (w0 w) = false /\ 0 <= real x).
Proof.
  intros F. rewrite (lt_num Hw x (w0 w)); [|now apply (finite_not_nan Hw)|destruct Hw as [->| ->]; reflexivity]. replace (fvalue (w0 w)) with 0%Z by (destruct Hw as [->| ->]; reflexivity). pose proof (IUpos Hw) as IU. rewrite (real_eq Hw). assert (I : 0 < / IZR (one_units w)) by (apply Rinv_0_lt_compat; lra). unfold Rdiv.
  destruct (Z.ltb_spec (fvalue x) 0) as [L|L]; [left|right]; (split; [reflexivity|]); [apply IZR_lt in L|apply IZR_le in L]; nra.
Qed.

Lemma hi_real4 : is_Finite atan_hi4 = true /\ real atan_hi4 = (5062973 / 2097152).
Proof. split; [reflexivity|]. exact (const_real fp4 atan_hi4 (5062973) 2097152 eq_refl eq_refl eq_refl). Qed.
Lemma lo_real4 : is_Finite atan_lo4 = true /\ real atan_lo4 = (13898701 / 33554432).
Proof. split; [reflexivity|]. exact (const_real fp4 atan_lo4 (13898701) 33554432 eq_refl eq_refl eq_refl). Qed.
Lemma pi4_real4 : is_Finite (pi_4 4) = true /\ real (pi_4 4) = (13176795 / 16777216).
Proof. split; [reflexivity|]. exact (const_real fp4 (pi_4 4) (13176795) 16777216 eq_refl eq_refl eq_refl). Qed.
Lemma pi2_real4 : is_Finite (pi_2 4) = true /\ real (pi_2 4) = (13176795 / 8388608).
Proof. split; [reflexivity|]. exact (const_real fp4 (pi_2 4) (13176795) 8388608 eq_refl eq_refl eq_refl). Qed.
Lemma atan_mid4_0 (A : word 4) : is_Finite A = true -> (13898701 / 33554432) <= real A <= 1 ->
  is_Finite (fadd (pi_4 4) (atan_core4 (fdiv (fsub A (one 4)) (fadd A (one 4))))) = true /\ Rabs (real (fadd (pi_4 4) (atan_core4 (fdiv (fsub A (one 4)) (fadd A (one 4))))) - atan (real A)) <= (2313083 / 5000000000000) * Rabs (atan (real A)).
Proof.
  intros F HA. set (Hw := fp4). pose proof (app_exact A 1 F ltac:(rewrite Rabs_pos_eq; lra)) as Ha. set (a := real A) in *. pose proof (atan_mid a ltac:(lra)) as AM.
  assert (RB0 : Rabs ((a - 1) / (a + 1)) <= (517767 / 1250000)).
  { assert (I : 0 < / (a + 1)) by (apply Rinv_0_lt_compat; lra). apply Rabs_le. split; (apply (Rmult_le_reg_r (a + 1)); [lra|]); unfold Rdiv; rewrite Rmult_assoc, Rinv_l by lra; lra. }
  assert (RB : Rabs ((a - 1) / (a + 1)) <= (517767 / 1250000)) by lra.
  pose (Wo := (one 4)). pose (ro := 1).
  assert (Ho : app Wo ro 1 0) by (refine (eq_rect _ (fun z => app Wo z 1 0) (eq_rect _ (fun b => app Wo _ b 0) (const_ok Hw Wo (1) 1 _ _ _) _ _) _ _); [vm_compute; reflexivity|reflexivity|vm_compute; reflexivity|cbn [Z.abs]; lra|unfold ro; lra]).
  pose (Wn := fsub A Wo). pose (rn := a - ro).
  assert (Hn : app Wn rn (1171573 / 2000000) (87289 / 2500000000000)) by (refine (sub_b Hw _ _ _ _ _ _ _ _ _ _ Ha Ho _ _ _); [unfold ro; apply Rabs_le; lra|rewrite ?u4; lra|rewrite ?u4; lra]).
  pose (Wd := fadd A Wo). pose (rd := a + ro).
  assert (Hd : app Wd rd 2 (1192093 / 10000000000000)) by (refine (add_b Hw _ _ _ _ _ _ _ _ _ _ Ha Ho _ _ _); [unfold ro; apply Rabs_le; lra|rewrite ?u4; lra|rewrite ?u4; lra]).
  pose (Wr := fdiv Wn Wd). pose (rr := rn / rd).
  assert (Hr : app Wr rr (517767 / 1250000) (8429373 / 100000000000000)) by (refine (div_w Hw _ _ _ _ _ _ _ _ (47453133 / 33554432) (5960467 / 100000000000000) _ _ Hn Hd _ _ _ _ _ _ _ _); [unfold rd, ro; rewrite Rabs_pos_eq; lra|split; lra|lra|split; lra|split; lra|exact RB|lra|rewrite ?u4; lra]).
  destruct Hr as (FR & _ & ER). change rr with ((a - 1) / (a + 1)) in ER. set (rho := (a - 1) / (a + 1)) in *.
  assert (RR : Rabs (real Wr) <= (41421368429373 / 100000000000000)) by (replace (real Wr) with (rho + (real Wr - rho)) by ring; eapply Rle_trans; [apply Rabs_triang|lra]).
  destruct (atan_core_ok4 Wr FR ltac:(lra)) as (FC & EC). pose proof (atan_lip (real Wr) rho) as LI. pose proof (eta_le fp4) as ET. pose proof (eta_pos fp4) as ET0.
  assert (D0 : Rabs (real (atan_core4 Wr) - atan rho) <= (1277361 / 10000000000000)) by (replace (real (atan_core4 Wr) - atan rho) with ((real (atan_core4 Wr) - atan (real Wr)) + (atan (real Wr) - atan rho)) by ring; eapply Rle_trans; [apply Rabs_triang|]; lra).
  destruct pi4_real4 as (FP & RP). pose proof pi_num as PN. pose proof (atan_abs_le rho) as AL.
  assert (D1 : Rabs (real (pi_4 4) + real (atan_core4 Wr) - atan a) <= (747959 / 5000000000000)) by (rewrite AM, RP; clear - D0 PN; apply abs_le_inv in D0; apply Rabs_le; lra).
  change (fadd (pi_4 4) (atan_core4 (fdiv (fsub A (one 4)) (fadd A (one 4))))) with (fadd (pi_4 4) (atan_core4 Wr)).
  assert (TL : (150570347067593158048733745810470769023 / 405648192073033408478945025720320000000) <= atan a) by (rewrite AM; clear - AL RB0 PN; apply abs_le_inv in AL; lra). pose proof (atan_bound a) as AB. rewrite (Rabs_pos_eq (atan a)) by lra.
  destruct (final_add fp4 (pi_4 4) (atan_core4 Wr) (atan a) (747959 / 5000000000000) FP FC D1) as (F4 & E4); [rewrite Rabs_pos_eq; lra|lra|]. split; [exact F4|]. rewrite u4, (Rabs_pos_eq (atan a)) in E4 by lra. lra.
Qed.
Lemma atan_mid4_1 (A : word 4) : is_Finite A = true -> 1 <= real A <= (5062973 / 2097152) ->
  is_Finite (fadd (pi_4 4) (atan_core4 (fdiv (fsub A (one 4)) (fadd A (one 4))))) = true /\ Rabs (real (fadd (pi_4 4) (atan_core4 (fdiv (fsub A (one 4)) (fadd A (one 4))))) - atan (real A)) <= (1407531 / 5000000000000) * Rabs (atan (real A)).
Proof.
  intros F HA. set (Hw := fp4). pose proof (app_exact A (5062973 / 2097152) F ltac:(rewrite Rabs_pos_eq; lra)) as Ha. set (a := real A) in *. pose proof (atan_mid a ltac:(lra)) as AM.
  assert (RB0 : Rabs ((a - 1) / (a + 1)) <= (517767 / 1250000)).
  { assert (I : 0 < / (a + 1)) by (apply Rinv_0_lt_compat; lra). apply Rabs_le. split; (apply (Rmult_le_reg_r (a + 1)); [lra|]); unfold Rdiv; rewrite Rmult_assoc, Rinv_l by lra; lra. }
  assert (RB : Rabs ((a - 1) / (a + 1)) <= (517767 / 1250000)) by lra.
  pose (Wo := (one 4)). pose (ro := 1).
  assert (Ho : app Wo ro 1 0) by (refine (eq_rect _ (fun z => app Wo z 1 0) (eq_rect _ (fun b => app Wo _ b 0) (const_ok Hw Wo (1) 1 _ _ _) _ _) _ _); [vm_compute; reflexivity|reflexivity|vm_compute; reflexivity|cbn [Z.abs]; lra|unfold ro; lra]).
  pose (Wn := fsub A Wo). pose (rn := a - ro).
  assert (Hn : app Wn rn (707107 / 500000) (8429373 / 100000000000000)) by (refine (sub_b Hw _ _ _ _ _ _ _ _ _ _ Ha Ho _ _ _); [unfold ro; apply Rabs_le; lra|rewrite ?u4; lra|rewrite ?u4; lra]).
  pose (Wd := fadd A Wo). pose (rd := a + ro).
  assert (Hd : app Wd rd (1707107 / 500000) (2035031 / 10000000000000)) by (refine (add_b Hw _ _ _ _ _ _ _ _ _ _ Ha Ho _ _ _); [unfold ro; apply Rabs_le; lra|rewrite ?u4; lra|rewrite ?u4; lra]).
  pose (Wr := fdiv Wn Wd). pose (rr := rn / rd).
  assert (Hr : app Wr rr (517767 / 1250000) (1089829 / 10000000000000)) by (refine (div_w Hw _ _ _ _ _ _ _ _ 2 (13487 / 160000000000) _ _ Hn Hd _ _ _ _ _ _ _ _); [unfold rd, ro; rewrite Rabs_pos_eq; lra|split; lra|lra|split; lra|split; lra|exact RB|lra|rewrite ?u4; lra]).
  destruct Hr as (FR & _ & ER). change rr with ((a - 1) / (a + 1)) in ER. set (rho := (a - 1) / (a + 1)) in *.
  assert (RR : Rabs (real Wr) <= (4142137089829 / 10000000000000)) by (replace (real Wr) with (rho + (real Wr - rho)) by ring; eapply Rle_trans; [apply Rabs_triang|lra]).
  destruct (atan_core_ok4 Wr FR ltac:(lra)) as (FC & EC). pose proof (atan_lip (real Wr) rho) as LI. pose proof (eta_le fp4) as ET. pose proof (eta_pos fp4) as ET0.
  assert (D0 : Rabs (real (atan_core4 Wr) - atan rho) <= (1524253 / 10000000000000)) by (replace (real (atan_core4 Wr) - atan rho) with ((real (atan_core4 Wr) - atan (real Wr)) + (atan (real Wr) - atan rho)) by ring; eapply Rle_trans; [apply Rabs_triang|]; lra).
  destruct pi4_real4 as (FP & RP). pose proof pi_num as PN. pose proof (atan_abs_le rho) as AL.
  assert (D1 : Rabs (real (pi_4 4) + real (atan_core4 Wr) - atan a) <= (174281 / 1000000000000)) by (rewrite AM, RP; clear - D0 PN; apply abs_le_inv in D0; apply Rabs_le; lra).
  change (fadd (pi_4 4) (atan_core4 (fdiv (fsub A (one 4)) (fadd A (one 4))))) with (fadd (pi_4 4) (atan_core4 Wr)).
  assert (TL : (4078020416507594100416871540687067 / 5192296858534827628530496329220096) <= atan a) by (destruct (Req_dec a 1) as [->|NE]; [rewrite atan_1; lra|pose proof (atan_increasing 1 a ltac:(lra)) as AI; rewrite atan_1 in AI; lra]). pose proof (atan_bound a) as AB. rewrite (Rabs_pos_eq (atan a)) by lra.
  destruct (final_add fp4 (pi_4 4) (atan_core4 Wr) (atan a) (174281 / 1000000000000) FP FC D1) as (F4 & E4); [rewrite Rabs_pos_eq; lra|lra|]. split; [exact F4|]. rewrite u4, (Rabs_pos_eq (atan a)) in E4 by lra. lra.
Qed.
Lemma atan_large4 (A : word 4) : is_Finite A = true -> (5062973 / 2097152) <= real A ->
  is_Finite (fadd (pi_2 4) (atan_core4 (fdiv (fneg (one 4)) A))) = true /\ Rabs (real (fadd (pi_2 4) (atan_core4 (fdiv (fneg (one 4)) A))) - atan (real A)) <= (781529 / 5000000000000) * Rabs (atan (real A)).
Proof.
  intros F HA. set (Hw := fp4). set (a := real A) in *. pose proof (AtanRealP.atan_large a ltac:(lra)) as AM. pose proof B70_big. pose proof (eta_le fp4) as ET. pose proof (eta_pos fp4) as ET0.
  assert (RB0 : Rabs (-1 / a) <= (517767 / 1250000)).
  { apply Rabs_le. split; (apply (Rmult_le_reg_r a); [lra|]); unfold Rdiv; rewrite Rmult_assoc, Rinv_l by lra; lra. }
  assert (NR : real (fneg (one 4)) = -1) by (rewrite (real_fneg fp4), (const_real fp4 (one 4) 1 1 eq_refl eq_refl eq_refl); lra).
  destruct (fdiv_real fp4 (fneg (one 4)) A eq_refl F) as (FR & ER); [apply (real_nonzero fp4); fold a; lra|rewrite NR; fold a; lra|]. rewrite NR, u4 in ER. fold a in ER. set (Wr := fdiv (fneg (one 4)) A) in *. set (rho := -1 / a) in *.
  assert (ER' : Rabs (real Wr - rho) <= (1234453 / 50000000000000)) by lra.
  assert (RR : Rabs (real Wr) <= (20710681234453 / 50000000000000)) by (replace (real Wr) with (rho + (real Wr - rho)) by ring; eapply Rle_trans; [apply Rabs_triang|lra]).
  destruct (atan_core_ok4 Wr FR ltac:(lra)) as (FC & EC). pose proof (atan_lip (real Wr) rho) as LI.
  assert (D0 : Rabs (real (atan_core4 Wr) - atan rho) <= (3406569 / 50000000000000)) by (replace (real (atan_core4 Wr) - atan rho) with ((real (atan_core4 Wr) - atan (real Wr)) + (atan (real Wr) - atan rho)) by ring; eapply Rle_trans; [apply Rabs_triang|]; lra).
  destruct pi2_real4 as (FP & RP). pose proof pi_num as PN. pose proof (atan_abs_le rho) as AL.
  assert (D1 : Rabs (real (pi_2 4) + real (atan_core4 Wr) - atan a) <= (279607 / 2500000000000)) by (rewrite AM, RP; clear - D0 PN; apply abs_le_inv in D0; apply Rabs_le; lra).
  assert (TL : (234582846053624473571900917463323939199 / 202824096036516704239472512860160000000) <= atan a) by (rewrite AM; clear - AL RB0 PN; apply abs_le_inv in AL; lra). pose proof (atan_bound a) as AB. rewrite (Rabs_pos_eq (atan a)) by lra.
  destruct (final_add fp4 (pi_2 4) (atan_core4 Wr) (atan a) (279607 / 2500000000000) FP FC D1) as (F4 & E4); [rewrite Rabs_pos_eq; lra|lra|]. split; [exact F4|]. rewrite u4, (Rabs_pos_eq (atan a)) in E4 by lra. lra.
Qed.
Lemma atan_body_eq4 c A : atan_body4 c A = if l_gt c A atan_hi4 then fadd (pi_2 4) (atan_core4 (fdiv (fneg (one 4)) A)) else if l_gt c A atan_lo4 then fadd (pi_4 4) (atan_core4 (fdiv (fsub A (one 4)) (fadd A (one 4)))) else fadd (w0 4) (atan_core4 A).
Proof. unfold atan_body4, atan_core4, atan_t4. cbv zeta. destruct (l_gt c A atan_hi4), (l_gt c A atan_lo4); cbn [l_set andb negb]; reflexivity. Qed.
Lemma atan_body_ok4 c (A : word 4) : is_Finite A = true -> 0 <= real A -> is_Finite (atan_body4 c A) = true /\ Rabs (real (atan_body4 c A) - atan (real A)) <= / 2097152 * Rabs (atan (real A)) + 2 * eta (w := 4).
Proof.
  intros F A0. destruct hi_real4 as (FH & RH). destruct lo_real4 as (FL & RL). pose proof (eta_pos fp4) as ET. pose proof (Rabs_pos (atan (real A))) as AP. rewrite atan_body_eq4.
  destruct (gt_real fp4 c A atan_hi4 F FH) as [(EH & BH)|(EH & BH)]; destruct (gt_real fp4 c A atan_lo4 F FL) as [(EL & BL)|(EL & BL)]; rewrite RH in BH; rewrite RL in BL; rewrite ?EH, ?EL.
  - destruct (atan_large4 A F ltac:(lra)) as (G1 & G2). split; [exact G1|]. eapply Rle_trans; [exact G2|]. lra.
  - lra.
  - destruct (Rle_dec (real A) 1) as [L1|L1].
    + destruct (atan_mid4_0 A F ltac:(lra)) as (G1 & G2). split; [exact G1|]. eapply Rle_trans; [exact G2|]. lra.
    + destruct (atan_mid4_1 A F ltac:(lra)) as (G1 & G2). split; [exact G1|]. eapply Rle_trans; [exact G2|]. lra.
  - assert (AB : Rabs (real A) <= (20711 / 50000)) by (rewrite Rabs_pos_eq; lra). destruct (atan_core_ok4 A F AB) as (G1 & G2). destruct (zero_add fp4 (atan_core4 A) (w0 4) G1 eq_refl eq_refl) as (G3 & G4). split; [exact G3|]. rewrite G4. eapply Rle_trans; [exact G2|]. destruct (atan_low (real A) _ AB) as (L1 & _). lra.
Qed.
Lemma atan_ok4 c (x : word 4) : is_Finite x = true -> is_Finite (atan4 c x) = true /\ Rabs (real (atan4 c x) - atan (real x)) <= / 2097152 * Rabs (atan (real x)) + 2 * eta (w := 4).
Proof.
  intros F. destruct (abs_real fp4 x F) as (FA & RA). rewrite atan4_body, (finite_not_nan fp4 x F). cbn [l_qnan].
  destruct (atan_body_ok4 c (l_abs x) FA ltac:(rewrite RA; apply Rabs_pos)) as (G1 & G2). rewrite RA in G2. destruct (flip_real fp4 (flt x (w0 4)) (atan_body4 c (l_abs x))) as (H1 & H2). rewrite H1, H2. split; [exact G1|].
  destruct (lt_zero_real fp4 x F) as [(E & L)|(E & L)]; rewrite E; [rewrite (Rabs_left (real x)), atan_opp, Rabs_Ropp in G2 by lra|rewrite (Rabs_pos_eq (real x)) in G2 by lra; exact G2].
  set (y := real (atan_body4 c (l_abs x))) in *. replace (- y - atan (real x)) with (- (y - - atan (real x))) by ring. rewrite Rabs_Ropp. exact G2.
Qed.
Lemma hi_real8 : is_Finite atan_hi8 = true /\ real atan_hi8 = (2718162824974067 / 1125899906842624).
Proof. split; [reflexivity|]. exact (const_real fp8 atan_hi8 (2718162824974067) 1125899906842624 eq_refl eq_refl eq_refl). Qed.
Lemma lo_real8 : is_Finite atan_lo8 = true /\ real atan_lo8 = (5944751508129055 / 9007199254740992).
Proof. split; [reflexivity|]. exact (const_real fp8 atan_lo8 (5944751508129055) 9007199254740992 eq_refl eq_refl eq_refl). Qed.
Lemma pi4_real8 : is_Finite (pi_4 8) = true /\ real (pi_4 8) = (884279719003555 / 1125899906842624).
Proof. split; [reflexivity|]. exact (const_real fp8 (pi_4 8) (884279719003555) 1125899906842624 eq_refl eq_refl eq_refl). Qed.
Lemma pi2_real8 : is_Finite (pi_2 8) = true /\ real (pi_2 8) = (884279719003555 / 562949953421312).
Proof. split; [reflexivity|]. exact (const_real fp8 (pi_2 8) (884279719003555) 562949953421312 eq_refl eq_refl eq_refl). Qed.
Lemma more_real : is_Finite pi_2_rem8 = true /\ real pi_2_rem8 = (4967757600021511 / 81129638414606681695789005144064).
Proof. split; [reflexivity|]. exact (const_real fp8 pi_2_rem8 (4967757600021511) 81129638414606681695789005144064 eq_refl eq_refl eq_refl). Qed.
Lemma half_more_real : is_Finite (fmul pi_2_rem8 (half 8)) = true /\ real (fmul pi_2_rem8 (half 8)) = (4967757600021511 / 162259276829213363391578010288128).
Proof. split; [reflexivity|]. exact (const_real fp8 (fmul pi_2_rem8 (half 8)) (4967757600021511) 162259276829213363391578010288128 eq_refl eq_refl eq_refl). Qed.
Lemma atan_mid8_0 (A : word 8) : is_Finite A = true -> (5944751508129055 / 9007199254740992) <= real A <= 1 ->
  is_Finite (fadd (pi_4 8) (fadd (atan_core8 (fdiv (fsub A (one 8)) (fadd A (one 8)))) (fmul pi_2_rem8 (half 8)))) = true /\ Rabs (real (fadd (pi_4 8) (fadd (atan_core8 (fdiv (fsub A (one 8)) (fadd A (one 8)))) (fmul pi_2_rem8 (half 8)))) - atan (real A)) <= (2302143 / 5000000000000000000000) * Rabs (atan (real A)).
Proof.
  intros F HA. set (Hw := fp8). pose proof (app_exact A 1 F ltac:(rewrite Rabs_pos_eq; lra)) as Ha. set (a := real A) in *. pose proof (atan_mid a ltac:(lra)) as AM.
  assert (RB0 : Rabs ((a - 1) / (a + 1)) <= (2048193 / 10000000)).
  { assert (I : 0 < / (a + 1)) by (apply Rinv_0_lt_compat; lra). apply Rabs_le. split; (apply (Rmult_le_reg_r (a + 1)); [lra|]); unfold Rdiv; rewrite Rmult_assoc, Rinv_l by lra; lra. }
  assert (RB : Rabs ((a - 1) / (a + 1)) <= (2048193 / 10000000)) by lra.
  pose (Wo := (one 8)). pose (ro := 1).
  assert (Ho : app Wo ro 1 0) by (refine (eq_rect _ (fun z => app Wo z 1 0) (eq_rect _ (fun b => app Wo _ b 0) (const_ok Hw Wo (1) 1 _ _ _) _ _) _ _); [vm_compute; reflexivity|reflexivity|vm_compute; reflexivity|cbn [Z.abs]; lra|unfold ro; lra]).
  pose (Wn := fsub A Wo). pose (rn := a - ro).
  assert (Hn : app Wn rn (17 / 50) (3774759 / 100000000000000000000000)) by (refine (sub_b Hw _ _ _ _ _ _ _ _ _ _ Ha Ho _ _ _); [unfold ro; apply Rabs_le; lra|rewrite ?u8; lra|rewrite ?u8; lra]).
  pose (Wd := fadd A Wo). pose (rd := a + ro).
  assert (Hd : app Wd rd 2 (2220447 / 10000000000000000000000)) by (refine (add_b Hw _ _ _ _ _ _ _ _ _ _ Ha Ho _ _ _); [unfold ro; apply Rabs_le; lra|rewrite ?u8; lra|rewrite ?u8; lra]).
  pose (Wr := fdiv Wn Wd). pose (rr := rn / rd).
  assert (Hr : app Wr rr (2048193 / 10000000) (1457521 / 20000000000000000000000)) by (refine (div_w Hw _ _ _ _ _ _ _ _ (14951950762870047 / 9007199254740992) (5013653 / 100000000000000000000000) _ _ Hn Hd _ _ _ _ _ _ _ _); [unfold rd, ro; rewrite Rabs_pos_eq; lra|split; lra|lra|split; lra|split; lra|exact RB|lra|rewrite ?u8; lra]).
  destruct Hr as (FR & _ & ER). change rr with ((a - 1) / (a + 1)) in ER. set (rho := (a - 1) / (a + 1)) in *.
  assert (RR : Rabs (real Wr) <= (4096386000000001457521 / 20000000000000000000000)) by (replace (real Wr) with (rho + (real Wr - rho)) by ring; eapply Rle_trans; [apply Rabs_triang|lra]).
  destruct (atan_core_ok8 Wr FR ltac:(lra)) as (FC & EC). pose proof (atan_lip (real Wr) rho) as LI. pose proof (eta_le fp8) as ET. pose proof (eta_pos fp8) as ET0.
  assert (D0 : Rabs (real (atan_core8 Wr) - atan rho) <= (900591 / 5000000000000000000000)) by (replace (real (atan_core8 Wr) - atan rho) with ((real (atan_core8 Wr) - atan (real Wr)) + (atan (real Wr) - atan rho)) by ring; eapply Rle_trans; [apply Rabs_triang|]; lra).
  destruct pi4_real8 as (FP & RP). pose proof pi_num as PN. pose proof (atan_abs_le rho) as AL.
  destruct half_more_real as (FM & RM). destruct (final_add fp8 (atan_core8 Wr) (fmul pi_2_rem8 (half 8)) (atan rho + (4967757600021511 / 162259276829213363391578010288128)) (900591 / 5000000000000000000000) FC FM) as (FZ & EZ); [rewrite RM; replace (real (atan_core8 Wr) + (4967757600021511 / 162259276829213363391578010288128) - (atan rho + (4967757600021511 / 162259276829213363391578010288128))) with (real (atan_core8 Wr) - atan rho) by ring; exact D0|clear - AL RB; apply abs_le_inv in AL; apply Rabs_le; lra|lra|]. set (Z := fadd (atan_core8 Wr) (fmul pi_2_rem8 (half 8))) in *. rewrite u8 in EZ.
  assert (ZB : Rabs (atan rho + (4967757600021511 / 162259276829213363391578010288128)) <= (2596393085833258250645799530009232443 / 12676506002282294014967032053760000000)) by (eapply Rle_trans; [apply Rabs_triang|]; rewrite (Rabs_pos_eq (4967757600021511 / 162259276829213363391578010288128)) by lra; lra).
  assert (D1 : Rabs (real (pi_4 8) + real Z - atan a) <= (2028579 / 10000000000000000000000)) by (rewrite AM, RP; clear - EZ ZB PN; set (zb := Rabs (atan rho + (4967757600021511 / 162259276829213363391578010288128))) in *; clearbody zb; apply abs_le_inv in EZ; apply Rabs_le; lra).
  change (fadd (pi_4 8) (fadd (atan_core8 (fdiv (fsub A (one 8)) (fadd A (one 8)))) (fmul pi_2_rem8 (half 8)))) with (fadd (pi_4 8) Z).
  assert (TL : (235510766292991537493796504209659171199 / 405648192073033408478945025720320000000) <= atan a) by (rewrite AM; clear - AL RB0 PN; apply abs_le_inv in AL; lra). pose proof (atan_bound a) as AB. rewrite (Rabs_pos_eq (atan a)) by lra.
  destruct (final_add fp8 (pi_4 8) Z (atan a) (2028579 / 10000000000000000000000) FP FZ D1) as (F4 & E4); [rewrite Rabs_pos_eq; lra|lra|]. split; [exact F4|]. rewrite u8, (Rabs_pos_eq (atan a)) in E4 by lra. lra.
Qed.
Lemma atan_mid8_1 (A : word 8) : is_Finite A = true -> 1 <= real A <= (2718162824974067 / 1125899906842624) ->
  is_Finite (fadd (pi_4 8) (fadd (atan_core8 (fdiv (fsub A (one 8)) (fadd A (one 8)))) (fmul pi_2_rem8 (half 8)))) = true /\ Rabs (real (fadd (pi_4 8) (fadd (atan_core8 (fdiv (fsub A (one 8)) (fadd A (one 8)))) (fmul pi_2_rem8 (half 8)))) - atan (real A)) <= (281671 / 400000000000000000000) * Rabs (atan (real A)).
Proof.
  intros F HA. set (Hw := fp8). pose proof (app_exact A (2718162824974067 / 1125899906842624) F ltac:(rewrite Rabs_pos_eq; lra)) as Ha. set (a := real A) in *. pose proof (atan_mid a ltac:(lra)) as AM.
  assert (RB0 : Rabs ((a - 1) / (a + 1)) <= (517767 / 1250000)).
  { assert (I : 0 < / (a + 1)) by (apply Rinv_0_lt_compat; lra). apply Rabs_le. split; (apply (Rmult_le_reg_r (a + 1)); [lra|]); unfold Rdiv; rewrite Rmult_assoc, Rinv_l by lra; lra. }
  assert (RB : Rabs ((a - 1) / (a + 1)) <= (517767 / 1250000)) by lra.
  pose (Wo := (one 8)). pose (ro := 1).
  assert (Ho : app Wo ro 1 0) by (refine (eq_rect _ (fun z => app Wo z 1 0) (eq_rect _ (fun b => app Wo _ b 0) (const_ok Hw Wo (1) 1 _ _ _) _ _) _ _); [vm_compute; reflexivity|reflexivity|vm_compute; reflexivity|cbn [Z.abs]; lra|unfold ro; lra]).
  pose (Wn := fsub A Wo). pose (rn := a - ro).
  assert (Hn : app Wn rn (707107 / 500000) (1570093 / 10000000000000000000000)) by (refine (sub_b Hw _ _ _ _ _ _ _ _ _ _ Ha Ho _ _ _); [unfold ro; apply Rabs_le; lra|rewrite ?u8; lra|rewrite ?u8; lra]).
  pose (Wd := fadd A Wo). pose (rd := a + ro).
  assert (Hd : app Wd rd (1707107 / 500000) (3790539 / 10000000000000000000000)) by (refine (add_b Hw _ _ _ _ _ _ _ _ _ _ Ha Ho _ _ _); [unfold ro; apply Rabs_le; lra|rewrite ?u8; lra|rewrite ?u8; lra]).
  pose (Wr := fdiv Wn Wd). pose (rr := rn / rd).
  assert (Hr : app Wr rr (517767 / 1250000) (2029963 / 10000000000000000000000)) by (refine (div_w Hw _ _ _ _ _ _ _ _ 2 (1570093 / 10000000000000000000000) _ _ Hn Hd _ _ _ _ _ _ _ _); [unfold rd, ro; rewrite Rabs_pos_eq; lra|split; lra|lra|split; lra|split; lra|exact RB|lra|rewrite ?u8; lra]).
  destruct Hr as (FR & _ & ER). change rr with ((a - 1) / (a + 1)) in ER. set (rho := (a - 1) / (a + 1)) in *.
  assert (RR : Rabs (real Wr) <= (4142136000000002029963 / 10000000000000000000000)) by (replace (real Wr) with (rho + (real Wr - rho)) by ring; eapply Rle_trans; [apply Rabs_triang|lra]).
  destruct (atan_core_ok8 Wr FR ltac:(lra)) as (FC & EC). pose proof (atan_lip (real Wr) rho) as LI. pose proof (eta_le fp8) as ET. pose proof (eta_pos fp8) as ET0.
  assert (D0 : Rabs (real (atan_core8 Wr) - atan rho) <= (4198759 / 10000000000000000000000)) by (replace (real (atan_core8 Wr) - atan rho) with ((real (atan_core8 Wr) - atan (real Wr)) + (atan (real Wr) - atan rho)) by ring; eapply Rle_trans; [apply Rabs_triang|]; lra).
  destruct pi4_real8 as (FP & RP). pose proof pi_num as PN. pose proof (atan_abs_le rho) as AL.
  destruct half_more_real as (FM & RM). destruct (final_add fp8 (atan_core8 Wr) (fmul pi_2_rem8 (half 8)) (atan rho + (4967757600021511 / 162259276829213363391578010288128)) (4198759 / 10000000000000000000000) FC FM) as (FZ & EZ); [rewrite RM; replace (real (atan_core8 Wr) + (4967757600021511 / 162259276829213363391578010288128) - (atan rho + (4967757600021511 / 162259276829213363391578010288128))) with (real (atan_core8 Wr) - atan rho) by ring; exact D0|clear - AL RB; apply abs_le_inv in AL; apply Rabs_le; lra|lra|]. set (Z := fadd (atan_core8 Wr) (fmul pi_2_rem8 (half 8))) in *. rewrite u8 in EZ.
  assert (ZB : Rabs (atan rho + (4967757600021511 / 162259276829213363391578010288128)) <= (5250781186626957608304010729983870011 / 12676506002282294014967032053760000000)) by (eapply Rle_trans; [apply Rabs_triang|]; rewrite (Rabs_pos_eq (4967757600021511 / 162259276829213363391578010288128)) by lra; lra).
  assert (D1 : Rabs (real (pi_4 8) + real Z - atan a) <= (465863 / 1000000000000000000000)) by (rewrite AM, RP; clear - EZ ZB PN; set (zb := Rabs (atan rho + (4967757600021511 / 162259276829213363391578010288128))) in *; clearbody zb; apply abs_le_inv in EZ; apply Rabs_le; lra).
  change (fadd (pi_4 8) (fadd (atan_core8 (fdiv (fsub A (one 8)) (fadd A (one 8)))) (fmul pi_2_rem8 (half 8)))) with (fadd (pi_4 8) Z).
  assert (TL : (4078020416507594100416871540687067 / 5192296858534827628530496329220096) <= atan a) by (destruct (Req_dec a 1) as [->|NE]; [rewrite atan_1; lra|pose proof (atan_increasing 1 a ltac:(lra)) as AI; rewrite atan_1 in AI; lra]). pose proof (atan_bound a) as AB. rewrite (Rabs_pos_eq (atan a)) by lra.
  destruct (final_add fp8 (pi_4 8) Z (atan a) (465863 / 1000000000000000000000) FP FZ D1) as (F4 & E4); [rewrite Rabs_pos_eq; lra|lra|]. split; [exact F4|]. rewrite u8, (Rabs_pos_eq (atan a)) in E4 by lra. lra.
Qed.
Lemma atan_large8 (A : word 8) : is_Finite A = true -> (2718162824974067 / 1125899906842624) <= real A ->
  is_Finite (fadd (pi_2 8) (fadd (atan_core8 (fdiv (fneg (one 8)) A)) pi_2_rem8)) = true /\ Rabs (real (fadd (pi_2 8) (fadd (atan_core8 (fdiv (fneg (one 8)) A)) pi_2_rem8)) - atan (real A)) <= (3780621 / 10000000000000000000000) * Rabs (atan (real A)).
Proof.
  intros F HA. set (Hw := fp8). set (a := real A) in *. pose proof (AtanRealP.atan_large a ltac:(lra)) as AM. pose proof B70_big. pose proof (eta_le fp8) as ET. pose proof (eta_pos fp8) as ET0.
  assert (RB0 : Rabs (-1 / a) <= (517767 / 1250000)).
  { apply Rabs_le. split; (apply (Rmult_le_reg_r a); [lra|]); unfold Rdiv; rewrite Rmult_assoc, Rinv_l by lra; lra. }
  assert (NR : real (fneg (one 8)) = -1) by (rewrite (real_fneg fp8), (const_real fp8 (one 8) 1 1 eq_refl eq_refl eq_refl); lra).
  destruct (fdiv_real fp8 (fneg (one 8)) A eq_refl F) as (FR & ER); [apply (real_nonzero fp8); fold a; lra|rewrite NR; fold a; lra|]. rewrite NR, u8 in ER. fold a in ER. set (Wr := fdiv (fneg (one 8)) A) in *. set (rho := -1 / a) in *.
  assert (ER' : Rabs (real Wr - rho) <= (919739 / 20000000000000000000000)) by lra.
  assert (RR : Rabs (real Wr) <= (8284272000000000919739 / 20000000000000000000000)) by (replace (real Wr) with (rho + (real Wr - rho)) by ring; eapply Rle_trans; [apply Rabs_triang|lra]).
  destruct (atan_core_ok8 Wr FR ltac:(lra)) as (FC & EC). pose proof (atan_lip (real Wr) rho) as LI.
  assert (D0 : Rabs (real (atan_core8 Wr) - atan rho) <= (525733 / 2000000000000000000000)) by (replace (real (atan_core8 Wr) - atan rho) with ((real (atan_core8 Wr) - atan (real Wr)) + (atan (real Wr) - atan rho)) by ring; eapply Rle_trans; [apply Rabs_triang|]; lra).
  destruct pi2_real8 as (FP & RP). pose proof pi_num as PN. pose proof (atan_abs_le rho) as AL.
  destruct more_real as (FM & RM). destruct (final_add fp8 (atan_core8 Wr) pi_2_rem8 (atan rho + (4967757600021511 / 81129638414606681695789005144064)) (525733 / 2000000000000000000000) FC FM) as (FZ & EZ); [rewrite RM; replace (real (atan_core8 Wr) + (4967757600021511 / 81129638414606681695789005144064) - (atan rho + (4967757600021511 / 81129638414606681695789005144064))) with (real (atan_core8 Wr) - atan rho) by ring; exact D0|clear - AL RB0; apply abs_le_inv in AL; apply Rabs_le; lra|lra|]. set (Z := fadd (atan_core8 Wr) pi_2_rem8) in *. rewrite u8 in EZ.
  assert (ZB : Rabs (atan rho + (4967757600021511 / 81129638414606681695789005144064)) <= (2625390593313478998205036615832208443 / 6338253001141147007483516026880000000)) by (eapply Rle_trans; [apply Rabs_triang|]; rewrite (Rabs_pos_eq (4967757600021511 / 81129638414606681695789005144064)) by lra; lra).
  assert (D1 : Rabs (real (pi_2 8) + real Z - atan a) <= (386067 / 1250000000000000000000)) by (rewrite AM, RP; clear - EZ ZB PN; set (zb := Rabs (atan rho + (4967757600021511 / 81129638414606681695789005144064))) in *; clearbody zb; apply abs_le_inv in EZ; apply Rabs_le; lra).
  assert (TL : (234582846053624473571900917463323939199 / 202824096036516704239472512860160000000) <= atan a) by (rewrite AM; clear - AL RB0 PN; apply abs_le_inv in AL; lra). pose proof (atan_bound a) as AB. rewrite (Rabs_pos_eq (atan a)) by lra.
  destruct (final_add fp8 (pi_2 8) Z (atan a) (386067 / 1250000000000000000000) FP FZ D1) as (F4 & E4); [rewrite Rabs_pos_eq; lra|lra|]. split; [exact F4|]. rewrite u8, (Rabs_pos_eq (atan a)) in E4 by lra. lra.
Qed.
Lemma atan_body_eq8 c A : atan_body8 c true A = if l_gt c A atan_lo8 then (if l_gt c A atan_hi8 then fadd (pi_2 8) (fadd (atan_core8 (fdiv (fneg (one 8)) A)) pi_2_rem8) else fadd (pi_4 8) (fadd (atan_core8 (fdiv (fsub A (one 8)) (fadd A (one 8)))) (fmul pi_2_rem8 (half 8)))) else if l_gt c A atan_hi8 then atan_body8 c true A else fadd (w0 8) (atan_core8 A).
Proof. unfold atan_body8, atan_core8, atan_t8. cbv zeta. destruct (l_gt c A atan_hi8), (l_gt c A atan_lo8); cbn [l_set andb negb]; reflexivity. Qed.
Lemma atan_body_ok8 c (A : word 8) : is_Finite A = true -> 0 <= real A -> is_Finite (atan_body8 c true A) = true /\ Rabs (real (atan_body8 c true A) - atan (real A)) <= / 1125899906842624 * Rabs (atan (real A)) + 2 * eta (w := 8).
Proof.
  intros F A0. destruct hi_real8 as (FH & RH). destruct lo_real8 as (FL & RL). pose proof (eta_pos fp8) as ET. pose proof (Rabs_pos (atan (real A))) as AP. rewrite atan_body_eq8.
  destruct (gt_real fp8 c A atan_hi8 F FH) as [(EH & BH)|(EH & BH)]; destruct (gt_real fp8 c A atan_lo8 F FL) as [(EL & BL)|(EL & BL)]; rewrite RH in BH; rewrite RL in BL; rewrite ?EH, ?EL.
  - destruct (atan_large8 A F ltac:(lra)) as (G1 & G2). split; [exact G1|]. eapply Rle_trans; [exact G2|]. lra.
  - lra.
  - destruct (Rle_dec (real A) 1) as [L1|L1].
    + destruct (atan_mid8_0 A F ltac:(lra)) as (G1 & G2). split; [exact G1|]. eapply Rle_trans; [exact G2|]. lra.
    + destruct (atan_mid8_1 A F ltac:(lra)) as (G1 & G2). split; [exact G1|]. eapply Rle_trans; [exact G2|]. lra.
  - assert (AB : Rabs (real A) <= (6601 / 10000)) by (rewrite Rabs_pos_eq; lra). destruct (atan_core_ok8 A F AB) as (G1 & G2). destruct (zero_add fp8 (atan_core8 A) (w0 8) G1 eq_refl eq_refl) as (G3 & G4). split; [exact G3|]. rewrite G4. eapply Rle_trans; [exact G2|]. destruct (atan_low (real A) _ AB) as (L1 & _). lra.
Qed.
Lemma atan_ok8 c (x : word 8) : is_Finite x = true -> is_Finite (atan8 c x) = true /\ Rabs (real (atan8 c x) - atan (real x)) <= / 1125899906842624 * Rabs (atan (real x)) + 2 * eta (w := 8).
Proof.
  intros F. destruct (abs_real fp8 x F) as (FA & RA). rewrite atan8_body, (finite_not_nan fp8 x F), (isfinite_ok fp8), F. cbn [l_qnan].
  destruct (atan_body_ok8 c (l_abs x) FA ltac:(rewrite RA; apply Rabs_pos)) as (G1 & G2). rewrite RA in G2. destruct (flip_real fp8 (flt x (w0 8)) (atan_body8 c true (l_abs x))) as (H1 & H2). rewrite H1, H2. split; [exact G1|].
  destruct (lt_zero_real fp8 x F) as [(E & L)|(E & L)]; rewrite E; [rewrite (Rabs_left (real x)), atan_opp, Rabs_Ropp in G2 by lra|rewrite (Rabs_pos_eq (real x)) in G2 by lra; exact G2].
  set (y := real (atan_body8 c true (l_abs x))) in *. replace (- y - atan (real x)) with (- (y - - atan (real x))) by ring. rewrite Rabs_Ropp. exact G2.
Qed.
