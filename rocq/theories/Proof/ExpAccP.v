(** The accuracy of exp. *)
From Coq Require Import ZArith Reals List Bool Lia Lra Psatz.
From Verif.Spec Require Import Seq FloatSpec RoundSpec MathSpec TransSpec AccuracySpec.
From Verif.Model Require Import Word Fp FpArith Transcend.
From Verif.Proof Require Import WordP FpP FpArithP FpIntP ConvertP MathP RealErrP SeriesP FoldP AccuracyP PolyP ExpRealP RealOpsP ExpSerP ExpRedP.
Import ListNotations.
Local Open Scope R_scope.
Lemma ln2_num : 878668439483319573618263538048 / 1267650600228229401496703205376 <= ln 2 <= 878668439483319573618263538049 / 1267650600228229401496703205376.
Proof. exact ln2_bounds. Qed.
Lemma prod_le a b c d : Rabs a <= c -> Rabs b <= d -> Rabs (a * b) <= c * d.
Proof. intros A B. rewrite Rabs_mult. apply Rmult_le_compat; auto using Rabs_pos. Qed.

Lemma exp_reduce4 sse41 (X : word 4) : is_Finite X = true -> - 87 <= real X <= 88 ->
  let z := l_floor sse41 (fadd (fmul (c_log2_e 4) X) (half 4)) in
  let X2 := fsub (fsub X (fmul z (c_ln2_large 4))) (fmul z (c_ln2_small 4)) in
  exists k, (-126 <= k <= 127)%Z /\ sval (cvt_int32 ToZero z) = k /\ is_Finite X2 = true /\ Rabs (real X2) <= 347 / 1000 /\ Rabs (real X - IZR k * ln 2) <= (1733 / 5000) /\ Rabs (real X2 - (real X - IZR k * ln 2)) <= (279623 / 6250000000000).
Proof.
  intros F HX0. assert (HX : Rabs (real X) <= 88) by (apply Rabs_le; lra). set (Hw := fp4). pose proof (app_exact X _ F HX) as Hx. set (x := real X) in *. pose proof ln2_num as L2.
  pose (WL := c_log2_e 4). pose (rL := (12102203 / 8388608)).
  assert (HL : app WL rL (12102203 / 8388608) 0) by (refine (eq_rect _ (fun z => app WL z (12102203 / 8388608) 0) (eq_rect _ (fun b => app WL _ b 0) (const_ok Hw WL (12102203) 8388608 _ _ _) _ _) _ _); [vm_compute; reflexivity|reflexivity|vm_compute; reflexivity|cbn [Z.abs]; lra|unfold rL; lra]).
  pose (WLx := fmul WL X). pose (rLx := rL * x).
  assert (HLx : app WLx rLx (317393 / 2500) (7567237 / 1000000000000)) by (refine (mul_w Hw _ _ _ _ _ _ _ _ _ _ HL Hx _ _ _ _ _ _ _); rewrite ?u4; lra).
  pose (Wh := half 4). pose (rh := (1 / 2)).
  assert (Hh : app Wh rh (1 / 2) 0) by (refine (eq_rect _ (fun z => app Wh z (1 / 2) 0) (eq_rect _ (fun b => app Wh _ b 0) (const_ok Hw Wh (1) 2 _ _ _) _ _) _ _); [vm_compute; reflexivity|reflexivity|vm_compute; reflexivity|cbn [Z.abs]; lra|unfold rh; lra]).
  pose (Wy := fadd WLx Wh). pose (ry := rLx + rh).
  assert (Hy : app Wy ry (318643 / 2500) (379107 / 25000000000)) by (refine (add_w Hw _ _ _ _ _ _ _ _ _ _ HLx Hh _ _ _); rewrite ?u4; lra).
  intros z X2. destruct Hy as (FY & _ & EY). assert (YB : Rabs (real Wy) <= 2000).
  { destruct HLx as (_ & HLx & _). apply abs_le_inv in HLx, EY. unfold ry, rh in EY. apply Rabs_le. lra. }
  destruct (floor_ok Hw sse41 Wy FY YB) as (k & FZ & VZ & KZ). change (l_floor sse41 Wy) with z in FZ, VZ. exists k.
  assert (HK : Rabs (x * rL - IZR k) <= 1 / 2 + (379107 / 25000000000)) by (apply abs_le_inv in EY; unfold ry, rLx, rh in EY; apply Rabs_le; lra).
  assert (LL : Rabs (1 - rL * ln 2) <= (20859 / 1562500000000)) by (unfold rL; apply Rabs_le; lra).
  assert (RR : Rabs (x - IZR k * ln 2) <= (1733 / 5000)).
  { replace (x - IZR k * ln 2) with (x * (1 - rL * ln 2) + (x * rL - IZR k) * ln 2) by ring. pose proof (prod_le _ _ _ _ HX LL) as A1. assert (A2 : Rabs (ln 2) <= 69315 / 100000) by (apply Rabs_le; lra). pose proof (prod_le _ _ _ _ HK A2) as A3.
    eapply Rle_trans; [apply Rabs_triang|]. lra. }
  assert (KR : IZR (-127) < IZR k < IZR 128) by (apply abs_le_inv in HK; clear - HK HX0; unfold rL in HK; change (IZR (-127)) with (-127); change (IZR 128) with 128; lra).
  assert (KI : (-126 <= k <= 127)%Z) by (destruct KR as (K1 & K2); apply lt_IZR in K1; apply lt_IZR in K2; lia). split; [exact KI|]. split; [apply (cvt_ok Hw z k FZ VZ); lia|].
  assert (KB : Rabs (IZR k) <= 127) by (destruct KI as (K1 & K2); apply IZR_le in K1, K2; apply Rabs_le; lra).
  destruct (mul_int_exact Hw z (c_ln2_large 4) k 355 140 FZ eq_refl VZ ltac:(vm_compute; reflexivity) ltac:(change (2 ^ (mant_bits 4 + 1))%Z with 16777216%Z; lia) ltac:(lia) ltac:(vm_compute; discriminate)) as (FM & VM).
  assert (RM : real (fmul z (c_ln2_large 4)) = IZR k * (355 / 512)) by (apply (scaled_real Hw _ k 355 140 512 VM); [lia|vm_compute; reflexivity]).
  assert (KC : Rabs (IZR k * (355 / 512 - ln 2)) <= (269487 / 10000000)) by (replace (269487 / 10000000) with (127 * (269487 / 1270000000)) by lra; apply prod_le; [exact KB|apply Rabs_le; lra]).
  pose (Wm := fmul z (c_ln2_large 4)). pose (rm := IZR k * (355 / 512)). assert (Hm : app Wm rm (1761133 / 20000) 0).
  { split; [exact FM|]. split; [|change (real Wm) with (real (fmul z (c_ln2_large 4))); rewrite RM; unfold rm, Rminus; rewrite Rplus_opp_r, Rabs_R0; lra]. unfold rm. replace (1761133 / 20000) with (127 * (1761133 / 2540000)) by lra. apply prod_le; [exact KB|rewrite Rabs_pos_eq; lra]. }
  pose (rz := IZR k). assert (Hz : app z rz 127 0) by (split; [exact FZ|]; split; [exact KB|]; rewrite (real_int Hw _ _ VZ); unfold rz, Rminus; rewrite Rplus_opp_r, Rabs_R0; lra).
  assert (DC : Rabs (IZR k * (355 / 512 + (- 14581891 / 68719476736) - ln 2)) <= (261397 / 1250000000000000)) by (replace (261397 / 1250000000000000) with (127 * (261397 / 158750000000000000)) by lra; apply prod_le; [exact KB|apply Rabs_le; lra]).
  pose (Wx1 := fsub X Wm). pose (rx1 := x - rm).
  assert (Hx1 : app Wx1 rx1 (373549 / 1000000) (1113263 / 50000000000000)) by (refine (sub_b Hw _ _ _ _ _ _ _ _ _ _ Hx Hm _ _ _); [clear - RR KC; apply abs_le_inv in RR, KC; unfold rm; apply Rabs_le; lra|rewrite ?u4; lra|rewrite ?u4; lra]).
  pose (Wc2 := c_ln2_small 4). pose (rc2 := (- 14581891 / 68719476736)).
  assert (Hc2 : app Wc2 rc2 (14581891 / 68719476736) 0) by (refine (eq_rect _ (fun z => app Wc2 z (14581891 / 68719476736) 0) (eq_rect _ (fun b => app Wc2 _ b 0) (const_ok Hw Wc2 (-14581891) 68719476736 _ _ _) _ _) _ _); [vm_compute; reflexivity|reflexivity|vm_compute; reflexivity|cbn [Z.abs]; lra|unfold rc2; lra]).
  pose (Wm2 := fmul z Wc2). pose (rm2 := rz * rc2).
  assert (Hm2 : app Wm2 rm2 (269487 / 10000000) (401567 / 250000000000000)) by (refine (mul_w Hw _ _ _ _ _ _ _ _ _ _ Hz Hc2 _ _ _ _ _ _ _); rewrite ?u4; lra).
  pose (Wx2 := fsub Wx1 Wm2). pose (rx2 := rx1 - rm2).
  assert (Hx2 : app Wx2 rx2 (346601 / 1000000) (69579 / 1562500000000)) by (refine (sub_b Hw _ _ _ _ _ _ _ _ _ _ Hx1 Hm2 _ _ _); [clear - RR DC; apply abs_le_inv in RR, DC; unfold rx1, rm, rm2, rz, rc2; apply Rabs_le; lra|rewrite ?u4; lra|rewrite ?u4; lra]).
  destruct Hx2 as (F2 & B2 & E2). change X2 with Wx2. split; [exact F2|]. assert (EE : Rabs (real Wx2 - (x - IZR k * ln 2)) <= (279623 / 6250000000000)).
  { clear - E2 DC. apply abs_le_inv in E2, DC. unfold rx2, rx1, rm, rm2, rz, rc2 in E2. apply Rabs_le. lra. }
  split; [|split; [exact RR|exact EE]]. clear - RR EE. apply abs_le_inv in RR, EE. apply Rabs_le. lra.
Qed.
Lemma exp_ok4 sse41 c (X : word 4) : is_Finite X = true -> - 87 <= real X <= 88 ->
  is_Finite (exp4 sse41 c X) = true /\ Rabs (real (exp4 sse41 c X) - exp (real X)) <= (1 / 2097152) * exp (real X).
Proof.
  intros F HX. destruct (exp_reduce4 sse41 X F HX) as (k & KI & KS & F2 & B2 & RR & E2). set (Hw := fp4). pose proof ln2_num as L2.
  unfold exp4. cbv zeta. set (z := l_floor sse41 _) in *. set (X2 := fsub (fsub X _) _) in *.
  assert (NO : l_gt c X maxlogf = false).
  { unfold l_gt, unordered. rewrite (finite_not_nan Hw X F). change (is_nan maxlogf) with false. cbn [orb]. destruct (flt maxlogf X) eqn:E; [|reflexivity]. exfalso. apply (flt_real Hw) in E. assert (M : 88 < real maxlogf) by (rewrite (real_frac Hw maxlogf (11629079) 131072) by (vm_compute; reflexivity); lra). lra. }
  assert (NU : flt X minlogf = false).
  { destruct (flt X minlogf) eqn:E; [|reflexivity]. exfalso. apply (flt_real Hw) in E. assert (M : real minlogf < - 87) by (rewrite (real_frac Hw minlogf (-11538227) 131072) by (vm_compute; reflexivity); lra). lra. }
  rewrite NO, NU. cbn [l_set l_zero]. destruct (exp_app4 X2 F2 B2) as (FS & ES). set (v := exp4_series X2) in *. set (x := real X) in *. set (r := x - IZR k * ln 2) in *.
  assert (EV : Rabs (real v - exp r) <= (469491 / 2500000000000)).
  { assert (D : Rabs (exp (real X2) - exp r) <= 177 / 125 * Rabs (real X2 - r)).
    { apply (exp_near _ _ (347 / 1000)); [exact B2|eapply Rle_trans; [exact RR|lra]|]. apply (exp_upper _ _ _ 8 (Req_le _ _ (Rabs_pos_eq (347 / 1000) ltac:(lra)))); [lra|]. change (zf 8) with 40320%Z. change (zf 9) with 362880%Z. (let l := eval vm_compute in (texp 8) in change (texp 8) with l). cbn [pe]. lra. }
    replace (real v - exp r) with ((real v - exp (real X2)) + (exp (real X2) - exp r)) by ring. eapply Rle_trans; [apply Rabs_triang|]. lra. }
  assert (RL : (1413 / 2000) <= exp r <= 14155 / 10000).
  { assert (U1 : forall s, Rabs s <= (1733 / 5000) -> exp s <= 14154 / 10000) by (intros s Hs; apply (exp_upper s _ _ 8 Hs); [lra|]; change (zf 8) with 40320%Z; change (zf 9) with 362880%Z; (let l := eval vm_compute in (texp 8) in change (texp 8) with l); cbn [pe]; lra).
    pose proof (U1 r RR) as A1. pose proof (U1 (- r) ltac:(rewrite Rabs_Ropp; exact RR)) as A2. pose proof (exp_pos r). pose proof (exp_pos (- r)). assert (E1 : exp (- r) * exp r = 1) by (rewrite <- exp_plus, Rplus_opp_l; apply exp_0). split; nra. }
  destruct (ldexp_real Hw v (cvt_int32 ToZero z) k FS) as (FL & RLD).
  - apply abs_le_inv in EV. lra.
  - exact KS.
  - change (@bias 4) with 127%Z. lia.
  - intros KE. assert (KR : IZR k = -126) by (now rewrite KE). unfold r in EV, RR. rewrite KR in EV, RR. clear - EV RR HX L2. pose proof (exp_ineq1_le (x - -126 * ln 2)). apply abs_le_inv in EV. assert (1 / 3 <= x - -126 * ln 2) by lra. lra.
  - split; [exact FL|]. rewrite RLD. assert (EX : exp x = exp r * pow2 k) by (unfold pow2, r; rewrite <- exp_plus; f_equal; ring). rewrite EX. rewrite <- Rmult_minus_distr_r, Rabs_mult. pose proof (exp_pos (IZR k * ln 2)) as PP. fold (pow2 k) in PP.
    rewrite (Rabs_pos_eq (pow2 k)) by lra. rewrite <- Rmult_assoc. apply Rmult_le_compat_r; [lra|]. lra.
Qed.
Lemma exp_reduce8 sse41 (X : word 8) : is_Finite X = true -> - 708 <= real X <= 708 ->
  let z := l_floor sse41 (fadd (fmul (c_log2_e 8) X) (half 8)) in
  let X2 := fsub (fsub X (fmul z (c_ln2_large 8))) (fmul z (c_ln2_small 8)) in
  exists k, (-1021 <= k <= 1021)%Z /\ sval (cvt_int32 ToZero z) = k /\ is_Finite X2 = true /\ Rabs (real X2) <= 347 / 1000 /\ Rabs (real X - IZR k * ln 2) <= (1733 / 5000) /\ Rabs (real X2 - (real X - IZR k * ln 2)) <= (68383 / 500000000000000000000).
Proof.
  intros F HX0. assert (HX : Rabs (real X) <= 708) by (apply Rabs_le; lra). set (Hw := fp8). pose proof (app_exact X _ F HX) as Hx. set (x := real X) in *. pose proof ln2_num as L2.
  pose (WL := c_log2_e 8). pose (rL := (3248660424278399 / 2251799813685248)).
  assert (HL : app WL rL (3248660424278399 / 2251799813685248) 0) by (refine (eq_rect _ (fun z => app WL z (3248660424278399 / 2251799813685248) 0) (eq_rect _ (fun b => app WL _ b 0) (const_ok Hw WL (3248660424278399) 2251799813685248 _ _ _) _ _) _ _); [vm_compute; reflexivity|reflexivity|vm_compute; reflexivity|cbn [Z.abs]; lra|unfold rL; lra]).
  pose (WLx := fmul WL X). pose (rLx := rL * x).
  assert (HLx : app WLx rLx (1021429 / 1000) (1134013 / 10000000000000000000)) by (refine (mul_w Hw _ _ _ _ _ _ _ _ _ _ HL Hx _ _ _ _ _ _ _); rewrite ?u8; lra).
  pose (Wh := half 8). pose (rh := (1 / 2)).
  assert (Hh : app Wh rh (1 / 2) 0) by (refine (eq_rect _ (fun z => app Wh z (1 / 2) 0) (eq_rect _ (fun b => app Wh _ b 0) (const_ok Hw Wh (1) 2 _ _ _) _ _) _ _); [vm_compute; reflexivity|reflexivity|vm_compute; reflexivity|cbn [Z.abs]; lra|unfold rh; lra]).
  pose (Wy := fadd WLx Wh). pose (ry := rLx + rh).
  assert (Hy : app Wy ry (1021929 / 1000) (2268583 / 10000000000000000000)) by (refine (add_w Hw _ _ _ _ _ _ _ _ _ _ HLx Hh _ _ _); rewrite ?u8; lra).
  intros z X2. destruct Hy as (FY & _ & EY). assert (YB : Rabs (real Wy) <= 2000).
  { destruct HLx as (_ & HLx & _). apply abs_le_inv in HLx, EY. unfold ry, rh in EY. apply Rabs_le. lra. }
  destruct (floor_ok Hw sse41 Wy FY YB) as (k & FZ & VZ & KZ). change (l_floor sse41 Wy) with z in FZ, VZ. exists k.
  assert (HK : Rabs (x * rL - IZR k) <= 1 / 2 + (2268583 / 10000000000000000000)) by (apply abs_le_inv in EY; unfold ry, rLx, rh in EY; apply Rabs_le; lra).
  assert (LL : Rabs (1 - rL * ln 2) <= (1410921 / 100000000000000000000000)) by (unfold rL; apply Rabs_le; lra).
  assert (RR : Rabs (x - IZR k * ln 2) <= (1733 / 5000)).
  { replace (x - IZR k * ln 2) with (x * (1 - rL * ln 2) + (x * rL - IZR k) * ln 2) by ring. pose proof (prod_le _ _ _ _ HX LL) as A1. assert (A2 : Rabs (ln 2) <= 69315 / 100000) by (apply Rabs_le; lra). pose proof (prod_le _ _ _ _ HK A2) as A3.
    eapply Rle_trans; [apply Rabs_triang|]. lra. }
  assert (KR : IZR (-1022) < IZR k < IZR 1022) by (apply abs_le_inv in HK; clear - HK HX0; unfold rL in HK; change (IZR (-1022)) with (-1022); change (IZR 1022) with 1022; lra).
  assert (KI : (-1021 <= k <= 1021)%Z) by (destruct KR as (K1 & K2); apply lt_IZR in K1; apply lt_IZR in K2; lia). split; [exact KI|]. split; [apply (cvt_ok Hw z k FZ VZ); lia|].
  assert (KB : Rabs (IZR k) <= 1021) by (destruct KI as (K1 & K2); apply IZR_le in K1, K2; apply Rabs_le; lra).
  destruct (mul_int_exact Hw z (c_ln2_large 8) k 355 1065 FZ eq_refl VZ ltac:(vm_compute; reflexivity) ltac:(change (2 ^ (mant_bits 8 + 1))%Z with 9007199254740992%Z; lia) ltac:(lia) ltac:(vm_compute; discriminate)) as (FM & VM).
  assert (RM : real (fmul z (c_ln2_large 8)) = IZR k * (355 / 512)) by (apply (scaled_real Hw _ k 355 1065 512 VM); [lia|vm_compute; reflexivity]).
  assert (KC : Rabs (IZR k * (355 / 512 - ln 2)) <= (1083253 / 5000000)) by (replace (1083253 / 5000000) with (1021 * (1083253 / 5105000000)) by lra; apply prod_le; [exact KB|apply Rabs_le; lra]).
  pose (Wm := fmul z (c_ln2_large 8)). pose (rm := IZR k * (355 / 512)). assert (Hm : app Wm rm (17698 / 25) 0).
  { split; [exact FM|]. split; [|change (real Wm) with (real (fmul z (c_ln2_large 8))); rewrite RM; unfold rm, Rminus; rewrite Rplus_opp_r, Rabs_R0; lra]. unfold rm. replace (17698 / 25) with (1021 * (17698 / 25525)) by lra. apply prod_le; [exact KB|rewrite Rabs_pos_eq; lra]. }
  pose (rz := IZR k). assert (Hz : app z rz 1021 0) by (split; [exact FZ|]; split; [exact KB|]; rewrite (real_int Hw _ _ VZ); unfold rz, Rminus; rewrite Rplus_opp_r, Rabs_R0; lra).
  assert (DC : Rabs (IZR k * (355 / 512 + (- 978574132388245 / 4611686018427387904) - ln 2)) <= (584949 / 50000000000000000000000)) by (replace (584949 / 50000000000000000000000) with (1021 * (584949 / 51050000000000000000000000)) by lra; apply prod_le; [exact KB|apply Rabs_le; lra]).
  pose (Wx1 := fsub X Wm). pose (rx1 := x - rm).
  assert (Hx1 : app Wx1 rx1 (563251 / 1000000) (6253343 / 100000000000000000000000)) by (refine (sub_b Hw _ _ _ _ _ _ _ _ _ _ Hx Hm _ _ _); [clear - RR KC; apply abs_le_inv in RR, KC; unfold rm; apply Rabs_le; lra|rewrite ?u8; lra|rewrite ?u8; lra]).
  pose (Wc2 := c_ln2_small 8). pose (rc2 := (- 978574132388245 / 4611686018427387904)).
  assert (Hc2 : app Wc2 rc2 (978574132388245 / 4611686018427387904) 0) by (refine (eq_rect _ (fun z => app Wc2 z (978574132388245 / 4611686018427387904) 0) (eq_rect _ (fun b => app Wc2 _ b 0) (const_ok Hw Wc2 (-978574132388245) 4611686018427387904 _ _ _) _ _) _ _); [vm_compute; reflexivity|reflexivity|vm_compute; reflexivity|cbn [Z.abs]; lra|unfold rc2; lra]).
  pose (Wm2 := fmul z Wc2). pose (rm2 := rz * rc2).
  assert (Hm2 : app Wm2 rm2 (1083253 / 5000000) (300663 / 12500000000000000000000)) by (refine (mul_w Hw _ _ _ _ _ _ _ _ _ _ Hz Hc2 _ _ _ _ _ _ _); rewrite ?u8; lra).
  pose (Wx2 := fsub Wx1 Wm2). pose (rx2 := rx1 - rm2).
  assert (Hx2 : app Wx2 rx2 (346601 / 1000000) (125067 / 1000000000000000000000)) by (refine (sub_b Hw _ _ _ _ _ _ _ _ _ _ Hx1 Hm2 _ _ _); [clear - RR DC; apply abs_le_inv in RR, DC; unfold rx1, rm, rm2, rz, rc2; apply Rabs_le; lra|rewrite ?u8; lra|rewrite ?u8; lra]).
  destruct Hx2 as (F2 & B2 & E2). change X2 with Wx2. split; [exact F2|]. assert (EE : Rabs (real Wx2 - (x - IZR k * ln 2)) <= (68383 / 500000000000000000000)).
  { clear - E2 DC. apply abs_le_inv in E2, DC. unfold rx2, rx1, rm, rm2, rz, rc2 in E2. apply Rabs_le. lra. }
  split; [|split; [exact RR|exact EE]]. clear - RR EE. apply abs_le_inv in RR, EE. apply Rabs_le. lra.
Qed.
Lemma exp_ok8 sse41 c (X : word 8) : is_Finite X = true -> - 708 <= real X <= 708 ->
  is_Finite (exp8 sse41 c X) = true /\ Rabs (real (exp8 sse41 c X) - exp (real X)) <= (1 / 562949953421312) * exp (real X).
Proof.
  intros F HX. destruct (exp_reduce8 sse41 X F HX) as (k & KI & KS & F2 & B2 & RR & E2). set (Hw := fp8). pose proof ln2_num as L2.
  unfold exp8. cbv zeta. set (z := l_floor sse41 _) in *. set (X2 := fsub (fsub X _) _) in *.
  assert (NO : l_gt c X maxlog = false).
  { unfold l_gt, unordered. rewrite (finite_not_nan Hw X F). change (is_nan maxlog) with false. cbn [orb]. destruct (flt maxlog X) eqn:E; [|reflexivity]. exfalso. apply (flt_real Hw) in E. assert (M : 708 < real maxlog) by (rewrite (real_frac Hw maxlog (3115560397004393) 4398046511104) by (vm_compute; reflexivity); lra). lra. }
  assert (NU : flt X minlog = false).
  { destruct (flt X minlog) eqn:E; [|reflexivity]. exfalso. apply (flt_real Hw) in E. assert (M : real minlog < - 708) by (rewrite (real_frac Hw minlog (-3115560397004393) 4398046511104) by (vm_compute; reflexivity); lra). lra. }
  rewrite NO, NU. cbn [l_set l_zero]. destruct (exp_app8 X2 F2 B2) as (FS & ES). set (v := exp8_series X2) in *. set (x := real X) in *. set (r := x - IZR k * ln 2) in *.
  assert (EV : Rabs (real v - exp r) <= (6930391 / 10000000000000000000000)).
  { assert (D : Rabs (exp (real X2) - exp r) <= 177 / 125 * Rabs (real X2 - r)).
    { apply (exp_near _ _ (347 / 1000)); [exact B2|eapply Rle_trans; [exact RR|lra]|]. apply (exp_upper _ _ _ 8 (Req_le _ _ (Rabs_pos_eq (347 / 1000) ltac:(lra)))); [lra|]. change (zf 8) with 40320%Z. change (zf 9) with 362880%Z. (let l := eval vm_compute in (texp 8) in change (texp 8) with l). cbn [pe]. lra. }
    replace (real v - exp r) with ((real v - exp (real X2)) + (exp (real X2) - exp r)) by ring. eapply Rle_trans; [apply Rabs_triang|]. lra. }
  assert (RL : (1413 / 2000) <= exp r <= 14155 / 10000).
  { assert (U1 : forall s, Rabs s <= (1733 / 5000) -> exp s <= 14154 / 10000) by (intros s Hs; apply (exp_upper s _ _ 8 Hs); [lra|]; change (zf 8) with 40320%Z; change (zf 9) with 362880%Z; (let l := eval vm_compute in (texp 8) in change (texp 8) with l); cbn [pe]; lra).
    pose proof (U1 r RR) as A1. pose proof (U1 (- r) ltac:(rewrite Rabs_Ropp; exact RR)) as A2. pose proof (exp_pos r). pose proof (exp_pos (- r)). assert (E1 : exp (- r) * exp r = 1) by (rewrite <- exp_plus, Rplus_opp_l; apply exp_0). split; nra. }
  destruct (ldexp_real Hw v (cvt_int32 ToZero z) k FS) as (FL & RLD).
  - apply abs_le_inv in EV. lra.
  - exact KS.
  - change (@bias 8) with 1023%Z. lia.
  - intros KE; exfalso; change (@bias 8) with 1023%Z in KE; lia.
  - split; [exact FL|]. rewrite RLD. assert (EX : exp x = exp r * pow2 k) by (unfold pow2, r; rewrite <- exp_plus; f_equal; ring). rewrite EX. rewrite <- Rmult_minus_distr_r, Rabs_mult. pose proof (exp_pos (IZR k * ln 2)) as PP. fold (pow2 k) in PP.
    rewrite (Rabs_pos_eq (pow2 k)) by lra. rewrite <- Rmult_assoc. apply Rmult_le_compat_r; [lra|]. lra.
Qed.
