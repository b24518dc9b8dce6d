(** The approximations of exp near 0: rounding errors and the distance from exp.  (The bounds were computed by a script;
    every one of them is checked here.) *)
From Coq Require Import ZArith Reals List Bool Lia Lra Psatz.
From Verif.Spec Require Import FloatSpec RoundSpec AccuracySpec.
From Verif.Model Require Import Word Fp FpArith Transcend.
From Verif.Proof Require Import WordP FpP FpArithP FpIntP RealErrP SeriesP PolyP ExpRealP RealOpsP.
Import ListNotations.
Local Open Scope R_scope.
Lemma in_range x b s a h n : Rabs x <= b -> (0 <= s)%Z -> IZR a <= - b * IZR (2 ^ s) -> b * IZR (2 ^ s) <= IZR (a + 2 * h * Z.of_nat n) -> IZR a <= x * IZR (2 ^ s) <= IZR (a + 2 * h * Z.of_nat n).
Proof. intros X Hs A B. apply abs_le_inv in X. assert (0 < IZR (2 ^ s)) by (apply IZR_lt, Z.pow_pos_nonneg; lia). split; [eapply Rle_trans; [exact A|]|eapply Rle_trans; [|exact B]]; apply Rmult_le_compat_r; lra. Qed.
Lemma exp_upper x b B n : Rabs x <= b -> b <= 1 -> pe (texp n) b / IZR (zf n) + 2 * b ^ S n / IZR (zf (S n)) <= B -> exp x <= B.
Proof.
  intros X B1 H. assert (B0 : 0 <= b) by (pose proof (Rabs_pos x); lra). apply abs_le_inv in X. apply Rle_trans with (exp b); [destruct (Req_dec x b) as [->|]; [lra|]; left; apply exp_increasing; lra|].
  pose proof (exp_texp b n b ltac:(rewrite Rabs_pos_eq; lra) B1) as E. apply abs_le_inv in E. lra.
Qed.

Definition ep4 : list Z := [68719476736; 68719476736; 34359738368; 11453245440; 2863251712; 572670464; 96083568; 13658471]%Z.
Lemma exp_poly4 x : Rabs x <= (347 / 1000) -> Rabs ((((((((13658471 / 68719476736) * x + (6005223 / 4294967296)) * x + (1118497 / 134217728)) * x + (11184577 / 268435456)) * x + (5592405 / 33554432)) * x + (1 / 2)) * (x * x) + x + 1) - exp x) <= (49109 / 25000000000000).
Proof.
  intros X. assert (C : Rabs (pe (padd (pscale 39916800 ep4) (pscale (- 68719476736) (texp 11))) x) <= 5388324760).
  { apply (pcheck_ok _ 10 4 5388324760 ltac:(lia) ltac:(lia) 89%nat (-356)); [vm_compute; reflexivity|lia|]. apply (in_range x _ _ _ _ _ X); [lia| |]; change (2 ^ 10)%Z with 1024%Z; [|change (-356 + 2 * 4 * Z.of_nat 89)%Z with 356%Z]; lra. }
  rewrite pe_add, !pe_scale in C. pose proof (exp_texp x 11 _ X ltac:(lra)) as T. change (zf 11) with 39916800%Z in T. change (zf 12) with 479001600%Z in T.
  replace (((((((13658471 / 68719476736) * x + (6005223 / 4294967296)) * x + (1118497 / 134217728)) * x + (11184577 / 268435456)) * x + (5592405 / 33554432)) * x + (1 / 2)) * (x * x) + x + 1) with (pe ep4 x / 68719476736) by (unfold ep4; cbn [pe]; field). set (p := pe ep4 x) in *. set (t := pe (texp 11) x) in *. clearbody p t. apply abs_le_inv in C, T. apply Rabs_le. lra.
Qed.
Lemma exp_app4 (X : word 4) : is_Finite X = true -> Rabs (real X) <= (347 / 1000) ->
  is_Finite (exp4_series X) = true /\ Rabs (real (exp4_series X) - exp (real X)) <= (24889 / 200000000000).
Proof.
  intros F HX. set (Hw := fp4). pose proof (app_exact X _ F HX) as Hx. pose proof (exp_poly4 (real X) HX) as PD. set (x := real X) in *.
  assert (EB : exp x <= (177 / 125)) by (apply (exp_upper x _ _ 8 HX); [lra|]; change (zf 8) with 40320%Z; change (zf 9) with 362880%Z; (let l := eval vm_compute in (texp 8) in change (texp 8) with l); cbn [pe]; lra).
  pose proof (exp_pos x) as EP. assert (PB : Rabs (((((((13658471 / 68719476736) * x + (6005223 / 4294967296)) * x + (1118497 / 134217728)) * x + (11184577 / 268435456)) * x + (5592405 / 33554432)) * x + (1 / 2)) * (x * x) + x + 1) <= (71 / 50)) by (apply abs_le_inv in PD; apply Rabs_le; lra).
  pose (Wpc0 := (flit 4 19875691500 14)). pose (rpc0 := (13658471 / 68719476736)).
  assert (Hpc0 : app Wpc0 rpc0 (13658471 / 68719476736) 0) by (refine (eq_rect _ (fun z => app Wpc0 z (13658471 / 68719476736) 0) (eq_rect _ (fun b => app Wpc0 _ b 0) (const_ok Hw Wpc0 (13658471) 68719476736 _ _ _) _ _) _ _); [vm_compute; reflexivity|reflexivity|vm_compute; reflexivity|cbn [Z.abs]; lra|unfold rpc0; lra]).
  pose (Wpc1 := (flit 4 13981999507 13)). pose (rpc1 := (6005223 / 4294967296)).
  assert (Hpc1 : app Wpc1 rpc1 (6005223 / 4294967296) 0) by (refine (eq_rect _ (fun z => app Wpc1 z (6005223 / 4294967296) 0) (eq_rect _ (fun b => app Wpc1 _ b 0) (const_ok Hw Wpc1 (6005223) 4294967296 _ _ _) _ _) _ _); [vm_compute; reflexivity|reflexivity|vm_compute; reflexivity|cbn [Z.abs]; lra|unfold rpc1; lra]).
  pose (Wpm1 := fmul Wpc0 X). pose (rpm1 := rpc0 * x).
  assert (Hpm1 : app Wpm1 rpm1 (1379373 / 20000000000) (1027713 / 250000000000000000)) by (refine (mul_w Hw _ _ _ _ _ _ _ _ _ _ Hpc0 Hx _ _ _ _ _ _ _); rewrite ?u4; lra).
  pose (Wpy1 := fadd Wpm1 Wpc1). pose (rpy1 := rpm1 + rpc1).
  assert (Hpy1 : app Wpy1 rpy1 (1467169 / 1000000000) (4578047 / 50000000000000000)) by (refine (add_w Hw _ _ _ _ _ _ _ _ _ _ Hpm1 Hpc1 _ _ _); rewrite ?u4; lra).
  pose (Wpc2 := (flit 4 83334519073 13)). pose (rpc2 := (1118497 / 134217728)).
  assert (Hpc2 : app Wpc2 rpc2 (1118497 / 134217728) 0) by (refine (eq_rect _ (fun z => app Wpc2 z (1118497 / 134217728) 0) (eq_rect _ (fun b => app Wpc2 _ b 0) (const_ok Hw Wpc2 (1118497) 134217728 _ _ _) _ _) _ _); [vm_compute; reflexivity|reflexivity|vm_compute; reflexivity|cbn [Z.abs]; lra|unfold rpc2; lra]).
  pose (Wpm2 := fmul Wpy1 X). pose (rpm2 := rpy1 * x).
  assert (Hpm2 : app Wpm2 rpm2 (5091077 / 10000000000) (6211683 / 100000000000000000)) by (refine (mul_w Hw _ _ _ _ _ _ _ _ _ _ Hpy1 Hx _ _ _ _ _ _ _); rewrite ?u4; lra).
  pose (Wpy2 := fadd Wpm2 Wpc2). pose (rpy2 := rpm2 + rpc2).
  assert (Hpy2 : app Wpy2 rpy2 (27633 / 3125000) (1178349 / 2000000000000000)) by (refine (add_w Hw _ _ _ _ _ _ _ _ _ _ Hpm2 Hpc2 _ _ _); rewrite ?u4; lra).
  pose (Wpc3 := (flit 4 41665795894 12)). pose (rpc3 := (11184577 / 268435456)).
  assert (Hpc3 : app Wpc3 rpc3 (11184577 / 268435456) 0) by (refine (eq_rect _ (fun z => app Wpc3 z (11184577 / 268435456) 0) (eq_rect _ (fun b => app Wpc3 _ b 0) (const_ok Hw Wpc3 (11184577) 268435456 _ _ _) _ _) _ _); [vm_compute; reflexivity|reflexivity|vm_compute; reflexivity|cbn [Z.abs]; lra|unfold rpc3; lra]).
  pose (Wpm3 := fmul Wpy2 X). pose (rpm3 := rpy2 * x).
  assert (Hpm3 : app Wpm3 rpm3 (3068369 / 1000000000) (1936663 / 5000000000000000)) by (refine (mul_w Hw _ _ _ _ _ _ _ _ _ _ Hpy2 Hx _ _ _ _ _ _ _); rewrite ?u4; lra).
  pose (Wpy3 := fadd Wpm3 Wpc3). pose (rpy3 := rpm3 + rpc3).
  assert (Hpy3 : app Wpy3 rpy3 (4473417 / 100000000) (3053697 / 1000000000000000)) by (refine (add_w Hw _ _ _ _ _ _ _ _ _ _ Hpm3 Hpc3 _ _ _); rewrite ?u4; lra).
  pose (Wpc4 := (flit 4 16666665459 11)). pose (rpc4 := (5592405 / 33554432)).
  assert (Hpc4 : app Wpc4 rpc4 (5592405 / 33554432) 0) by (refine (eq_rect _ (fun z => app Wpc4 z (5592405 / 33554432) 0) (eq_rect _ (fun b => app Wpc4 _ b 0) (const_ok Hw Wpc4 (5592405) 33554432 _ _ _) _ _) _ _); [vm_compute; reflexivity|reflexivity|vm_compute; reflexivity|cbn [Z.abs]; lra|unfold rpc4; lra]).
  pose (Wpm4 := fmul Wpy3 X). pose (rpm4 := rpy3 * x).
  assert (Hpm4 : app Wpm4 rpm4 (388069 / 25000000) (992431 / 500000000000000)) by (refine (mul_w Hw _ _ _ _ _ _ _ _ _ _ Hpy3 Hx _ _ _ _ _ _ _); rewrite ?u4; lra).
  pose (Wpy4 := fadd Wpm4 Wpc4). pose (rpy4 := rpm4 + rpc4).
  assert (Hpy4 : app Wpy4 rpy4 (364379 / 2000000) (1284421 / 100000000000000)) by (refine (add_w Hw _ _ _ _ _ _ _ _ _ _ Hpm4 Hpc4 _ _ _); rewrite ?u4; lra).
  pose (Wpc5 := (flit 4 50000001201 11)). pose (rpc5 := (1 / 2)).
  assert (Hpc5 : app Wpc5 rpc5 (1 / 2) 0) by (refine (eq_rect _ (fun z => app Wpc5 z (1 / 2) 0) (eq_rect _ (fun b => app Wpc5 _ b 0) (const_ok Hw Wpc5 (1) 2 _ _ _) _ _) _ _); [vm_compute; reflexivity|reflexivity|vm_compute; reflexivity|cbn [Z.abs]; lra|unfold rpc5; lra]).
  pose (Wpm5 := fmul Wpy4 X). pose (rpm5 := rpy4 * x).
  assert (Hpm5 : app Wpm5 rpm5 (790247 / 12500000) (8225133 / 1000000000000000)) by (refine (mul_w Hw _ _ _ _ _ _ _ _ _ _ Hpy4 Hx _ _ _ _ _ _ _); rewrite ?u4; lra).
  pose (Wpy5 := fadd Wpm5 Wpc5). pose (rpy5 := rpm5 + rpc5).
  assert (Hpy5 : app Wpy5 rpy5 (2816099 / 5000000) (835913 / 20000000000000)) by (refine (add_w Hw _ _ _ _ _ _ _ _ _ _ Hpm5 Hpc5 _ _ _); rewrite ?u4; lra).
  pose (Wt := fmul X X). pose (rt := x * x).
  assert (Ht : app Wt rt (120409 / 1000000) (897117 / 125000000000000)) by (refine (mul_w Hw _ _ _ _ _ _ _ _ _ _ Hx Hx _ _ _ _ _ _ _); rewrite ?u4; lra).
  pose (Wz := fmul Wpy5 Wt). pose (rz := rpy5 * rt).
  assert (Hz : app Wz rz (3390837 / 50000000) (81981 / 6250000000000)) by (refine (mul_w Hw _ _ _ _ _ _ _ _ _ _ Hpy5 Ht _ _ _ _ _ _ _); rewrite ?u4; lra).
  pose (Wa := fadd Wz X). pose (ra := rz + x).
  assert (Ha : app Wa ra (518521 / 1250000) (3784197 / 100000000000000)) by (refine (add_w Hw _ _ _ _ _ _ _ _ _ _ Hz Hx _ _ _); rewrite ?u4; lra).
  pose (Wo := one 4). pose (ro := 1).
  assert (Ho : app Wo ro 1 0) by (refine (eq_rect _ (fun z => app Wo z 1 0) (eq_rect _ (fun b => app Wo _ b 0) (const_ok Hw Wo (1) 1 _ _ _) _ _) _ _); [vm_compute; reflexivity|reflexivity|vm_compute; reflexivity|cbn [Z.abs]; lra|unfold ro; lra]).
  pose (Wr := fadd Wa Wo). pose (rr := ra + ro).
  assert (Hr : app Wr rr (71 / 50) (612403 / 5000000000000)) by (refine (add_b Hw _ _ _ _ _ _ _ _ _ _ Ha Ho _ _ _); [exact PB|rewrite ?u4; lra|rewrite ?u4; lra]).
  destruct Hr as (FR & _ & ER). change (exp4_series X) with Wr. split; [exact FR|]. change rr with (((((((13658471 / 68719476736) * x + (6005223 / 4294967296)) * x + (1118497 / 134217728)) * x + (11184577 / 268435456)) * x + (5592405 / 33554432)) * x + (1 / 2)) * (x * x) + x + 1) in ER. clear - ER PD. apply abs_le_inv in ER, PD. apply Rabs_le. lra.
Qed.
Definition en8 : list Z := [147573952589676412928; 73786976294838206464; 16769237618268545024; 2235704117897756160; 186273997050533888; 9310233554360272; 221507399824125]%Z.
Definition ed8 : list Z := [147573952589676412928; (-73786976294838206464); 16769237618268545024; (-2235704117897756160); 186273997050533888; (-9310233554360272); 221507399824125]%Z.
Lemma exp_rat8 x : Rabs x <= (347 / 1000) -> (8 / 5) <= ((((221507399824125 / 73786976294838206464) * (x * x) + (90954100122331 / 36028797018963968)) * (x * x) + (2047026076448797 / 9007199254740992)) * (x * x) + 2) - (x * (((581889597147517 / 4611686018427387904) * (x * x) + (4366609605269055 / 144115188075855872)) * (x * x) + 1)) /\ Rabs ((1 + 2 * ((x * (((581889597147517 / 4611686018427387904) * (x * x) + (4366609605269055 / 144115188075855872)) * (x * x) + 1)) / (((((221507399824125 / 73786976294838206464) * (x * x) + (90954100122331 / 36028797018963968)) * (x * x) + (2047026076448797 / 9007199254740992)) * (x * x) + 2) - (x * (((581889597147517 / 4611686018427387904) * (x * x) + (4366609605269055 / 144115188075855872)) * (x * x) + 1))))) - exp x) <= (1474541 / 10000000000000000000000000).
Proof.
  intros X. assert (C : Rabs (pe (padd (pscale 355687428096000 en8) (pscale (-1) (pmul ed8 (texp 17)))) x) <= 6191845238820339).
  { apply (pcheck_ok _ 10 4 6191845238820339 ltac:(lia) ltac:(lia) 89%nat (-356)); [vm_compute; reflexivity|lia|]. apply (in_range x _ _ _ _ _ X); [lia| |]; change (2 ^ 10)%Z with 1024%Z; [|change (-356 + 2 * 4 * Z.of_nat 89)%Z with 356%Z]; lra. }
  assert (D : Rabs (pe (padd ed8 [(- 147573952589676412928)%Z]) x) <= 29514790517935282585).
  { apply (pcheck_ok _ 10 4 29514790517935282585 ltac:(lia) ltac:(lia) 89%nat (-356)); [vm_compute; reflexivity|lia|]. apply (in_range x _ _ _ _ _ X); [lia| |]; change (2 ^ 10)%Z with 1024%Z; [|change (-356 + 2 * 4 * Z.of_nat 89)%Z with 356%Z]; lra. }
  rewrite pe_add, !pe_scale, pe_mul in C. rewrite pe_add in D. cbn [pe] in D. pose proof (exp_texp x 17 _ X ltac:(lra)) as T. change (zf 17) with 355687428096000%Z in T. change (zf 18) with 6402373705728000%Z in T.
  assert (ED : ((((221507399824125 / 73786976294838206464) * (x * x) + (90954100122331 / 36028797018963968)) * (x * x) + (2047026076448797 / 9007199254740992)) * (x * x) + 2) - (x * (((581889597147517 / 4611686018427387904) * (x * x) + (4366609605269055 / 144115188075855872)) * (x * x) + 1)) = pe ed8 x / 73786976294838206464) by (unfold ed8; cbn [pe]; field). assert (EN : ((((221507399824125 / 73786976294838206464) * (x * x) + (90954100122331 / 36028797018963968)) * (x * x) + (2047026076448797 / 9007199254740992)) * (x * x) + 2) + (x * (((581889597147517 / 4611686018427387904) * (x * x) + (4366609605269055 / 144115188075855872)) * (x * x) + 1)) = pe en8 x / 73786976294838206464) by (unfold en8; cbn [pe]; field).
  assert (D1 : (590295810358705651712 / 5) <= pe ed8 x) by (apply abs_le_inv in D; rewrite Rmult_0_r, Rplus_0_r in D; lra). clear D.
  set (A := ((((221507399824125 / 73786976294838206464) * (x * x) + (90954100122331 / 36028797018963968)) * (x * x) + (2047026076448797 / 9007199254740992)) * (x * x) + 2)) in *. set (Bx := (x * (((581889597147517 / 4611686018427387904) * (x * x) + (4366609605269055 / 144115188075855872)) * (x * x) + 1))) in *. split; [rewrite ED; lra|].
  replace (1 + 2 * (Bx / (A - Bx))) with (pe en8 x / pe ed8 x); [|replace (pe en8 x) with ((A + Bx) * 73786976294838206464) by (rewrite EN; field); replace (pe ed8 x) with ((A - Bx) * 73786976294838206464) by (rewrite ED; field); field; rewrite ED; lra].
  set (nn := pe en8 x) in *. set (dd := pe ed8 x) in *. set (t := pe (texp 17) x) in *. clearbody nn dd t. clear ED EN.
  assert (Q : Rabs (nn / dd - t / 355687428096000) <= (98283257759053 / 666542217785181487177589902540800)).
  { replace (nn / dd - t / 355687428096000) with ((355687428096000 * nn + -1 * (dd * t)) * / dd * / 355687428096000) by (field; lra). rewrite !Rabs_mult, (Rabs_pos_eq (/ 355687428096000)) by lra. rewrite (Rabs_pos_eq (/ dd)) by (left; apply Rinv_0_lt_compat; lra).
    assert (I : / dd <= / (590295810358705651712 / 5)) by (apply Rinv_le_contravar; lra). assert (I0 : 0 < / dd) by (apply Rinv_0_lt_compat; lra).
    assert (J : Rabs (355687428096000 * nn + -1 * (dd * t)) * / dd <= 6191845238820339 * / (590295810358705651712 / 5)) by (apply Rmult_le_compat; auto using Rabs_pos; lra). lra. }
  clear - T Q. apply abs_le_inv in Q, T. apply Rabs_le. lra.
Qed.
Lemma exp_app8 (X : word 8) : is_Finite X = true -> Rabs (real X) <= (347 / 1000) ->
  is_Finite (exp8_series X) = true /\ Rabs (real (exp8_series X) - exp (real X)) <= (624223 / 1250000000000000000000).
Proof.
  intros F HX. set (Hw := fp8). pose proof (app_exact X _ F HX) as Hx. destruct (exp_rat8 (real X) HX) as (DB0 & PD). set (x := real X) in *.
  assert (EB : exp x <= (177 / 125)) by (apply (exp_upper x _ _ 8 HX); [lra|]; change (zf 8) with 40320%Z; change (zf 9) with 362880%Z; (let l := eval vm_compute in (texp 8) in change (texp 8) with l); cbn [pe]; lra).
  assert (EP : (7 / 10) <= exp x) by (pose proof (exp_texp x 8 _ HX ltac:(lra)) as T; assert (E1 : exp (- x) <= (177 / 125)) by (apply (exp_upper (- x) (347 / 1000) _ 8); [rewrite Rabs_Ropp; exact HX|lra|]; change (zf 8) with 40320%Z; change (zf 9) with 362880%Z; (let l := eval vm_compute in (texp 8) in change (texp 8) with l); cbn [pe]; lra); pose proof (exp_pos x); pose proof (exp_pos (- x)); assert (E2 : exp (- x) * exp x = 1) by (rewrite <- exp_plus, Rplus_opp_l; apply exp_0); nra).
  assert (PB : Rabs (1 + 2 * ((x * (((581889597147517 / 4611686018427387904) * (x * x) + (4366609605269055 / 144115188075855872)) * (x * x) + 1)) / (((((221507399824125 / 73786976294838206464) * (x * x) + (90954100122331 / 36028797018963968)) * (x * x) + (2047026076448797 / 9007199254740992)) * (x * x) + 2) - (x * (((581889597147517 / 4611686018427387904) * (x * x) + (4366609605269055 / 144115188075855872)) * (x * x) + 1))))) <= (71 / 50)) by (apply abs_le_inv in PD; apply Rabs_le; lra).
  assert (RB : Rabs ((x * (((581889597147517 / 4611686018427387904) * (x * x) + (4366609605269055 / 144115188075855872)) * (x * x) + 1)) / (((((221507399824125 / 73786976294838206464) * (x * x) + (90954100122331 / 36028797018963968)) * (x * x) + (2047026076448797 / 9007199254740992)) * (x * x) + 2) - (x * (((581889597147517 / 4611686018427387904) * (x * x) + (4366609605269055 / 144115188075855872)) * (x * x) + 1)))) <= (21 / 100)) by (set (vv := (x * (((581889597147517 / 4611686018427387904) * (x * x) + (4366609605269055 / 144115188075855872)) * (x * x) + 1)) / (((((221507399824125 / 73786976294838206464) * (x * x) + (90954100122331 / 36028797018963968)) * (x * x) + (2047026076448797 / 9007199254740992)) * (x * x) + 2) - (x * (((581889597147517 / 4611686018427387904) * (x * x) + (4366609605269055 / 144115188075855872)) * (x * x) + 1)))) in *; clearbody vv; apply abs_le_inv in PD; apply Rabs_le; lra).
  assert (DB : (8 / 5) <= Rabs (((((221507399824125 / 73786976294838206464) * (x * x) + (90954100122331 / 36028797018963968)) * (x * x) + (2047026076448797 / 9007199254740992)) * (x * x) + 2) - (x * (((581889597147517 / 4611686018427387904) * (x * x) + (4366609605269055 / 144115188075855872)) * (x * x) + 1)))) by (rewrite Rabs_pos_eq; lra).
  pose (Wt := fmul X X). pose (rt := x * x).
  assert (Ht : app Wt rt (120409 / 1000000) (1336809 / 100000000000000000000000)) by (refine (mul_w Hw _ _ _ _ _ _ _ _ _ _ Hx Hx _ _ _ _ _ _ _); rewrite ?u8; lra).
  pose (Wpc0 := (f8 1 0x089cdd5e44be8 (-13))). pose (rpc0 := (581889597147517 / 4611686018427387904)).
  assert (Hpc0 : app Wpc0 rpc0 (581889597147517 / 4611686018427387904) 0) by (refine (eq_rect _ (fun z => app Wpc0 z (581889597147517 / 4611686018427387904) 0) (eq_rect _ (fun b => app Wpc0 _ b 0) (const_ok Hw Wpc0 (581889597147517) 4611686018427387904 _ _ _) _ _) _ _); [vm_compute; reflexivity|reflexivity|vm_compute; reflexivity|cbn [Z.abs]; lra|unfold rpc0; lra]).
  pose (Wpc1 := (f8 1 0xf06d10cca2c7e (-6))). pose (rpc1 := (4366609605269055 / 144115188075855872)).
  assert (Hpc1 : app Wpc1 rpc1 (4366609605269055 / 144115188075855872) 0) by (refine (eq_rect _ (fun z => app Wpc1 z (4366609605269055 / 144115188075855872) 0) (eq_rect _ (fun b => app Wpc1 _ b 0) (const_ok Hw Wpc1 (4366609605269055) 144115188075855872 _ _ _) _ _) _ _); [vm_compute; reflexivity|reflexivity|vm_compute; reflexivity|cbn [Z.abs]; lra|unfold rpc1; lra]).
  pose (Wpm1 := fmul Wpc0 Wt). pose (rpm1 := rpc0 * rt).
  assert (Hpm1 : app Wpm1 rpm1 (1519287 / 100000000000) (421687 / 125000000000000000000000000)) by (refine (mul_w Hw _ _ _ _ _ _ _ _ _ _ Hpc0 Ht _ _ _ _ _ _ _); rewrite ?u8; lra).
  pose (Wpy1 := fadd Wpm1 Wpc1). pose (rpy1 := rpm1 + rpc1).
  assert (Hpy1 : app Wpy1 rpy1 (378933 / 12500000) (134759 / 40000000000000000000000)) by (refine (add_w Hw _ _ _ _ _ _ _ _ _ _ Hpm1 Hpc1 _ _ _); rewrite ?u8; lra).
  pose (Wpc2 := (f8 1 0 0)). pose (rpc2 := 1).
  assert (Hpc2 : app Wpc2 rpc2 1 0) by (refine (eq_rect _ (fun z => app Wpc2 z 1 0) (eq_rect _ (fun b => app Wpc2 _ b 0) (const_ok Hw Wpc2 (1) 1 _ _ _) _ _) _ _); [vm_compute; reflexivity|reflexivity|vm_compute; reflexivity|cbn [Z.abs]; lra|unfold rpc2; lra]).
  pose (Wpm2 := fmul Wpy1 Wt). pose (rpm2 := rpy1 * rt).
  assert (Hpm2 : app Wpm2 rpm2 (912539 / 250000000) (1216153 / 1000000000000000000000000)) by (refine (mul_w Hw _ _ _ _ _ _ _ _ _ _ Hpy1 Ht _ _ _ _ _ _ _); rewrite ?u8; lra).
  pose (Wpy2 := fadd Wpm2 Wpc2). pose (rpy2 := rpm2 + rpc2).
  assert (Hpy2 : app Wpy2 rpy2 (1003651 / 1000000) (563219 / 5000000000000000000000)) by (refine (add_w Hw _ _ _ _ _ _ _ _ _ _ Hpm2 Hpc2 _ _ _); rewrite ?u8; lra).
  pose (Wpx := fmul X Wpy2). pose (rpx := x * rpy2).
  assert (Hpx : app Wpx rpx (3482669 / 10000000) (97191 / 1250000000000000000000)) by (refine (mul_w Hw _ _ _ _ _ _ _ _ _ _ Hx Hpy2 _ _ _ _ _ _ _); rewrite ?u8; lra).
  pose (Wqc0 := (f8 1 0x92eb6bc365fa0 (-19))). pose (rqc0 := (221507399824125 / 73786976294838206464)).
  assert (Hqc0 : app Wqc0 rqc0 (221507399824125 / 73786976294838206464) 0) by (refine (eq_rect _ (fun z => app Wqc0 z (221507399824125 / 73786976294838206464) 0) (eq_rect _ (fun b => app Wqc0 _ b 0) (const_ok Hw Wqc0 (221507399824125) 73786976294838206464 _ _ _) _ _) _ _); [vm_compute; reflexivity|reflexivity|vm_compute; reflexivity|cbn [Z.abs]; lra|unfold rqc0; lra]).
  pose (Wqc1 := (f8 1 0x4ae39b508b6c0 (-9))). pose (rqc1 := (90954100122331 / 36028797018963968)).
  assert (Hqc1 : app Wqc1 rqc1 (90954100122331 / 36028797018963968) 0) by (refine (eq_rect _ (fun z => app Wqc1 z (90954100122331 / 36028797018963968) 0) (eq_rect _ (fun b => app Wqc1 _ b 0) (const_ok Hw Wqc1 (90954100122331) 36028797018963968 _ _ _) _ _) _ _); [vm_compute; reflexivity|reflexivity|vm_compute; reflexivity|cbn [Z.abs]; lra|unfold rqc1; lra]).
  pose (Wqm1 := fmul Wqc0 Wt). pose (rqm1 := rqc0 * rt).
  assert (Hqm1 : app Wqm1 rqm1 (3614661 / 10000000000000) (100327 / 1250000000000000000000000000)) by (refine (mul_w Hw _ _ _ _ _ _ _ _ _ _ Hqc0 Ht _ _ _ _ _ _ _); rewrite ?u8; lra).
  pose (Wqy1 := fadd Wqm1 Wqc1). pose (rqy1 := rqm1 + rqc1).
  assert (Hqy1 : app Wqy1 rqy1 (504969 / 200000000) (350493 / 1250000000000000000000000)) by (refine (add_w Hw _ _ _ _ _ _ _ _ _ _ Hqm1 Hqc1 _ _ _); rewrite ?u8; lra).
  pose (Wqc2 := (f8 1 0xd17099887e074 (-3))). pose (rqc2 := (2047026076448797 / 9007199254740992)).
  assert (Hqc2 : app Wqc2 rqc2 (2047026076448797 / 9007199254740992) 0) by (refine (eq_rect _ (fun z => app Wqc2 z (2047026076448797 / 9007199254740992) 0) (eq_rect _ (fun b => app Wqc2 _ b 0) (const_ok Hw Wqc2 (2047026076448797) 9007199254740992 _ _ _) _ _) _ _); [vm_compute; reflexivity|reflexivity|vm_compute; reflexivity|cbn [Z.abs]; lra|unfold rqc2; lra]).
  pose (Wqm2 := fmul Wqy1 Wt). pose (rqm2 := rqy1 * rt).
  assert (Hqm2 : app Wqm2 rqm2 (3040141 / 10000000000) (253167 / 2500000000000000000000000)) by (refine (mul_w Hw _ _ _ _ _ _ _ _ _ _ Hqy1 Ht _ _ _ _ _ _ _); rewrite ?u8; lra).
  pose (Wqy2 := fadd Wqm2 Wqc2). pose (rqy2 := rqm2 + rqc2).
  assert (Hqy2 : app Wqy2 rqy2 (142231 / 625000) (2536657 / 100000000000000000000000)) by (refine (add_w Hw _ _ _ _ _ _ _ _ _ _ Hqm2 Hqc2 _ _ _); rewrite ?u8; lra).
  pose (Wqc3 := (f8 1 0 1)). pose (rqc3 := 2).
  assert (Hqc3 : app Wqc3 rqc3 2 0) by (refine (eq_rect _ (fun z => app Wqc3 z 2 0) (eq_rect _ (fun b => app Wqc3 _ b 0) (const_ok Hw Wqc3 (2) 1 _ _ _) _ _) _ _); [vm_compute; reflexivity|reflexivity|vm_compute; reflexivity|cbn [Z.abs]; lra|unfold rqc3; lra]).
  pose (Wqm3 := fmul Wqy2 Wt). pose (rqm3 := rqy2 * rt).
  assert (Hqm3 : app Wqm3 rqm3 (2740143 / 100000000) (571169 / 62500000000000000000000)) by (refine (mul_w Hw _ _ _ _ _ _ _ _ _ _ Hqy2 Ht _ _ _ _ _ _ _); rewrite ?u8; lra).
  pose (Wqy3 := fadd Wqm3 Wqc3). pose (rqy3 := rqm3 + rqc3).
  assert (Hqy3 : app Wqy3 rqy3 (1013701 / 500000) (146391 / 625000000000000000000)) by (refine (add_w Hw _ _ _ _ _ _ _ _ _ _ Hqm3 Hqc3 _ _ _); rewrite ?u8; lra).
  pose (Wd := fsub Wqy3 Wpx). pose (rd := rqy3 - rpx).
  assert (Hd : app Wd rd (2375669 / 1000000) (5757307 / 10000000000000000000000)) by (refine (sub_w Hw _ _ _ _ _ _ _ _ _ _ Hqy3 Hpx _ _ _); rewrite ?u8; lra).
  pose (Wv := fdiv Wpx Wd). pose (rv := rpx / rd).
  assert (Hv : app Wv rv (21 / 100) (1474749 / 10000000000000000000000)) by (refine (div_w Hw _ _ _ _ _ _ _ _ (8 / 5) (620801 / 5000000000000000000000) _ _ Hpx Hd _ _ _ _ _ _ _ _); [exact DB|split; lra|lra|split; lra|split; lra|exact RB|lra|rewrite ?u8; lra]).
  pose (Wtwo := of_int 8 2). pose (rtwo := 2).
  assert (Htwo : app Wtwo rtwo 2 0) by (refine (eq_rect _ (fun z => app Wtwo z 2 0) (eq_rect _ (fun b => app Wtwo _ b 0) (const_ok Hw Wtwo (2) 1 _ _ _) _ _) _ _); [vm_compute; reflexivity|reflexivity|vm_compute; reflexivity|cbn [Z.abs]; lra|unfold rtwo; lra]).
  pose (Wm := fmul Wtwo Wv). pose (rm := rtwo * rv).
  assert (Hm : app Wm rm (21 / 50) (213487 / 625000000000000000000)) by (refine (mul_w Hw _ _ _ _ _ _ _ _ _ _ Htwo Hv _ _ _ _ _ _ _); rewrite ?u8; lra).
  pose (Wo := one 8). pose (ro := 1).
  assert (Ho : app Wo ro 1 0) by (refine (eq_rect _ (fun z => app Wo z 1 0) (eq_rect _ (fun b => app Wo _ b 0) (const_ok Hw Wo (1) 1 _ _ _) _ _) _ _); [vm_compute; reflexivity|reflexivity|vm_compute; reflexivity|cbn [Z.abs]; lra|unfold ro; lra]).
  pose (Wr := fadd Wo Wm). pose (rr := ro + rm).
  assert (Hr : app Wr rr (71 / 50) (4992309 / 10000000000000000000000)) by (refine (add_b Hw _ _ _ _ _ _ _ _ _ _ Ho Hm _ _ _); [exact PB|rewrite ?u8; lra|rewrite ?u8; lra]).
  destruct Hr as (FR & _ & ER). change (exp8_series X) with Wr. split; [exact FR|]. change rr with (1 + 2 * ((x * (((581889597147517 / 4611686018427387904) * (x * x) + (4366609605269055 / 144115188075855872)) * (x * x) + 1)) / (((((221507399824125 / 73786976294838206464) * (x * x) + (90954100122331 / 36028797018963968)) * (x * x) + (2047026076448797 / 9007199254740992)) * (x * x) + 2) - (x * (((581889597147517 / 4611686018427387904) * (x * x) + (4366609605269055 / 144115188075855872)) * (x * x) + 1))))) in ER. clear - ER PD. apply abs_le_inv in ER, PD. apply Rabs_le. lra.
Qed.
