(** asin: rounding errors of the series and its distance from asin.  (The bounds were computed by a script; every one of
    them is checked here.) *)
From Coq Require Import ZArith Reals List Bool Lia Lra Psatz.
From Verif.Spec Require Import FloatSpec RoundSpec AccuracySpec.
From Verif.Model Require Import Word Fp FpArith Transcend.
From Verif.Proof Require Import WordP FpP FpArithP FpIntP RealErrP SeriesP PolyP ExpRealP RealOpsP ExpSerP FoldP LogRealP LogOpsP LogSerP AsinRealP.
From Coq Require Import Ratan.
Import ListNotations.
Local Open Scope R_scope.

Definition sp4 : list Z := [89478944; 40240088; 24411534; 12982243; 22636196]%Z.
Definition sq4 : list Z := [536870912]%Z.
Definition tau4 (y : R) : R := ((((((5659049 / 134217728) * y + (12982243 / 536870912)) * y + (12205767 / 268435456)) * y + (5030011 / 67108864)) * y + (2796217 / 16777216)) * y).
Lemma q_low4 z : 0 <= z <= (1 / 4) -> 536870912 <= pe sq4 z.
Proof. intros Z. unfold sq4. cbn [pe]. lra. Qed.
Lemma tau_eq4 z : 0 <= z <= (1 / 4) -> tau4 z = z * (pe sp4 z / pe sq4 z).
Proof.
  intros Z. pose proof (q_low4 z Z) as Q. unfold tau4. unfold sp4, sq4; cbn [pe]; field.
Qed.
Lemma tau_low4 z : 0 <= z <= (1 / 4) -> 0 <= tau4 z <= (6 / 125).
Proof.
  intros Z. pose proof (q_low4 z Z) as Q. rewrite tau_eq4 by exact Z.
  pose proof (ppos_ok sp4 10 4 ltac:(lia) ltac:(lia) 32 0 ltac:(vm_compute; reflexivity) ltac:(lia) z) as P1.
  pose proof (ppos_ok (padd (pscale 6 sq4) (0%Z :: pscale (-125) sp4)) 10 4 ltac:(lia) ltac:(lia) 32 0 ltac:(vm_compute; reflexivity) ltac:(lia) z) as P2.
  change (2 ^ 10)%Z with 1024%Z in P1, P2. change (0 + 2 * 4 * Z.of_nat 32)%Z with 256%Z in P1, P2. specialize (P1 ltac:(lra)). specialize (P2 ltac:(lra)). rewrite pe_add, pe_scale in P2. cbn [pe] in P2. rewrite pe_scale in P2.
  set (p := pe sp4 z) in *. set (r := pe sq4 z) in *. clearbody p r. assert (I : 0 < / r) by (apply Rinv_0_lt_compat; lra). unfold Rdiv. split; [apply Rmult_le_pos; [lra|]; apply Rmult_le_pos; lra|].
  apply (Rmult_le_reg_r r); [lra|]. replace (z * (p * / r) * r) with (z * p) by (field; lra). lra.
Qed.
Lemma asin_poly4 b : 0 <= b <= (1 / 2) -> Rabs (b * tau4 (b * b) + b - asin b) <= (39877 / 200000000000) * asin b.
Proof.
  intros B. assert (E : frat sp4 sq4 b = b * tau4 (b * b) + b) by (unfold frat; rewrite tau_eq4 by nra; reflexivity).
  assert (E0 : frat sp4 sq4 0 = 0) by (unfold frat; ring).
  pose proof (asin_rat sp4 sq4 3 16777216 10 0 4 30 0 (121 / 250) ltac:(lia) ltac:(lia) ltac:(lia) ltac:(lia) ltac:(lia) ltac:(lra) ltac:(lra)) as AR.
  change (2 ^ 10)%Z with 1024%Z in AR. change (0 + 2 * 4 * Z.of_nat 30)%Z with 240%Z in AR. specialize (AR ltac:(lra) ltac:(lra) ltac:(intros y Y; pose proof (q_low4 y ltac:(lra)); lra) ltac:(vm_compute; reflexivity) ltac:(vm_compute; reflexivity) ltac:(vm_compute; reflexivity)).
  destruct (Rle_dec b (121 / 250)) as [L|L].
  - specialize (AR b ltac:(lra)). rewrite E, E0, asin_0, !Rminus_0_r in AR. pose proof (asin_pos b ltac:(lra)). eapply Rle_trans; [exact AR|]. apply Rmult_le_compat_r; lra.
  - pose proof (asin_rat sp4 sq4 3 4194304 10 239 3 3 (121 / 250) (1 / 2) ltac:(lia) ltac:(lia) ltac:(lia) ltac:(lia) ltac:(lia) ltac:(lra) ltac:(lra)) as AS.
  change (2 ^ 10)%Z with 1024%Z in AS. change (239 + 2 * 3 * Z.of_nat 3)%Z with 257%Z in AS. specialize (AS ltac:(lra) ltac:(lra) ltac:(intros y Y; pose proof (q_low4 y ltac:(lra)); lra) ltac:(vm_compute; reflexivity) ltac:(vm_compute; reflexivity) ltac:(vm_compute; reflexivity)).
    specialize (AR (121 / 250) ltac:(lra)). rewrite E0, asin_0, !Rminus_0_r in AR. specialize (AS b ltac:(lra)). rewrite E in AS. pose proof (asin_lip (121 / 250) (1 / 2) (29 / 25) ltac:(lra) ltac:(lra) ltac:(lra) ltac:(lra) b ltac:(lra)) as LI. pose proof (asin_ge (121 / 250) ltac:(lra)) as A1. pose proof (asin_mono (121 / 250) b ltac:(lra) ltac:(lra) ltac:(lra)) as A2. pose proof (asin_pos b ltac:(lra)) as A3.
    set (v := asin b) in *. set (v0 := asin (121 / 250)) in *. set (g0 := frat sp4 sq4 (121 / 250)) in *. clearbody v v0 g0. apply abs_le_inv in AR, AS. apply Rabs_le. lra.
Qed.
Definition asin_t4 (Y : word 4) : word 4 := fmul (horner asin_coeff4 Y) Y.
Lemma asin_t_ok4 Y y : app Y y (1 / 4) (752509 / 50000000000000) -> 0 <= y <= (1 / 4) -> app (asin_t4 Y) (tau4 y) (6 / 125) (385643 / 40000000000000).
Proof.
  intros Hz HY. set (Hw := fp4). assert (Iz : 0 <= y <= (1 / 4)) by exact HY. assert (TB : Rabs (tau4 y) <= (6 / 125)) by (pose proof (tau_low4 y HY); apply Rabs_le; lra).
  pose (Wp0 := (nth 0 asin_coeff4 (w0 4))). pose (rp0 := (5659049 / 134217728)).
  assert (Hp0 : app Wp0 rp0 (5659049 / 134217728) 0) by (refine (eq_rect _ (fun z => app Wp0 z (5659049 / 134217728) 0) (eq_rect _ (fun b => app Wp0 _ b 0) (const_ok Hw Wp0 (5659049) 134217728 _ _ _) _ _) _ _); [vm_compute; reflexivity|reflexivity|vm_compute; reflexivity|cbn [Z.abs]; lra|unfold rp0; lra]).
  assert (Ip0 : (5659049 / 134217728) <= rp0 <= (5659049 / 134217728)) by (unfold rp0; lra).
  pose (Wp1 := (nth 1 asin_coeff4 (w0 4))). pose (rp1 := (12982243 / 536870912)).
  assert (Hp1 : app Wp1 rp1 (12982243 / 536870912) 0) by (refine (eq_rect _ (fun z => app Wp1 z (12982243 / 536870912) 0) (eq_rect _ (fun b => app Wp1 _ b 0) (const_ok Hw Wp1 (12982243) 536870912 _ _ _) _ _) _ _); [vm_compute; reflexivity|reflexivity|vm_compute; reflexivity|cbn [Z.abs]; lra|unfold rp1; lra]).
  pose (Wmp1 := fmul Wp0 Y). pose (rmp1 := rp0 * y).
  assert (Hmp1 : app Wmp1 rmp1 (1054081 / 100000000) (252569 / 200000000000000)) by (refine (mul_w Hw _ _ _ _ _ _ _ _ _ _ Hp0 Hz _ _ _ _ _ _ _); rewrite ?u4; lra).
  assert (Iyp1 : (241813 / 10000000) <= rmp1 + rp1 <= (173611 / 5000000)) by (pose proof (iv_mul rp0 y _ _ _ _ Ip0 Iz) as (J1 & J2); unfold rp1; change rmp1 with (rp0 * y); split; [eapply Rle_trans; [|apply Rplus_le_compat_r; exact J1]; repeat apply Rmin_case; lra|eapply Rle_trans; [apply Rplus_le_compat_r; exact J2|]; repeat apply Rmax_case; lra]).
  pose (Wyp1 := fadd Wmp1 Wp1). pose (ryp1 := rmp1 + rp1).
  assert (Hyp1 : app Wyp1 ryp1 (173611 / 5000000) (66649 / 20000000000000)) by (refine (add_b Hw _ _ _ _ _ _ _ _ _ _ Hmp1 Hp1 _ _ _); [apply Rabs_le; lra|rewrite ?u4; lra|rewrite ?u4; lra]).
  pose (Wp2 := (nth 2 asin_coeff4 (w0 4))). pose (rp2 := (12205767 / 268435456)).
  assert (Hp2 : app Wp2 rp2 (12205767 / 268435456) 0) by (refine (eq_rect _ (fun z => app Wp2 z (12205767 / 268435456) 0) (eq_rect _ (fun b => app Wp2 _ b 0) (const_ok Hw Wp2 (12205767) 268435456 _ _ _) _ _) _ _); [vm_compute; reflexivity|reflexivity|vm_compute; reflexivity|cbn [Z.abs]; lra|unfold rp2; lra]).
  pose (Wmp2 := fmul Wyp1 Y). pose (rmp2 := ryp1 * y).
  assert (Hmp2 : app Wmp2 rmp2 (173611 / 20000000) (187309 / 100000000000000)) by (refine (mul_w Hw _ _ _ _ _ _ _ _ _ _ Hyp1 Hz _ _ _ _ _ _ _); rewrite ?u4; lra).
  assert (Iyp2 : (4547 / 100000) <= rmp2 + rp2 <= (270753 / 5000000)) by (pose proof (iv_mul ryp1 y _ _ _ _ Iyp1 Iz) as (J1 & J2); unfold rp2; change rmp2 with (ryp1 * y); split; [eapply Rle_trans; [|apply Rplus_le_compat_r; exact J1]; repeat apply Rmin_case; lra|eapply Rle_trans; [apply Rplus_le_compat_r; exact J2|]; repeat apply Rmax_case; lra]).
  pose (Wyp2 := fadd Wmp2 Wp2). pose (ryp2 := rmp2 + rp2).
  assert (Hyp2 : app Wyp2 ryp2 (270753 / 5000000) (2550359 / 500000000000000)) by (refine (add_b Hw _ _ _ _ _ _ _ _ _ _ Hmp2 Hp2 _ _ _); [apply Rabs_le; lra|rewrite ?u4; lra|rewrite ?u4; lra]).
  pose (Wp3 := (nth 3 asin_coeff4 (w0 4))). pose (rp3 := (5030011 / 67108864)).
  assert (Hp3 : app Wp3 rp3 (5030011 / 67108864) 0) by (refine (eq_rect _ (fun z => app Wp3 z (5030011 / 67108864) 0) (eq_rect _ (fun b => app Wp3 _ b 0) (const_ok Hw Wp3 (5030011) 67108864 _ _ _) _ _) _ _); [vm_compute; reflexivity|reflexivity|vm_compute; reflexivity|cbn [Z.abs]; lra|unfold rp3; lra]).
  pose (Wmp3 := fmul Wyp2 Y). pose (rmp3 := ryp2 * y).
  assert (Hmp3 : app Wmp3 rmp3 (270753 / 20000000) (2897063 / 1000000000000000)) by (refine (mul_w Hw _ _ _ _ _ _ _ _ _ _ Hyp2 Hz _ _ _ _ _ _ _); rewrite ?u4; lra).
  assert (Iyp3 : (74953 / 1000000) <= rmp3 + rp3 <= (884907 / 10000000)) by (pose proof (iv_mul ryp2 y _ _ _ _ Iyp2 Iz) as (J1 & J2); unfold rp3; change rmp3 with (ryp2 * y); split; [eapply Rle_trans; [|apply Rplus_le_compat_r; exact J1]; repeat apply Rmin_case; lra|eapply Rle_trans; [apply Rplus_le_compat_r; exact J2|]; repeat apply Rmax_case; lra]).
  pose (Wyp3 := fadd Wmp3 Wp3). pose (ryp3 := rmp3 + rp3).
  assert (Hyp3 : app Wyp3 ryp3 (884907 / 10000000) (399 / 48828125000)) by (refine (add_b Hw _ _ _ _ _ _ _ _ _ _ Hmp3 Hp3 _ _ _); [apply Rabs_le; lra|rewrite ?u4; lra|rewrite ?u4; lra]).
  pose (Wp4 := (nth 4 asin_coeff4 (w0 4))). pose (rp4 := (2796217 / 16777216)).
  assert (Hp4 : app Wp4 rp4 (2796217 / 16777216) 0) by (refine (eq_rect _ (fun z => app Wp4 z (2796217 / 16777216) 0) (eq_rect _ (fun b => app Wp4 _ b 0) (const_ok Hw Wp4 (2796217) 16777216 _ _ _) _ _) _ _); [vm_compute; reflexivity|reflexivity|vm_compute; reflexivity|cbn [Z.abs]; lra|unfold rp4; lra]).
  pose (Wmp4 := fmul Wyp3 Y). pose (rmp4 := ryp3 * y).
  assert (Hmp4 : app Wmp4 rmp4 (553067 / 25000000) (293331 / 62500000000000)) by (refine (mul_w Hw _ _ _ _ _ _ _ _ _ _ Hyp3 Hz _ _ _ _ _ _ _); rewrite ?u4; lra).
  assert (Iyp4 : (166667 / 1000000) <= rmp4 + rp4 <= (188791 / 1000000)) by (pose proof (iv_mul ryp3 y _ _ _ _ Iyp3 Iz) as (J1 & J2); unfold rp4; change rmp4 with (ryp3 * y); split; [eapply Rle_trans; [|apply Rplus_le_compat_r; exact J1]; repeat apply Rmin_case; lra|eapply Rle_trans; [apply Rplus_le_compat_r; exact J2|]; repeat apply Rmax_case; lra]).
  pose (Wyp4 := fadd Wmp4 Wp4). pose (ryp4 := rmp4 + rp4).
  assert (Hyp4 : app Wyp4 ryp4 (188791 / 1000000) (398653 / 25000000000000)) by (refine (add_b Hw _ _ _ _ _ _ _ _ _ _ Hmp4 Hp4 _ _ _); [apply Rabs_le; lra|rewrite ?u4; lra|rewrite ?u4; lra]).
  pose (Wt := fmul Wyp4 Y). pose (rt := ryp4 * y).
  assert (Ht' : app Wt rt (188791 / 4000000) (385643 / 40000000000000)) by (refine (mul_w Hw _ _ _ _ _ _ _ _ _ _ Hyp4 Hz _ _ _ _ _ _ _); rewrite ?u4; lra).
  assert (Ht : app Wt rt (6 / 125) (385643 / 40000000000000)) by (apply (app_bound _ _ _ _ _ Ht'); exact TB).
  change (asin_t4 Y) with Wt. exact Ht.
Qed.
Definition sp8p : list Z := [9451754029982853120; (-22554165092116959232); 18749362532203868160; (-6277222238545994752); 694012399252802304; (-4903388266662611)]%Z.
Definition sq8p : list Z := [56710524179896958976; (-160844726433636843520); 169685983110821019648; (-81276472918973677568); 16995116436742821888; (-1152921504606846976)]%Z.
Definition tau8p (y : R) : R := (y * ((((((4903388266662611 / 1152921504606846976) * y + (- 2710985934581259 / 4503599627370496)) * y + (6130099842330073 / 1125899906842624)) * y + (- 4577481086963835 / 281474976710656)) * y + (5506387961942617 / 281474976710656)) * y + (- 4615114272452565 / 562949953421312)) / (((((y + (- 8298396697628331 / 562949953421312)) * y + (1240180556014613 / 17592186044416)) * y + (- 5178405246301911 / 35184372088832)) * y + (4908591504932765 / 35184372088832)) * y + (- 1730667852169707 / 35184372088832))).
Lemma q_low8p z : 0 <= z <= (25 / 64) -> 14987979559889010688 <= pe sq8p z.
Proof.
  intros Z. pose proof (ppos_ok (padd (pscale 10 sq8p) [(- 149879795598890106880)%Z]) 10 4 ltac:(lia) ltac:(lia) 50 0 ltac:(vm_compute; reflexivity) ltac:(lia) z) as P.
  change (2 ^ 10)%Z with 1024%Z in P. change (0 + 2 * 4 * Z.of_nat 50)%Z with 400%Z in P. specialize (P ltac:(lra)). rewrite pe_add, pe_scale in P. cbn [pe] in P. lra.
Qed.
Lemma tau_eq8p z : 0 <= z <= (25 / 64) -> tau8p z = z * (pe sp8p z / pe sq8p z).
Proof.
  intros Z. pose proof (q_low8p z Z) as Q. unfold tau8p. assert (E1 : ((((((4903388266662611 / 1152921504606846976) * z + (- 2710985934581259 / 4503599627370496)) * z + (6130099842330073 / 1125899906842624)) * z + (- 4577481086963835 / 281474976710656)) * z + (5506387961942617 / 281474976710656)) * z + (- 4615114272452565 / 562949953421312)) = - pe sp8p z / 1152921504606846976) by (unfold sp8p; cbn [pe]; field). assert (E2 : (((((z + (- 8298396697628331 / 562949953421312)) * z + (1240180556014613 / 17592186044416)) * z + (- 5178405246301911 / 35184372088832)) * z + (4908591504932765 / 35184372088832)) * z + (- 1730667852169707 / 35184372088832)) = - pe sq8p z / 1152921504606846976) by (unfold sq8p; cbn [pe]; field). rewrite E2, E1. field. lra.
Qed.
Lemma tau_low8p z : 0 <= z <= (25 / 64) -> 0 <= tau8p z <= (81 / 1000).
Proof.
  intros Z. pose proof (q_low8p z Z) as Q. rewrite tau_eq8p by exact Z.
  pose proof (ppos_ok sp8p 10 4 ltac:(lia) ltac:(lia) 50 0 ltac:(vm_compute; reflexivity) ltac:(lia) z) as P1.
  pose proof (ppos_ok (padd (pscale 81 sq8p) (0%Z :: pscale (-1000) sp8p)) 10 4 ltac:(lia) ltac:(lia) 50 0 ltac:(vm_compute; reflexivity) ltac:(lia) z) as P2.
  change (2 ^ 10)%Z with 1024%Z in P1, P2. change (0 + 2 * 4 * Z.of_nat 50)%Z with 400%Z in P1, P2. specialize (P1 ltac:(lra)). specialize (P2 ltac:(lra)). rewrite pe_add, pe_scale in P2. cbn [pe] in P2. rewrite pe_scale in P2.
  set (p := pe sp8p z) in *. set (r := pe sq8p z) in *. clearbody p r. assert (I : 0 < / r) by (apply Rinv_0_lt_compat; lra). unfold Rdiv. split; [apply Rmult_le_pos; [lra|]; apply Rmult_le_pos; lra|].
  apply (Rmult_le_reg_r r); [lra|]. replace (z * (p * / r) * r) with (z * p) by (field; lra). lra.
Qed.
Lemma asin_poly8p b : 0 <= b <= (5 / 8) -> Rabs (b * tau8p (b * b) + b - asin b) <= (7 / 9007199254740992) * asin b.
Proof.
  intros B. assert (E : frat sp8p sq8p b = b * tau8p (b * b) + b) by (unfold frat; rewrite tau_eq8p by nra; reflexivity).
  assert (E0 : frat sp8p sq8p 0 = 0) by (unfold frat; ring).
  pose proof (asin_rat sp8p sq8p 7 9007199254740992 10 0 4 50 0 (5 / 8) ltac:(lia) ltac:(lia) ltac:(lia) ltac:(lia) ltac:(lia) ltac:(lra) ltac:(lra)) as AR.
  change (2 ^ 10)%Z with 1024%Z in AR. change (0 + 2 * 4 * Z.of_nat 50)%Z with 400%Z in AR. specialize (AR ltac:(lra) ltac:(lra) ltac:(intros y Y; pose proof (q_low8p y ltac:(lra)); lra) ltac:(vm_compute; reflexivity) ltac:(vm_compute; reflexivity) ltac:(vm_compute; reflexivity)).
  specialize (AR b ltac:(lra)). rewrite E, E0, asin_0, !Rminus_0_r in AR. lra.
Qed.
Definition asin_t8p (Y : word 8) : word 8 := fdiv (fmul Y (horner asin_p Y)) (horner1 asin_q Y).
Lemma asin_t_ok8p Y y : app Y y (25 / 64) (4336809 / 100000000000000000000000) -> 0 <= y <= (25 / 64) -> app (asin_t8p Y) (tau8p y) (81 / 1000) (997313 / 2500000000000000000000).
Proof.
  intros Hz HY. set (Hw := fp8). assert (Iz : 0 <= y <= (25 / 64)) by exact HY. assert (TB : Rabs (tau8p y) <= (81 / 1000)) by (pose proof (tau_low8p y HY); apply Rabs_le; lra).
  assert (QB : 13 <= Rabs (((((y + (- 8298396697628331 / 562949953421312)) * y + (1240180556014613 / 17592186044416)) * y + (- 5178405246301911 / 35184372088832)) * y + (4908591504932765 / 35184372088832)) * y + (- 1730667852169707 / 35184372088832))).
  { pose proof (q_low8p y HY) as Q0. replace (((((y + (- 8298396697628331 / 562949953421312)) * y + (1240180556014613 / 17592186044416)) * y + (- 5178405246301911 / 35184372088832)) * y + (4908591504932765 / 35184372088832)) * y + (- 1730667852169707 / 35184372088832)) with (- pe sq8p y / 1152921504606846976) by (unfold sq8p; cbn [pe]; field). rewrite Rabs_left by lra; lra. }
  pose (Wp0 := (nth 0 asin_p (w0 8))). pose (rp0 := (4903388266662611 / 1152921504606846976)).
  assert (Hp0 : app Wp0 rp0 (4903388266662611 / 1152921504606846976) 0) by (refine (eq_rect _ (fun z => app Wp0 z (4903388266662611 / 1152921504606846976) 0) (eq_rect _ (fun b => app Wp0 _ b 0) (const_ok Hw Wp0 (4903388266662611) 1152921504606846976 _ _ _) _ _) _ _); [vm_compute; reflexivity|reflexivity|vm_compute; reflexivity|cbn [Z.abs]; lra|unfold rp0; lra]).
  assert (Ip0 : (4903388266662611 / 1152921504606846976) <= rp0 <= (4903388266662611 / 1152921504606846976)) by (unfold rp0; lra).
  pose (Wp1 := (nth 1 asin_p (w0 8))). pose (rp1 := (- 2710985934581259 / 4503599627370496)).
  assert (Hp1 : app Wp1 rp1 (2710985934581259 / 4503599627370496) 0) by (refine (eq_rect _ (fun z => app Wp1 z (2710985934581259 / 4503599627370496) 0) (eq_rect _ (fun b => app Wp1 _ b 0) (const_ok Hw Wp1 (-2710985934581259) 4503599627370496 _ _ _) _ _) _ _); [vm_compute; reflexivity|reflexivity|vm_compute; reflexivity|cbn [Z.abs]; lra|unfold rp1; lra]).
  pose (Wmp1 := fmul Wp0 Y). pose (rmp1 := rp0 * y).
  assert (Hmp1 : app Wmp1 rmp1 (1661333 / 1000000000) (36889 / 100000000000000000000000)) by (refine (mul_w Hw _ _ _ _ _ _ _ _ _ _ Hp0 Hz _ _ _ _ _ _ _); rewrite ?u8; lra).
  assert (Iyp1 : (- 15049 / 25000) <= rmp1 + rp1 <= (- 300149 / 500000)) by (pose proof (iv_mul rp0 y _ _ _ _ Ip0 Iz) as (J1 & J2); unfold rp1; change rmp1 with (rp0 * y); split; [eapply Rle_trans; [|apply Rplus_le_compat_r; exact J1]; repeat apply Rmin_case; lra|eapply Rle_trans; [apply Rplus_le_compat_r; exact J2|]; repeat apply Rmax_case; lra]).
  pose (Wyp1 := fadd Wmp1 Wp1). pose (ryp1 := rmp1 + rp1).
  assert (Hyp1 : app Wyp1 ryp1 (15049 / 25000) (1679997 / 25000000000000000000000)) by (refine (add_b Hw _ _ _ _ _ _ _ _ _ _ Hmp1 Hp1 _ _ _); [apply Rabs_le; lra|rewrite ?u8; lra|rewrite ?u8; lra]).
  pose (Wp2 := (nth 2 asin_p (w0 8))). pose (rp2 := (6130099842330073 / 1125899906842624)).
  assert (Hp2 : app Wp2 rp2 (6130099842330073 / 1125899906842624) 0) by (refine (eq_rect _ (fun z => app Wp2 z (6130099842330073 / 1125899906842624) 0) (eq_rect _ (fun b => app Wp2 _ b 0) (const_ok Hw Wp2 (6130099842330073) 1125899906842624 _ _ _) _ _) _ _); [vm_compute; reflexivity|reflexivity|vm_compute; reflexivity|cbn [Z.abs]; lra|unfold rp2; lra]).
  pose (Wmp2 := fmul Wyp1 Y). pose (rmp2 := ryp1 * y).
  assert (Hmp2 : app Wmp2 rmp2 (2351407 / 10000000) (7846167 / 100000000000000000000000)) by (refine (mul_w Hw _ _ _ _ _ _ _ _ _ _ Hyp1 Hz _ _ _ _ _ _ _); rewrite ?u8; lra).
  assert (Iyp2 : (130237 / 25000) <= rmp2 + rp2 <= (544463 / 100000)) by (pose proof (iv_mul ryp1 y _ _ _ _ Iyp1 Iz) as (J1 & J2); unfold rp2; change rmp2 with (ryp1 * y); split; [eapply Rle_trans; [|apply Rplus_le_compat_r; exact J1]; repeat apply Rmin_case; lra|eapply Rle_trans; [apply Rplus_le_compat_r; exact J2|]; repeat apply Rmax_case; lra]).
  pose (Wyp2 := fadd Wmp2 Wp2). pose (ryp2 := rmp2 + rp2).
  assert (Hyp2 : app Wyp2 ryp2 (544463 / 100000) (6829371 / 10000000000000000000000)) by (refine (add_b Hw _ _ _ _ _ _ _ _ _ _ Hmp2 Hp2 _ _ _); [apply Rabs_le; lra|rewrite ?u8; lra|rewrite ?u8; lra]).
  pose (Wp3 := (nth 3 asin_p (w0 8))). pose (rp3 := (- 4577481086963835 / 281474976710656)).
  assert (Hp3 : app Wp3 rp3 (4577481086963835 / 281474976710656) 0) by (refine (eq_rect _ (fun z => app Wp3 z (4577481086963835 / 281474976710656) 0) (eq_rect _ (fun b => app Wp3 _ b 0) (const_ok Hw Wp3 (-4577481086963835) 281474976710656 _ _ _) _ _) _ _); [vm_compute; reflexivity|reflexivity|vm_compute; reflexivity|cbn [Z.abs]; lra|unfold rp3; lra]).
  pose (Wmp3 := fmul Wyp2 Y). pose (rmp3 := ryp2 * y).
  assert (Hmp3 : app Wmp3 rmp3 (2126809 / 1000000) (7390187 / 10000000000000000000000)) by (refine (mul_w Hw _ _ _ _ _ _ _ _ _ _ Hyp2 Hz _ _ _ _ _ _ _); rewrite ?u8; lra).
  assert (Iyp3 : (- 1301 / 80) <= rmp3 + rp3 <= (- 35339 / 2500)) by (pose proof (iv_mul ryp2 y _ _ _ _ Iyp2 Iz) as (J1 & J2); unfold rp3; change rmp3 with (ryp2 * y); split; [eapply Rle_trans; [|apply Rplus_le_compat_r; exact J1]; repeat apply Rmin_case; lra|eapply Rle_trans; [apply Rplus_le_compat_r; exact J2|]; repeat apply Rmax_case; lra]).
  pose (Wyp3 := fadd Wmp3 Wp3). pose (ryp3 := rmp3 + rp3).
  assert (Hyp3 : app Wyp3 ryp3 (1301 / 80) (2544519 / 1000000000000000000000)) by (refine (add_b Hw _ _ _ _ _ _ _ _ _ _ Hmp3 Hp3 _ _ _); [apply Rabs_le; lra|rewrite ?u8; lra|rewrite ?u8; lra]).
  pose (Wp4 := (nth 4 asin_p (w0 8))). pose (rp4 := (5506387961942617 / 281474976710656)).
  assert (Hp4 : app Wp4 rp4 (5506387961942617 / 281474976710656) 0) by (refine (eq_rect _ (fun z => app Wp4 z (5506387961942617 / 281474976710656) 0) (eq_rect _ (fun b => app Wp4 _ b 0) (const_ok Hw Wp4 (5506387961942617) 281474976710656 _ _ _) _ _) _ _); [vm_compute; reflexivity|reflexivity|vm_compute; reflexivity|cbn [Z.abs]; lra|unfold rp4; lra]).
  pose (Wmp4 := fmul Wyp3 Y). pose (rmp4 := ryp3 * y).
  assert (Hmp4 : app Wmp4 rmp4 (317627 / 50000) (4809 / 2000000000000000000)) by (refine (mul_w Hw _ _ _ _ _ _ _ _ _ _ Hyp3 Hz _ _ _ _ _ _ _); rewrite ?u8; lra).
  assert (Iyp4 : (1321 / 100) <= rmp4 + rp4 <= (195627 / 10000)) by (pose proof (iv_mul ryp3 y _ _ _ _ Iyp3 Iz) as (J1 & J2); unfold rp4; change rmp4 with (ryp3 * y); split; [eapply Rle_trans; [|apply Rplus_le_compat_r; exact J1]; repeat apply Rmin_case; lra|eapply Rle_trans; [apply Rplus_le_compat_r; exact J2|]; repeat apply Rmax_case; lra]).
  pose (Wyp4 := fadd Wmp4 Wp4). pose (ryp4 := rmp4 + rp4).
  assert (Hyp4 : app Wyp4 ryp4 (195627 / 10000) (1144099 / 250000000000000000000)) by (refine (add_b Hw _ _ _ _ _ _ _ _ _ _ Hmp4 Hp4 _ _ _); [apply Rabs_le; lra|rewrite ?u8; lra|rewrite ?u8; lra]).
  pose (Wp5 := (nth 5 asin_p (w0 8))). pose (rp5 := (- 4615114272452565 / 562949953421312)).
  assert (Hp5 : app Wp5 rp5 (4615114272452565 / 562949953421312) 0) by (refine (eq_rect _ (fun z => app Wp5 z (4615114272452565 / 562949953421312) 0) (eq_rect _ (fun b => app Wp5 _ b 0) (const_ok Hw Wp5 (-4615114272452565) 562949953421312 _ _ _) _ _) _ _); [vm_compute; reflexivity|reflexivity|vm_compute; reflexivity|cbn [Z.abs]; lra|unfold rp5; lra]).
  pose (Wmp5 := fmul Wyp4 Y). pose (rmp5 := ryp4 * y).
  assert (Hmp5 : app Wmp5 rmp5 (95521 / 12500) (3484449 / 1000000000000000000000)) by (refine (mul_w Hw _ _ _ _ _ _ _ _ _ _ Hyp4 Hz _ _ _ _ _ _ _); rewrite ?u8; lra).
  assert (Iyp5 : (- 819809 / 100000) <= rmp5 + rp5 <= (- 55641 / 100000)) by (pose proof (iv_mul ryp4 y _ _ _ _ Iyp4 Iz) as (J1 & J2); unfold rp5; change rmp5 with (ryp4 * y); split; [eapply Rle_trans; [|apply Rplus_le_compat_r; exact J1]; repeat apply Rmin_case; lra|eapply Rle_trans; [apply Rplus_le_compat_r; exact J2|]; repeat apply Rmax_case; lra]).
  pose (Wyp5 := fadd Wmp5 Wp5). pose (ryp5 := rmp5 + rp5).
  assert (Hyp5 : app Wyp5 ryp5 (819809 / 100000) (219731 / 50000000000000000000)) by (refine (add_b Hw _ _ _ _ _ _ _ _ _ _ Hmp5 Hp5 _ _ _); [apply Rabs_le; lra|rewrite ?u8; lra|rewrite ?u8; lra]).
  pose (Wq0 := (hd (w0 8) asin_q)). pose (rq0 := (- 8298396697628331 / 562949953421312)).
  assert (Hq0 : app Wq0 rq0 (8298396697628331 / 562949953421312) 0) by (refine (eq_rect _ (fun z => app Wq0 z (8298396697628331 / 562949953421312) 0) (eq_rect _ (fun b => app Wq0 _ b 0) (const_ok Hw Wq0 (-8298396697628331) 562949953421312 _ _ _) _ _) _ _); [vm_compute; reflexivity|reflexivity|vm_compute; reflexivity|cbn [Z.abs]; lra|unfold rq0; lra]).
  pose (Wqa := fadd Y Wq0). pose (rqa := y + rq0).
  assert (Hqa : app Wqa rqa (756577 / 50000) (1723307 / 1000000000000000000000)) by (refine (add_w Hw _ _ _ _ _ _ _ _ _ _ Hz Hq0 _ _ _); rewrite ?u8; lra).
  assert (Iqa : (- 8298396697628331 / 562949953421312) <= rqa <= (- 8078494372073131 / 562949953421312)) by (change rqa with (y + rq0); unfold rq0; lra).
  pose (Wq1 := (nth 1 asin_q (w0 8))). pose (rq1 := (1240180556014613 / 17592186044416)).
  assert (Hq1 : app Wq1 rq1 (1240180556014613 / 17592186044416) 0) by (refine (eq_rect _ (fun z => app Wq1 z (1240180556014613 / 17592186044416) 0) (eq_rect _ (fun b => app Wq1 _ b 0) (const_ok Hw Wq1 (1240180556014613) 17592186044416 _ _ _) _ _) _ _); [vm_compute; reflexivity|reflexivity|vm_compute; reflexivity|cbn [Z.abs]; lra|unfold rq1; lra]).
  pose (Wmq1 := fmul Wqa Y). pose (rmq1 := rqa * y).
  assert (Hmq1 : app Wmq1 rmq1 (2955379 / 500000) (1985619 / 1000000000000000000000)) by (refine (mul_w Hw _ _ _ _ _ _ _ _ _ _ Hqa Hz _ _ _ _ _ _ _); rewrite ?u8; lra).
  assert (Iyq1 : (647379 / 10000) <= rmq1 + rq1 <= (352481 / 5000)) by (pose proof (iv_mul rqa y _ _ _ _ Iqa Iz) as (J1 & J2); unfold rq1; change rmq1 with (rqa * y); split; [eapply Rle_trans; [|apply Rplus_le_compat_r; exact J1]; repeat apply Rmin_case; lra|eapply Rle_trans; [apply Rplus_le_compat_r; exact J2|]; repeat apply Rmax_case; lra]).
  pose (Wyq1 := fadd Wmq1 Wq1). pose (ryq1 := rmq1 + rq1).
  assert (Hyq1 : app Wyq1 ryq1 (352481 / 5000) (981227 / 100000000000000000000)) by (refine (add_b Hw _ _ _ _ _ _ _ _ _ _ Hmq1 Hq1 _ _ _); [apply Rabs_le; lra|rewrite ?u8; lra|rewrite ?u8; lra]).
  pose (Wq2 := (nth 2 asin_q (w0 8))). pose (rq2 := (- 5178405246301911 / 35184372088832)).
  assert (Hq2 : app Wq2 rq2 (5178405246301911 / 35184372088832) 0) by (refine (eq_rect _ (fun z => app Wq2 z (5178405246301911 / 35184372088832) 0) (eq_rect _ (fun b => app Wq2 _ b 0) (const_ok Hw Wq2 (-5178405246301911) 35184372088832 _ _ _) _ _) _ _); [vm_compute; reflexivity|reflexivity|vm_compute; reflexivity|cbn [Z.abs]; lra|unfold rq2; lra]).
  pose (Wmq2 := fmul Wyq1 Y). pose (rmq2 := ryq1 * y).
  assert (Hmq2 : app Wmq2 rmq2 (1376879 / 50000) (9947489 / 1000000000000000000000)) by (refine (mul_w Hw _ _ _ _ _ _ _ _ _ _ Hyq1 Hz _ _ _ _ _ _ _); rewrite ?u8; lra).
  assert (Iyq2 : (- 7359 / 50) <= rmq2 + rq2 <= (- 119641 / 1000)) by (pose proof (iv_mul ryq1 y _ _ _ _ Iyq1 Iz) as (J1 & J2); unfold rq2; change rmq2 with (ryq1 * y); split; [eapply Rle_trans; [|apply Rplus_le_compat_r; exact J1]; repeat apply Rmin_case; lra|eapply Rle_trans; [apply Rplus_le_compat_r; exact J2|]; repeat apply Rmax_case; lra]).
  pose (Wyq2 := fadd Wmq2 Wq2). pose (ryq2 := rmq2 + rq2).
  assert (Hyq2 : app Wyq2 ryq2 (7359 / 50) (328597 / 12500000000000000000)) by (refine (add_b Hw _ _ _ _ _ _ _ _ _ _ Hmq2 Hq2 _ _ _); [apply Rabs_le; lra|rewrite ?u8; lra|rewrite ?u8; lra]).
  pose (Wq3 := (nth 3 asin_q (w0 8))). pose (rq3 := (4908591504932765 / 35184372088832)).
  assert (Hq3 : app Wq3 rq3 (4908591504932765 / 35184372088832) 0) by (refine (eq_rect _ (fun z => app Wq3 z (4908591504932765 / 35184372088832) 0) (eq_rect _ (fun b => app Wq3 _ b 0) (const_ok Hw Wq3 (4908591504932765) 35184372088832 _ _ _) _ _) _ _); [vm_compute; reflexivity|reflexivity|vm_compute; reflexivity|cbn [Z.abs]; lra|unfold rq3; lra]).
  pose (Wmq3 := fmul Wyq2 Y). pose (rmq3 := ryq2 * y).
  assert (Hmq3 : app Wmq3 rmq3 (5749219 / 100000) (2303449 / 100000000000000000000)) by (refine (mul_w Hw _ _ _ _ _ _ _ _ _ _ Hyq2 Hz _ _ _ _ _ _ _); rewrite ?u8; lra).
  assert (Iyq3 : (820183 / 10000) <= rmq3 + rq3 <= (139511 / 1000)) by (pose proof (iv_mul ryq2 y _ _ _ _ Iyq2 Iz) as (J1 & J2); unfold rq3; change rmq3 with (ryq2 * y); split; [eapply Rle_trans; [|apply Rplus_le_compat_r; exact J1]; repeat apply Rmin_case; lra|eapply Rle_trans; [apply Rplus_le_compat_r; exact J2|]; repeat apply Rmax_case; lra]).
  pose (Wyq3 := fadd Wmq3 Wq3). pose (ryq3 := rmq3 + rq3).
  assert (Hyq3 : app Wyq3 ryq3 (139511 / 1000) (3852333 / 100000000000000000000)) by (refine (add_b Hw _ _ _ _ _ _ _ _ _ _ Hmq3 Hq3 _ _ _); [apply Rabs_le; lra|rewrite ?u8; lra|rewrite ?u8; lra]).
  pose (Wq4 := (nth 4 asin_q (w0 8))). pose (rq4 := (- 1730667852169707 / 35184372088832)).
  assert (Hq4 : app Wq4 rq4 (1730667852169707 / 35184372088832) 0) by (refine (eq_rect _ (fun z => app Wq4 z (1730667852169707 / 35184372088832) 0) (eq_rect _ (fun b => app Wq4 _ b 0) (const_ok Hw Wq4 (-1730667852169707) 35184372088832 _ _ _) _ _) _ _); [vm_compute; reflexivity|reflexivity|vm_compute; reflexivity|cbn [Z.abs]; lra|unfold rq4; lra]).
  pose (Wmq4 := fmul Wyq3 Y). pose (rmq4 := ryq3 * y).
  assert (Hmq4 : app Wmq4 rmq4 (5449649 / 100000) (2714883 / 100000000000000000000)) by (refine (mul_w Hw _ _ _ _ _ _ _ _ _ _ Hyq3 Hz _ _ _ _ _ _ _); rewrite ?u8; lra).
  assert (Iyq4 : (- 245943 / 5000) <= rmq4 + rq4 <= (106159 / 20000)) by (pose proof (iv_mul ryq3 y _ _ _ _ Iyq3 Iz) as (J1 & J2); unfold rq4; change rmq4 with (ryq3 * y); split; [eapply Rle_trans; [|apply Rplus_le_compat_r; exact J1]; repeat apply Rmin_case; lra|eapply Rle_trans; [apply Rplus_le_compat_r; exact J2|]; repeat apply Rmax_case; lra]).
  pose (Wyq4 := fadd Wmq4 Wq4). pose (ryq4 := rmq4 + rq4).
  assert (Hyq4 : app Wyq4 ryq4 (245943 / 5000) (3260987 / 100000000000000000000)) by (refine (add_b Hw _ _ _ _ _ _ _ _ _ _ Hmq4 Hq4 _ _ _); [apply Rabs_le; lra|rewrite ?u8; lra|rewrite ?u8; lra]).
  pose (Wzp := fmul Y Wyp5). pose (rzp := y * ryp5).
  assert (Hzp : app Wzp rzp (3202379 / 1000000) (60693 / 25000000000000000000)) by (refine (mul_w Hw _ _ _ _ _ _ _ _ _ _ Hz Hyp5 _ _ _ _ _ _ _); rewrite ?u8; lra).
  pose (Wt := fdiv Wzp Wyq4). pose (rt := rzp / ryq4).
  assert (Ht : app Wt rt (81 / 1000) (997313 / 2500000000000000000000)) by (refine (div_w Hw _ _ _ _ _ _ _ _ 13 (3899323 / 10000000000000000000000) _ _ Hzp Hyq4 _ _ _ _ _ _ _ _); [exact QB|split; lra|lra|split; lra|split; lra|exact TB|lra|rewrite ?u8; lra]).
  change (asin_t8p Y) with Wt. exact Ht.
Qed.
Definition sp8r : list Z := [514070683991541568; (-921220689155175424); 502148535531051648; (-81197995790602480); 855387617219553]%Z.
Definition sq8r : list Z := [3084424103949073408; (-6915314981689866240); 5298597926388172800; (-1581505324938791936); 144115188075855872]%Z.
Definition tau8r (y : R) : R := (y * (((((855387617219553 / 288230376151711744) * y + (- 5074874736912655 / 9007199254740992)) * y + (3923035433836341 / 562949953421312)) * y + (- 899629579253101 / 35184372088832)) * y + (8032354437367837 / 281474976710656)) / ((((y + (- 1544438793885539 / 70368744177664)) * y + (2587206018744225 / 17592186044416)) * y + (- 3376618643403255 / 8796093022208)) * y + (3012132914012767 / 8796093022208))).
Lemma q_low8r z : 0 <= z <= (47 / 250) -> (9236882835736887296 / 5) <= pe sq8r z.
Proof.
  intros Z. pose proof (ppos_ok (padd (pscale 10 sq8r) [(- 18473765671473774592)%Z]) 10 8 ltac:(lia) ltac:(lia) 13 0 ltac:(vm_compute; reflexivity) ltac:(lia) z) as P.
  change (2 ^ 10)%Z with 1024%Z in P. change (0 + 2 * 8 * Z.of_nat 13)%Z with 208%Z in P. specialize (P ltac:(lra)). rewrite pe_add, pe_scale in P. cbn [pe] in P. lra.
Qed.
Lemma tau_eq8r z : 0 <= z <= (47 / 250) -> tau8r (2 * z) = z * (pe sp8r z / pe sq8r z).
Proof.
  intros Z. pose proof (q_low8r z Z) as Q. unfold tau8r. assert (E1 : (((((855387617219553 / 288230376151711744) * (2 * z) + (- 5074874736912655 / 9007199254740992)) * (2 * z) + (3923035433836341 / 562949953421312)) * (2 * z) + (- 899629579253101 / 35184372088832)) * (2 * z) + (8032354437367837 / 281474976710656)) = pe sp8r z / 18014398509481984) by (unfold sp8r; cbn [pe]; field). assert (E2 : (((((2 * z) + (- 1544438793885539 / 70368744177664)) * (2 * z) + (2587206018744225 / 17592186044416)) * (2 * z) + (- 3376618643403255 / 8796093022208)) * (2 * z) + (3012132914012767 / 8796093022208)) = pe sq8r z / 9007199254740992) by (unfold sq8r; cbn [pe]; field). rewrite E2, E1. field. lra.
Qed.
Lemma tau_low8r z : 0 <= z <= (47 / 250) -> 0 <= tau8r (2 * z) <= (1 / 25).
Proof.
  intros Z. pose proof (q_low8r z Z) as Q. rewrite tau_eq8r by exact Z.
  pose proof (ppos_ok sp8r 10 8 ltac:(lia) ltac:(lia) 13 0 ltac:(vm_compute; reflexivity) ltac:(lia) z) as P1.
  pose proof (ppos_ok (padd (pscale 1 sq8r) (0%Z :: pscale (-25) sp8r)) 10 8 ltac:(lia) ltac:(lia) 13 0 ltac:(vm_compute; reflexivity) ltac:(lia) z) as P2.
  change (2 ^ 10)%Z with 1024%Z in P1, P2. change (0 + 2 * 8 * Z.of_nat 13)%Z with 208%Z in P1, P2. specialize (P1 ltac:(lra)). specialize (P2 ltac:(lra)). rewrite pe_add, pe_scale in P2. cbn [pe] in P2. rewrite pe_scale in P2.
  set (p := pe sp8r z) in *. set (r := pe sq8r z) in *. clearbody p r. assert (I : 0 < / r) by (apply Rinv_0_lt_compat; lra). unfold Rdiv. split; [apply Rmult_le_pos; [lra|]; apply Rmult_le_pos; lra|].
  apply (Rmult_le_reg_r r); [lra|]. replace (z * (p * / r) * r) with (z * p) by (field; lra). lra.
Qed.
Lemma asin_poly8r b : 0 <= b <= (4331 / 10000) -> Rabs (b * tau8r (2 * (b * b)) + b - asin b) <= (1 / 4503599627370496) * asin b.
Proof.
  intros B. assert (E : frat sp8r sq8r b = b * tau8r (2 * (b * b)) + b) by (unfold frat; rewrite tau_eq8r by nra; reflexivity).
  assert (E0 : frat sp8r sq8r 0 = 0) by (unfold frat; ring).
  pose proof (asin_rat sp8r sq8r 1 4503599627370496 10 0 8 13 0 (4331 / 10000) ltac:(lia) ltac:(lia) ltac:(lia) ltac:(lia) ltac:(lia) ltac:(lra) ltac:(lra)) as AR.
  change (2 ^ 10)%Z with 1024%Z in AR. change (0 + 2 * 8 * Z.of_nat 13)%Z with 208%Z in AR. specialize (AR ltac:(lra) ltac:(lra) ltac:(intros y Y; pose proof (q_low8r y ltac:(lra)); lra) ltac:(vm_compute; reflexivity) ltac:(vm_compute; reflexivity) ltac:(vm_compute; reflexivity)).
  specialize (AR b ltac:(lra)). rewrite E, E0, asin_0, !Rminus_0_r in AR. lra.
Qed.
Definition asin_t8r (Y : word 8) : word 8 := fdiv (fmul Y (horner asin_r Y)) (horner1 asin_s Y).
Lemma asin_t_ok8r Y y : app Y y (47 / 125) (4174439 / 100000000000000000000000) -> 0 <= y <= (47 / 125) -> app (asin_t8r Y) (tau8r y) (1 / 25) (4657389 / 100000000000000000000000).
Proof.
  intros Hz HY. set (Hw := fp8). assert (Iz : 0 <= y <= (47 / 125)) by exact HY. assert (TB : Rabs (tau8r y) <= (1 / 25)) by (pose proof (tau_low8r (y / 2) ltac:(lra)) as TL; replace (2 * (y / 2)) with y in TL by field; apply Rabs_le; lra).
  assert (QB : (2051 / 10) <= Rabs ((((y + (- 1544438793885539 / 70368744177664)) * y + (2587206018744225 / 17592186044416)) * y + (- 3376618643403255 / 8796093022208)) * y + (3012132914012767 / 8796093022208))).
  { pose proof (q_low8r (y / 2) ltac:(lra)) as Q0. replace ((((y + (- 1544438793885539 / 70368744177664)) * y + (2587206018744225 / 17592186044416)) * y + (- 3376618643403255 / 8796093022208)) * y + (3012132914012767 / 8796093022208)) with (pe sq8r (y / 2) / 9007199254740992) by (unfold sq8r; cbn [pe]; field). rewrite Rabs_pos_eq by lra; lra. }
  pose (Wp0 := (nth 0 asin_r (w0 8))). pose (rp0 := (855387617219553 / 288230376151711744)).
  assert (Hp0 : app Wp0 rp0 (855387617219553 / 288230376151711744) 0) by (refine (eq_rect _ (fun z => app Wp0 z (855387617219553 / 288230376151711744) 0) (eq_rect _ (fun b => app Wp0 _ b 0) (const_ok Hw Wp0 (855387617219553) 288230376151711744 _ _ _) _ _) _ _); [vm_compute; reflexivity|reflexivity|vm_compute; reflexivity|cbn [Z.abs]; lra|unfold rp0; lra]).
  assert (Ip0 : (855387617219553 / 288230376151711744) <= rp0 <= (855387617219553 / 288230376151711744)) by (unfold rp0; lra).
  pose (Wp1 := (nth 1 asin_r (w0 8))). pose (rp1 := (- 5074874736912655 / 9007199254740992)).
  assert (Hp1 : app Wp1 rp1 (5074874736912655 / 9007199254740992) 0) by (refine (eq_rect _ (fun z => app Wp1 z (5074874736912655 / 9007199254740992) 0) (eq_rect _ (fun b => app Wp1 _ b 0) (const_ok Hw Wp1 (-5074874736912655) 9007199254740992 _ _ _) _ _) _ _); [vm_compute; reflexivity|reflexivity|vm_compute; reflexivity|cbn [Z.abs]; lra|unfold rp1; lra]).
  pose (Wmp1 := fmul Wp0 Y). pose (rmp1 := rp0 * y).
  assert (Hmp1 : app Wmp1 rmp1 (139483 / 125000000) (495543 / 2000000000000000000000000)) by (refine (mul_w Hw _ _ _ _ _ _ _ _ _ _ Hp0 Hz _ _ _ _ _ _ _); rewrite ?u8; lra).
  assert (Iyp1 : (- 22537 / 40000) <= rmp1 + rp1 <= (- 140577 / 250000)) by (pose proof (iv_mul rp0 y _ _ _ _ Ip0 Iz) as (J1 & J2); unfold rp1; change rmp1 with (rp0 * y); split; [eapply Rle_trans; [|apply Rplus_le_compat_r; exact J1]; repeat apply Rmin_case; lra|eapply Rle_trans; [apply Rplus_le_compat_r; exact J2|]; repeat apply Rmax_case; lra]).
  pose (Wyp1 := fadd Wmp1 Wp1). pose (ryp1 := rmp1 + rp1).
  assert (Hyp1 : app Wyp1 ryp1 (22537 / 40000) (1570013 / 25000000000000000000000)) by (refine (add_b Hw _ _ _ _ _ _ _ _ _ _ Hmp1 Hp1 _ _ _); [apply Rabs_le; lra|rewrite ?u8; lra|rewrite ?u8; lra]).
  pose (Wp2 := (nth 2 asin_r (w0 8))). pose (rp2 := (3923035433836341 / 562949953421312)).
  assert (Hp2 : app Wp2 rp2 (3923035433836341 / 562949953421312) 0) by (refine (eq_rect _ (fun z => app Wp2 z (3923035433836341 / 562949953421312) 0) (eq_rect _ (fun b => app Wp2 _ b 0) (const_ok Hw Wp2 (3923035433836341) 562949953421312 _ _ _) _ _) _ _); [vm_compute; reflexivity|reflexivity|vm_compute; reflexivity|cbn [Z.abs]; lra|unfold rp2; lra]).
  pose (Wmp2 := fmul Wyp1 Y). pose (rmp2 := ryp1 * y).
  assert (Hmp2 : app Wmp2 rmp2 (1059239 / 5000000) (3532633 / 50000000000000000000000)) by (refine (mul_w Hw _ _ _ _ _ _ _ _ _ _ Hyp1 Hz _ _ _ _ _ _ _); rewrite ?u8; lra).
  assert (Iyp2 : (337843 / 50000) <= rmp2 + rp2 <= (87109 / 12500)) by (pose proof (iv_mul ryp1 y _ _ _ _ Iyp1 Iz) as (J1 & J2); unfold rp2; change rmp2 with (ryp1 * y); split; [eapply Rle_trans; [|apply Rplus_le_compat_r; exact J1]; repeat apply Rmin_case; lra|eapply Rle_trans; [apply Rplus_le_compat_r; exact J2|]; repeat apply Rmax_case; lra]).
  pose (Wyp2 := fadd Wmp2 Wp2). pose (ryp2 := rmp2 + rp2).
  assert (Hyp2 : app Wyp2 ryp2 (87109 / 12500) (52771 / 62500000000000000000)) by (refine (add_b Hw _ _ _ _ _ _ _ _ _ _ Hmp2 Hp2 _ _ _); [apply Rabs_le; lra|rewrite ?u8; lra|rewrite ?u8; lra]).
  pose (Wp3 := (nth 3 asin_r (w0 8))). pose (rp3 := (- 899629579253101 / 35184372088832)).
  assert (Hp3 : app Wp3 rp3 (899629579253101 / 35184372088832) 0) by (refine (eq_rect _ (fun z => app Wp3 z (899629579253101 / 35184372088832) 0) (eq_rect _ (fun b => app Wp3 _ b 0) (const_ok Hw Wp3 (-899629579253101) 35184372088832 _ _ _) _ _) _ _); [vm_compute; reflexivity|reflexivity|vm_compute; reflexivity|cbn [Z.abs]; lra|unfold rp3; lra]).
  pose (Wmp3 := fmul Wyp2 Y). pose (rmp3 := ryp2 * y).
  assert (Hmp3 : app Wmp3 rmp3 (2620239 / 1000000) (8992803 / 10000000000000000000000)) by (refine (mul_w Hw _ _ _ _ _ _ _ _ _ _ Hyp2 Hz _ _ _ _ _ _ _); rewrite ?u8; lra).
  assert (Iyp3 : (- 255691 / 10000) <= rmp3 + rp3 <= (- 229487 / 10000)) by (pose proof (iv_mul ryp2 y _ _ _ _ Iyp2 Iz) as (J1 & J2); unfold rp3; change rmp3 with (ryp2 * y); split; [eapply Rle_trans; [|apply Rplus_le_compat_r; exact J1]; repeat apply Rmin_case; lra|eapply Rle_trans; [apply Rplus_le_compat_r; exact J2|]; repeat apply Rmax_case; lra]).
  pose (Wyp3 := fadd Wmp3 Wp3). pose (ryp3 := rmp3 + rp3).
  assert (Hyp3 : app Wyp3 ryp3 (255691 / 10000) (3738021 / 1000000000000000000000)) by (refine (add_b Hw _ _ _ _ _ _ _ _ _ _ Hmp3 Hp3 _ _ _); [apply Rabs_le; lra|rewrite ?u8; lra|rewrite ?u8; lra]).
  pose (Wp4 := (nth 4 asin_r (w0 8))). pose (rp4 := (8032354437367837 / 281474976710656)).
  assert (Hp4 : app Wp4 rp4 (8032354437367837 / 281474976710656) 0) by (refine (eq_rect _ (fun z => app Wp4 z (8032354437367837 / 281474976710656) 0) (eq_rect _ (fun b => app Wp4 _ b 0) (const_ok Hw Wp4 (8032354437367837) 281474976710656 _ _ _) _ _) _ _); [vm_compute; reflexivity|reflexivity|vm_compute; reflexivity|cbn [Z.abs]; lra|unfold rp4; lra]).
  pose (Wmp4 := fmul Wyp3 Y). pose (rmp4 := ryp3 * y).
  assert (Hmp4 : app Wmp4 rmp4 (4806991 / 500000) (3540229 / 1000000000000000000000)) by (refine (mul_w Hw _ _ _ _ _ _ _ _ _ _ Hyp3 Hz _ _ _ _ _ _ _); rewrite ?u8; lra).
  assert (Iyp4 : (94613 / 5000) <= rmp4 + rp4 <= (285367 / 10000)) by (pose proof (iv_mul ryp3 y _ _ _ _ Iyp3 Iz) as (J1 & J2); unfold rp4; change rmp4 with (ryp3 * y); split; [eapply Rle_trans; [|apply Rplus_le_compat_r; exact J1]; repeat apply Rmin_case; lra|eapply Rle_trans; [apply Rplus_le_compat_r; exact J2|]; repeat apply Rmax_case; lra]).
  pose (Wyp4 := fadd Wmp4 Wp4). pose (ryp4 := rmp4 + rp4).
  assert (Hyp4 : app Wyp4 ryp4 (285367 / 10000) (167711 / 25000000000000000000)) by (refine (add_b Hw _ _ _ _ _ _ _ _ _ _ Hmp4 Hp4 _ _ _); [apply Rabs_le; lra|rewrite ?u8; lra|rewrite ?u8; lra]).
  pose (Wq0 := (hd (w0 8) asin_s)). pose (rq0 := (- 1544438793885539 / 70368744177664)).
  assert (Hq0 : app Wq0 rq0 (1544438793885539 / 70368744177664) 0) by (refine (eq_rect _ (fun z => app Wq0 z (1544438793885539 / 70368744177664) 0) (eq_rect _ (fun b => app Wq0 _ b 0) (const_ok Hw Wq0 (-1544438793885539) 70368744177664 _ _ _) _ _) _ _); [vm_compute; reflexivity|reflexivity|vm_compute; reflexivity|cbn [Z.abs]; lra|unfold rq0; lra]).
  pose (Wqa := fadd Y Wq0). pose (rqa := y + rq0).
  assert (Hqa : app Wqa rqa (111619 / 5000) (504037 / 200000000000000000000)) by (refine (add_w Hw _ _ _ _ _ _ _ _ _ _ Hz Hq0 _ _ _); rewrite ?u8; lra).
  assert (Iqa : (- 1544438793885539 / 70368744177664) <= rqa <= (- 189747518259342167 / 8796093022208000)) by (change rqa with (y + rq0); unfold rq0; lra).
  pose (Wq1 := (nth 1 asin_s (w0 8))). pose (rq1 := (2587206018744225 / 17592186044416)).
  assert (Hq1 : app Wq1 rq1 (2587206018744225 / 17592186044416) 0) by (refine (eq_rect _ (fun z => app Wq1 z (2587206018744225 / 17592186044416) 0) (eq_rect _ (fun b => app Wq1 _ b 0) (const_ok Hw Wq1 (2587206018744225) 17592186044416 _ _ _) _ _) _ _); [vm_compute; reflexivity|reflexivity|vm_compute; reflexivity|cbn [Z.abs]; lra|unfold rq1; lra]).
  pose (Wmq1 := fmul Wqa Y). pose (rmq1 := rqa * y).
  assert (Hmq1 : app Wmq1 rmq1 (8393749 / 1000000) (2811377 / 1000000000000000000000)) by (refine (mul_w Hw _ _ _ _ _ _ _ _ _ _ Hqa Hz _ _ _ _ _ _ _); rewrite ?u8; lra).
  assert (Iyq1 : (138813 / 1000) <= rmq1 + rq1 <= (73533 / 500)) by (pose proof (iv_mul rqa y _ _ _ _ Iqa Iz) as (J1 & J2); unfold rq1; change rmq1 with (rqa * y); split; [eapply Rle_trans; [|apply Rplus_le_compat_r; exact J1]; repeat apply Rmin_case; lra|eapply Rle_trans; [apply Rplus_le_compat_r; exact J2|]; repeat apply Rmax_case; lra]).
  pose (Wyq1 := fadd Wmq1 Wq1). pose (ryq1 := rmq1 + rq1).
  assert (Hyq1 : app Wyq1 ryq1 (73533 / 500) (1913899 / 100000000000000000000)) by (refine (add_b Hw _ _ _ _ _ _ _ _ _ _ Hmq1 Hq1 _ _ _); [apply Rabs_le; lra|rewrite ?u8; lra|rewrite ?u8; lra]).
  pose (Wq2 := (nth 2 asin_s (w0 8))). pose (rq2 := (- 3376618643403255 / 8796093022208)).
  assert (Hq2 : app Wq2 rq2 (3376618643403255 / 8796093022208) 0) by (refine (eq_rect _ (fun z => app Wq2 z (3376618643403255 / 8796093022208) 0) (eq_rect _ (fun b => app Wq2 _ b 0) (const_ok Hw Wq2 (-3376618643403255) 8796093022208 _ _ _) _ _) _ _); [vm_compute; reflexivity|reflexivity|vm_compute; reflexivity|cbn [Z.abs]; lra|unfold rq2; lra]).
  pose (Wmq2 := fmul Wyq1 Y). pose (rmq2 := ryq1 * y).
  assert (Hmq2 : app Wmq2 rmq2 (2764841 / 50000) (1947463 / 100000000000000000000)) by (refine (mul_w Hw _ _ _ _ _ _ _ _ _ _ Hyq1 Hz _ _ _ _ _ _ _); rewrite ?u8; lra).
  assert (Iyq2 : (- 191939 / 500) <= rmq2 + rq2 <= (- 16429 / 50)) by (pose proof (iv_mul ryq1 y _ _ _ _ Iyq1 Iz) as (J1 & J2); unfold rq2; change rmq2 with (ryq1 * y); split; [eapply Rle_trans; [|apply Rplus_le_compat_r; exact J1]; repeat apply Rmin_case; lra|eapply Rle_trans; [apply Rplus_le_compat_r; exact J2|]; repeat apply Rmax_case; lra]).
  pose (Wyq2 := fadd Wmq2 Wq2). pose (ryq2 := rmq2 + rq2).
  assert (Hyq2 : app Wyq2 ryq2 (191939 / 500) (1241873 / 20000000000000000000)) by (refine (add_b Hw _ _ _ _ _ _ _ _ _ _ Hmq2 Hq2 _ _ _); [apply Rabs_le; lra|rewrite ?u8; lra|rewrite ?u8; lra]).
  pose (Wq3 := (nth 3 asin_s (w0 8))). pose (rq3 := (3012132914012767 / 8796093022208)).
  assert (Hq3 : app Wq3 rq3 (3012132914012767 / 8796093022208) 0) by (refine (eq_rect _ (fun z => app Wq3 z (3012132914012767 / 8796093022208) 0) (eq_rect _ (fun b => app Wq3 _ b 0) (const_ok Hw Wq3 (3012132914012767) 8796093022208 _ _ _) _ _) _ _); [vm_compute; reflexivity|reflexivity|vm_compute; reflexivity|cbn [Z.abs]; lra|unfold rq3; lra]).
  pose (Wmq3 := fmul Wyq2 Y). pose (rmq3 := ryq2 * y).
  assert (Hmq3 : app Wmq3 rmq3 (721691 / 5000) (692459 / 12500000000000000000)) by (refine (mul_w Hw _ _ _ _ _ _ _ _ _ _ Hyq2 Hz _ _ _ _ _ _ _); rewrite ?u8; lra).
  assert (Iyq3 : (198101 / 1000) <= rmq3 + rq3 <= (8561 / 25)) by (pose proof (iv_mul ryq2 y _ _ _ _ Iyq2 Iz) as (J1 & J2); unfold rq3; change rmq3 with (ryq2 * y); split; [eapply Rle_trans; [|apply Rplus_le_compat_r; exact J1]; repeat apply Rmin_case; lra|eapply Rle_trans; [apply Rplus_le_compat_r; exact J2|]; repeat apply Rmax_case; lra]).
  pose (Wyq3 := fadd Wmq3 Wq3). pose (ryq3 := rmq3 + rq3).
  assert (Hyq3 : app Wyq3 ryq3 (8561 / 25) (116769 / 1250000000000000000)) by (refine (add_b Hw _ _ _ _ _ _ _ _ _ _ Hmq3 Hq3 _ _ _); [apply Rabs_le; lra|rewrite ?u8; lra|rewrite ?u8; lra]).
  pose (Wzp := fmul Y Wyp4). pose (rzp := y * ryp4).
  assert (Hzp : app Wzp rzp (53649 / 5000) (1226217 / 250000000000000000000)) by (refine (mul_w Hw _ _ _ _ _ _ _ _ _ _ Hz Hyp4 _ _ _ _ _ _ _); rewrite ?u8; lra).
  pose (Wt := fdiv Wzp Wyq3). pose (rt := rzp / ryq3).
  assert (Ht : app Wt rt (1 / 25) (4657389 / 100000000000000000000000)) by (refine (div_w Hw _ _ _ _ _ _ _ _ (2051 / 10) (4213299 / 100000000000000000000000) _ _ Hzp Hyq3 _ _ _ _ _ _ _ _); [exact QB|split; lra|lra|split; lra|split; lra|exact TB|lra|rewrite ?u8; lra]).
  change (asin_t8r Y) with Wt. exact Ht.
Qed.
