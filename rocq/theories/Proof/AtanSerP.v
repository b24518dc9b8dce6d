(** atan: rounding errors of the series and its distance from atan.  (The bounds were computed by a script; every one of
    them is checked here.) *)
From Coq Require Import ZArith Reals List Bool Lia Lra Psatz.
From Verif.Spec Require Import FloatSpec RoundSpec AccuracySpec.
From Verif.Model Require Import Word Fp FpArith Transcend.
From Verif.Proof Require Import WordP FpP FpArithP FpIntP RealErrP SeriesP PolyP ExpRealP RealOpsP ExpSerP FoldP LogRealP LogOpsP LogSerP AtanRealP.
From Coq Require Import Ratan.
Import ListNotations.
Local Open Scope R_scope.

Definition aa4 : list Z := [(-44738728); 26813630; (-18626314); 10809553]%Z.
Definition ab4 : list Z := [134217728]%Z.
Definition as4 : list Z := [0; (-111546435); 66927861; (-47805615); 37182145; (-30421755); 25741485; (-22309287); 19684665; (-17612595); 15935205; (-14549535)]%Z.
Lemma atan_poly4 x : Rabs x <= (20711 / 50000) -> let z := x * x in Rabs (x * (z * ((((10809553 / 134217728) * z + (- 9313157 / 67108864)) * z + (13406815 / 67108864)) * z + (- 5592341 / 16777216))) + x - atan x) <= (3045327 / 100000000000000) * Rabs x.
Proof.
  intros X z. assert (Z : 0 <= z <= (428945521 / 2500000000)) by (unfold z; apply abs_le_inv in X; nra).
  assert (QP : forall z, 0 <= z -> 0 < pe ab4 z) by (clear; intros z Z; unfold ab4; cbn [pe]; repeat (apply Rplus_lt_le_0_compat || apply Rplus_le_le_0_compat || apply Rmult_le_pos); lra). specialize (QP z ltac:(lra)).
  pose proof (atan_rat aa4 ab4 as4 334639305 11 1 33554432 10 4 22 z) as AR.
  assert (HS : forall z, 1 + pe as4 z / IZR 334639305 = ta 11 z) by (intros y; unfold as4; cbn [pe ta]; unfold Rdiv; rewrite !alt_pow; cbn [Z.of_nat Pos.of_succ_nat Pos.succ Z.mul Pos.mul Z.add Pos.add]; cbn [pow]; field).
  specialize (AR ltac:(lia) ltac:(lia) ltac:(lia) ltac:(lia) ltac:(lia) HS ltac:(vm_compute; reflexivity) ltac:(vm_compute; reflexivity)). clear HS.
  change (2 ^ 10)%Z with 1024%Z in AR. change (2 * 4 * Z.of_nat 22)%Z with 176%Z in AR. specialize (AR ltac:(lra) QP).
  pose proof (atan_ta 11 x (20711 / 50000) X) as AT. fold z in AT. assert (TB : ((20711 / 50000) * (20711 / 50000)) ^ S 11 <= (6509469 / 10000000000000000)) by (cbn [pow]; lra).
  assert (E : (z * ((((10809553 / 134217728) * z + (- 9313157 / 67108864)) * z + (13406815 / 67108864)) * z + (- 5592341 / 16777216))) = z * (pe aa4 z / pe ab4 z)).
  { unfold aa4, ab4; cbn [pe]; field. }
  rewrite E. clear E. set (r := z * (pe aa4 z / pe ab4 z)) in *. clearbody r. set (T := ta 11 z) in *. clearbody T. replace (x * r + x - atan x) with (x * (r - (T - 1)) + - (atan x - x * T)) by ring. eapply Rle_trans; [apply Rabs_triang|]. rewrite Rabs_Ropp, Rabs_mult.
  pose proof (Rabs_pos x) as XP. assert (Rabs x * Rabs (r - (T - 1)) <= Rabs x * (1 / 33554432)) by (apply Rmult_le_compat_l; lra). assert ((((20711 / 50000) * (20711 / 50000)) ^ S 11) * Rabs x <= (6509469 / 10000000000000000) * Rabs x) by (apply Rmult_le_compat_r; lra). lra.
Qed.
Definition atan_t4 (X : word 4) : word 4 := let X2 := fmul X X in fmul (fsub (fmul (fadd (fmul (fsub (fmul (atan_p4 0) X2) (atan_p4 1)) X2) (atan_p4 2)) X2) (atan_p4 3)) X2.
Definition atan_core4 (X : word 4) : word 4 := fadd (fmul (atan_t4 X) X) X.
Lemma atan_t_ok4 X : is_Finite X = true -> Rabs (real X) <= (20711 / 50000) -> let x := real X in let z := x * x in app (atan_t4 X) (z * ((((10809553 / 134217728) * z + (- 9313157 / 67108864)) * z + (13406815 / 67108864)) * z + (- 5592341 / 16777216))) (5719211 / 100000000) (1141207 / 100000000000000).
Proof.
  intros F HX x z. set (Hw := fp4). pose proof (app_exact X _ F HX) as Hx. fold x in Hx, HX. 
  pose (Wz := fmul X X). pose (rz := x * x).
  assert (Hz : app Wz rz (1715783 / 10000000) (511343 / 50000000000000)) by (refine (mul_w Hw _ _ _ _ _ _ _ _ _ _ Hx Hx _ _ _ _ _ _ _); rewrite ?u4; lra).
  assert (Iz : 0 <= rz <= (428945521 / 2500000000)) by (change rz with (x * x); apply abs_le_inv in HX; nra).
  pose (Wp0 := (atan_p4 0)). pose (rp0 := (10809553 / 134217728)).
  assert (Hp0 : app Wp0 rp0 (10809553 / 134217728) 0) by (refine (eq_rect _ (fun z => app Wp0 z (10809553 / 134217728) 0) (eq_rect _ (fun b => app Wp0 _ b 0) (const_ok Hw Wp0 (10809553) 134217728 _ _ _) _ _) _ _); [vm_compute; reflexivity|reflexivity|vm_compute; reflexivity|cbn [Z.abs]; lra|unfold rp0; lra]).
  pose (Wp1 := (atan_p4 1)). pose (rp1 := (9313157 / 67108864)).
  assert (Hp1 : app Wp1 rp1 (9313157 / 67108864) 0) by (refine (eq_rect _ (fun z => app Wp1 z (9313157 / 67108864) 0) (eq_rect _ (fun b => app Wp1 _ b 0) (const_ok Hw Wp1 (9313157) 67108864 _ _ _) _ _) _ _); [vm_compute; reflexivity|reflexivity|vm_compute; reflexivity|cbn [Z.abs]; lra|unfold rp1; lra]).
  pose (Wp2 := (atan_p4 2)). pose (rp2 := (13406815 / 67108864)).
  assert (Hp2 : app Wp2 rp2 (13406815 / 67108864) 0) by (refine (eq_rect _ (fun z => app Wp2 z (13406815 / 67108864) 0) (eq_rect _ (fun b => app Wp2 _ b 0) (const_ok Hw Wp2 (13406815) 67108864 _ _ _) _ _) _ _); [vm_compute; reflexivity|reflexivity|vm_compute; reflexivity|cbn [Z.abs]; lra|unfold rp2; lra]).
  pose (Wp3 := (atan_p4 3)). pose (rp3 := (5592341 / 16777216)).
  assert (Hp3 : app Wp3 rp3 (5592341 / 16777216) 0) by (refine (eq_rect _ (fun z => app Wp3 z (5592341 / 16777216) 0) (eq_rect _ (fun b => app Wp3 _ b 0) (const_ok Hw Wp3 (5592341) 16777216 _ _ _) _ _) _ _); [vm_compute; reflexivity|reflexivity|vm_compute; reflexivity|cbn [Z.abs]; lra|unfold rp3; lra]).
  pose (Wa := fmul Wp0 Wz). pose (ra := rp0 * rz).
  assert (Ha : app Wa ra (172731 / 12500000) (1647291 / 1000000000000000)) by (refine (mul_w Hw _ _ _ _ _ _ _ _ _ _ Hp0 Hz _ _ _ _ _ _ _); rewrite ?u4; lra).
  pose (Wb := fsub Wa Wp1). pose (rb := ra - rp1).
  assert (Hb : app Wb rb (1387769 / 10000000) (9919039 / 1000000000000000)) by (refine (sub_b Hw _ _ _ _ _ _ _ _ _ _ Ha Hp1 _ _ _); [apply Rabs_le; change ra with (rp0 * rz); unfold rp0, rp1; lra|rewrite ?u4; lra|rewrite ?u4; lra]).
  pose (Wc := fmul Wb Wz). pose (rc := rb * rz).
  assert (Hc : app Wc rc (2381111 / 100000000) (4540397 / 1000000000000000)) by (refine (mul_w Hw _ _ _ _ _ _ _ _ _ _ Hb Hz _ _ _ _ _ _ _); rewrite ?u4; lra).
  pose (Wd := fadd Wc Wp2). pose (rd := rc + rp2).
  assert (Ib : (- 9313157 / 67108864) <= rb <= 0) by (change rb with (rp0 * rz - rp1); unfold rp0, rp1; lra).
  assert (Hd : app Wd rd (499443 / 2500000) (328961 / 20000000000000)) by (refine (add_b Hw _ _ _ _ _ _ _ _ _ _ Hc Hp2 _ _ _); [apply Rabs_le; change rc with (rb * rz); unfold rp2; nra|rewrite ?u4; lra|rewrite ?u4; lra]).
  pose (We := fmul Wd Wz). pose (re := rd * rz).
  assert (He : app We re (107117 / 3125000) (6908317 / 1000000000000000)) by (refine (mul_w Hw _ _ _ _ _ _ _ _ _ _ Hd Hz _ _ _ _ _ _ _); rewrite ?u4; lra).
  pose (Wf := fsub We Wp3). pose (rf := re - rp3).
  assert (Id : (4612843671679 / 26214400000000) <= rd <= (13406815 / 67108864)) by (change rd with (rb * rz + rp2); unfold rp2; nra).
  assert (Hf : app Wf rf (666659 / 2000000) (2677631 / 100000000000000)) by (refine (sub_b Hw _ _ _ _ _ _ _ _ _ _ He Hp3 _ _ _); [apply Rabs_le; change re with (rd * rz); unfold rp3; nra|rewrite ?u4; lra|rewrite ?u4; lra]).
  pose (Wt := fmul Wf Wz). pose (rt := rf * rz).
  assert (Ht : app Wt rt (5719211 / 100000000) (1141207 / 100000000000000)) by (refine (mul_w Hw _ _ _ _ _ _ _ _ _ _ Hf Hz _ _ _ _ _ _ _); rewrite ?u4; lra).
  change (atan_t4 X) with Wt. replace (z * ((((10809553 / 134217728) * z + (- 9313157 / 67108864)) * z + (13406815 / 67108864)) * z + (- 5592341 / 16777216))) with rt; [exact Ht|]. change rt with ((((rp0 * z - rp1) * z + rp2) * z - rp3) * z). unfold rp0, rp1, rp2, rp3. field.
Qed.
Lemma atan_core_ok4 X : is_Finite X = true -> Rabs (real X) <= (20711 / 50000) -> is_Finite (atan_core4 X) = true /\ Rabs (real (atan_core4 X) - atan (real X)) <= (104879 / 1000000000000) * Rabs (real X) + 2 * eta (w := 4).
Proof.
  intros F HX. pose proof (atan_t_ok4 X F HX) as (FT & BT & ET). pose proof (atan_poly4 (real X) HX) as AP. cbv zeta in *. set (x := real X) in *. set (tau := ((x * x) * ((((10809553 / 134217728) * (x * x) + (- 9313157 / 67108864)) * (x * x) + (13406815 / 67108864)) * (x * x) + (- 5592341 / 16777216)))) in *.
  pose proof (atan_fin fp4 (fmul (atan_t4 X) X) X (atan_t4 X) tau (5719211 / 100000000) (1141207 / 100000000000000) (3045327 / 100000000000000) (2263713 / 50000000000000) FT F BT ET) as AF. fold x in AF. rewrite u4 in AF.
  destruct AF as (FR & ER); [lra|lra|lra|lra|exact AP| | |split; [exact FR|]; eapply Rle_trans; [exact ER|]; pose proof (Rabs_pos x); pose proof (eta_pos fp4); lra].
  - intros BB. exact (fmul_real fp4 _ _ FT F BB).
  - lra.
Qed.
Definition aa8 : list Z := [(-146029711172932032); (-276716177117889696); (-168904256756141664); (-36383539228050384); (-1970461881518437)]%Z.
Definition ab8 : list Z := [438089133518797568; 1093002011464758528; 974761491362160000; 371607789992053056; 55976286633525728; 2251799813685248]%Z.
Definition as8 : list Z := [0; (-3743576848674424246377459672213933825); 2246146109204654547826475803328360295; (-1604390078003324677018911288091685925); 1247858949558141415459153224071311275; (-1020975504183933885375670819694709225); 863902349694097903010183001280138575; (-748715369734884849275491934442786765); 660631208589604278772492883331870675; (-591091081369645933638546264033779025); 534796692667774892339637096030561975; (-488292632435794466918799087680078325); 449229221840930909565295160665672059; (-415952983186047138486384408023770425); 387266570552526646176978586780751775; (-362281630516879765778463839246509725); 340325168061311295125223606564903075; (-320878015600664935403782257618337185); 303533258000628992949523757206535175; (-287967449898032634336727667093379525); 273920257220079822905667780893702475; (-261179780140076110212380907363762825); 249571789911628283091830644814262255; (-238951713745176015726220830141314925); 229198582571903525288415898298812275; (-220210402863201426257497627777290225); 211900576340061749794950547483807575; (-204195100836786777075134163938941845); 197030360456548644546182088011259675; (-190351365186835131171735237570200025); 184110336820053651461186541256422975; (-178265564222591630779879032010187325); 172780469938819580602036600256027715; (-167622843970496608046751925621519425); 162764210811931488972933029226692775; (-158179303465116517452568718544250725); 153845623918127023823731219406052075; (-149743073946976969855098386888557353); 145853643454847697910810117099244175; (-142161146152193325811802266033440525); 138650994395349046162128136007923475; (-135310006578593647459426253212551825); 132126241717920855754498576666374135; (-129088856850842215392326195593583925); 126187983663182839765532348501593275; (-123414621384871129001454714468591225); 120760543505626588592821279748836575; (-118218216273929186727709252806755805)]%Z.
Lemma atan_poly8 x : Rabs x <= (6601 / 10000) -> let z := x * x in Rabs (x * (z * (((((- 1970461881518437 / 2251799813685248) * z + (- 2273971201753149 / 140737488355328)) * z + (- 5278258023629427 / 70368744177664)) * z + (- 8647380534934053 / 70368744177664)) * z + (- 2281714237077063 / 35184372088832)) / (((((z + (1749258957297679 / 70368744177664)) * z + (5806371718625829 / 35184372088832)) * z + (7615324151266875 / 17592186044416)) * z + (4269539107284213 / 8796093022208)) * z + (1711285677807803 / 8796093022208))) + x - atan x) <= (6032547 / 100000000000000000000000) * Rabs x.
Proof.
  intros X z. assert (Z : 0 <= z <= (43573201 / 100000000)) by (unfold z; apply abs_le_inv in X; nra).
  assert (QP : forall z, 0 <= z -> 0 < pe ab8 z) by (clear; intros z Z; unfold ab8; cbn [pe]; repeat (apply Rplus_lt_le_0_compat || apply Rplus_le_le_0_compat || apply Rmult_le_pos); lra). specialize (QP z ltac:(lra)).
  pose proof (atan_rat aa8 ab8 as8 11230730546023272739132379016641801475 47 1 18014398509481984 10 32 7 z) as AR.
  assert (HS : forall z, 1 + pe as8 z / IZR 11230730546023272739132379016641801475 = ta 47 z) by (intros y; unfold as8; cbn [pe ta]; unfold Rdiv; rewrite !alt_pow; cbn [Z.of_nat Pos.of_succ_nat Pos.succ Z.mul Pos.mul Z.add Pos.add]; cbn [pow]; field).
  specialize (AR ltac:(lia) ltac:(lia) ltac:(lia) ltac:(lia) ltac:(lia) HS ltac:(vm_compute; reflexivity) ltac:(vm_compute; reflexivity)). clear HS.
  change (2 ^ 10)%Z with 1024%Z in AR. change (2 * 32 * Z.of_nat 7)%Z with 448%Z in AR. specialize (AR ltac:(lra) QP).
  pose proof (atan_ta 47 x (6601 / 10000) X) as AT. fold z in AT. assert (TB : ((6601 / 10000) * (6601 / 10000)) ^ S 47 <= (2407157 / 500000000000000000000000)) by (cbn [pow]; lra).
  assert (E : (z * (((((- 1970461881518437 / 2251799813685248) * z + (- 2273971201753149 / 140737488355328)) * z + (- 5278258023629427 / 70368744177664)) * z + (- 8647380534934053 / 70368744177664)) * z + (- 2281714237077063 / 35184372088832)) / (((((z + (1749258957297679 / 70368744177664)) * z + (5806371718625829 / 35184372088832)) * z + (7615324151266875 / 17592186044416)) * z + (4269539107284213 / 8796093022208)) * z + (1711285677807803 / 8796093022208))) = z * (pe aa8 z / pe ab8 z)).
  { assert (E2 : (((((z + (1749258957297679 / 70368744177664)) * z + (5806371718625829 / 35184372088832)) * z + (7615324151266875 / 17592186044416)) * z + (4269539107284213 / 8796093022208)) * z + (1711285677807803 / 8796093022208)) = pe ab8 z / 2251799813685248) by (unfold ab8; cbn [pe]; field). assert (E1 : (((((- 1970461881518437 / 2251799813685248) * z + (- 2273971201753149 / 140737488355328)) * z + (- 5278258023629427 / 70368744177664)) * z + (- 8647380534934053 / 70368744177664)) * z + (- 2281714237077063 / 35184372088832)) = pe aa8 z / 2251799813685248) by (unfold aa8; cbn [pe]; field). rewrite E2, E1. field. lra. }
  rewrite E. clear E. set (r := z * (pe aa8 z / pe ab8 z)) in *. clearbody r. set (T := ta 47 z) in *. clearbody T. replace (x * r + x - atan x) with (x * (r - (T - 1)) + - (atan x - x * T)) by ring. eapply Rle_trans; [apply Rabs_triang|]. rewrite Rabs_Ropp, Rabs_mult.
  pose proof (Rabs_pos x) as XP. assert (Rabs x * Rabs (r - (T - 1)) <= Rabs x * (1 / 18014398509481984)) by (apply Rmult_le_compat_l; lra). assert ((((6601 / 10000) * (6601 / 10000)) ^ S 47) * Rabs x <= (2407157 / 500000000000000000000000) * Rabs x) by (apply Rmult_le_compat_r; lra). lra.
Qed.
Lemma atan_tb8 x : Rabs x <= (6601 / 10000) -> let z := x * x in Rabs (z * (((((- 1970461881518437 / 2251799813685248) * z + (- 2273971201753149 / 140737488355328)) * z + (- 5278258023629427 / 70368744177664)) * z + (- 8647380534934053 / 70368744177664)) * z + (- 2281714237077063 / 35184372088832)) / (((((z + (1749258957297679 / 70368744177664)) * z + (5806371718625829 / 35184372088832)) * z + (7615324151266875 / 17592186044416)) * z + (4269539107284213 / 8796093022208)) * z + (1711285677807803 / 8796093022208))) <= (153 / 1000).
Proof.
  intros X z. pose proof (atan_poly8 x X) as AP. cbv zeta in AP. fold z in AP. assert (Z : 0 <= z <= (43573201 / 100000000)) by (unfold z; apply abs_le_inv in X; nra).
  destruct (Req_dec x 0) as [X0|X0]; [unfold z; rewrite X0; rewrite Rmult_0_l, Rmult_0_l; unfold Rdiv; rewrite Rmult_0_l, Rabs_R0; lra|].
  set (e := (z * (((((- 1970461881518437 / 2251799813685248) * z + (- 2273971201753149 / 140737488355328)) * z + (- 5278258023629427 / 70368744177664)) * z + (- 8647380534934053 / 70368744177664)) * z + (- 2281714237077063 / 35184372088832)) / (((((z + (1749258957297679 / 70368744177664)) * z + (5806371718625829 / 35184372088832)) * z + (7615324151266875 / 17592186044416)) * z + (4269539107284213 / 8796093022208)) * z + (1711285677807803 / 8796093022208)))) in *. clearbody e. pose proof (atan_ta 5 x _ X) as T. fold z in T. pose proof (Rabs_pos_lt x X0) as XP.
  assert (TB : Rabs (ta 5 z - 1) <= 1453 / 10000). { clearbody z. cbn [ta pow]. change (IZR (2 * Z.of_nat 1 + 1)) with 3. change (IZR (2 * Z.of_nat 2 + 1)) with 5. change (IZR (2 * Z.of_nat 3 + 1)) with 7. change (IZR (2 * Z.of_nat 4 + 1)) with 9. change (IZR (2 * Z.of_nat 5 + 1)) with 11. clear - Z. assert (Z2 : 0 <= z * z <= z) by nra. assert (Z3 : 0 <= z * z * z <= z * z) by nra. assert (Z4 : 0 <= z * z * z * z <= z * z * z) by nra. assert (Z5 : 0 <= z * z * z * z * z <= z * z * z * z) by nra. apply Rabs_le. lra. }
  assert (BB : ((6601 / 10000) * (6601 / 10000)) ^ 6 <= 7 / 1000) by (cbn [pow]; lra). assert (T' : Rabs (atan x - x * ta 5 z) <= 7 / 1000 * Rabs x) by (eapply Rle_trans; [exact T|]; apply Rmult_le_compat_r; [lra|exact BB]). clear T BB.
  pose proof (Rabs_triang (x * e + x - atan x) (atan x - x * ta 5 z)) as T1. pose proof (Rabs_triang (x * e + x - atan x + (atan x - x * ta 5 z)) (x * (ta 5 z - 1))) as T2. rewrite (Rabs_mult x (ta 5 z - 1)) in T2. replace (x * e + x - atan x + (atan x - x * ta 5 z) + x * (ta 5 z - 1)) with (x * e) in T2 by ring. rewrite Rabs_mult in T2.
  assert (Rabs x * Rabs (ta 5 z - 1) <= Rabs x * (1453 / 10000)) by (apply Rmult_le_compat_l; lra). assert (Rabs x * Rabs e <= Rabs x * (153 / 1000)) by lra. apply (Rmult_le_reg_l (Rabs x)); lra.
Qed.
Definition atan_t8 (X : word 8) : word 8 := let X2 := fmul X X in fdiv (fmul X2 (horner atan_p8 X2)) (horner1 atan_q8 X2).
Definition atan_core8 (X : word 8) : word 8 := fadd (fmul X (atan_t8 X)) X.
Lemma atan_t_ok8 X : is_Finite X = true -> Rabs (real X) <= (6601 / 10000) -> let x := real X in let z := x * x in app (atan_t8 X) (z * (((((- 1970461881518437 / 2251799813685248) * z + (- 2273971201753149 / 140737488355328)) * z + (- 5278258023629427 / 70368744177664)) * z + (- 8647380534934053 / 70368744177664)) * z + (- 2281714237077063 / 35184372088832)) / (((((z + (1749258957297679 / 70368744177664)) * z + (5806371718625829 / 35184372088832)) * z + (7615324151266875 / 17592186044416)) * z + (4269539107284213 / 8796093022208)) * z + (1711285677807803 / 8796093022208))) (153 / 1000) (209537 / 625000000000000000000).
Proof.
  intros F HX x z. set (Hw := fp8). pose proof (app_exact X _ F HX) as Hx. fold x in Hx, HX. assert (TB : Rabs (z * (((((- 1970461881518437 / 2251799813685248) * z + (- 2273971201753149 / 140737488355328)) * z + (- 5278258023629427 / 70368744177664)) * z + (- 8647380534934053 / 70368744177664)) * z + (- 2281714237077063 / 35184372088832)) / (((((z + (1749258957297679 / 70368744177664)) * z + (5806371718625829 / 35184372088832)) * z + (7615324151266875 / 17592186044416)) * z + (4269539107284213 / 8796093022208)) * z + (1711285677807803 / 8796093022208))) <= (153 / 1000)) by (apply (atan_tb8 x HX)).
  pose (Wz := fmul X X). pose (rz := x * x).
  assert (Hz : app Wz rz (4357321 / 10000000) (2418799 / 50000000000000000000000)) by (refine (mul_w Hw _ _ _ _ _ _ _ _ _ _ Hx Hx _ _ _ _ _ _ _); rewrite ?u8; lra).
  assert (Iz : 0 <= rz <= (43573201 / 100000000)) by (change rz with (x * x); apply abs_le_inv in HX; nra).
  pose (Wp0 := (nth 0 atan_p8 (w0 8))). pose (rp0 := (- 1970461881518437 / 2251799813685248)).
  assert (Hp0 : app Wp0 rp0 (1970461881518437 / 2251799813685248) 0) by (refine (eq_rect _ (fun z => app Wp0 z (1970461881518437 / 2251799813685248) 0) (eq_rect _ (fun b => app Wp0 _ b 0) (const_ok Hw Wp0 (-1970461881518437) 2251799813685248 _ _ _) _ _) _ _); [vm_compute; reflexivity|reflexivity|vm_compute; reflexivity|cbn [Z.abs]; lra|unfold rp0; lra]).
  assert (Ip0 : (- 1970461881518437 / 2251799813685248) <= rp0 <= (- 1970461881518437 / 2251799813685248)) by (unfold rp0; lra).
  pose (Wp1 := (nth 1 atan_p8 (w0 8))). pose (rp1 := (- 2273971201753149 / 140737488355328)).
  assert (Hp1 : app Wp1 rp1 (2273971201753149 / 140737488355328) 0) by (refine (eq_rect _ (fun z => app Wp1 z (2273971201753149 / 140737488355328) 0) (eq_rect _ (fun b => app Wp1 _ b 0) (const_ok Hw Wp1 (-2273971201753149) 140737488355328 _ _ _) _ _) _ _); [vm_compute; reflexivity|reflexivity|vm_compute; reflexivity|cbn [Z.abs]; lra|unfold rp1; lra]).
  pose (Wmp1 := fmul Wp0 Wz). pose (rmp1 := rp0 * rz).
  assert (Hmp1 : app Wmp1 rmp1 (1906461 / 5000000) (4233193 / 50000000000000000000000)) by (refine (mul_w Hw _ _ _ _ _ _ _ _ _ _ Hp0 Hz _ _ _ _ _ _ _); rewrite ?u8; lra).
  assert (Iyp1 : (- 165389 / 10000) <= rmp1 + rp1 <= (- 6463 / 400)) by (pose proof (iv_mul rp0 rz _ _ _ _ Ip0 Iz) as (J1 & J2); unfold rp1; change rmp1 with (rp0 * rz); split; [eapply Rle_trans; [|apply Rplus_le_compat_r; exact J1]; repeat apply Rmin_case; lra|eapply Rle_trans; [apply Rplus_le_compat_r; exact J2|]; repeat apply Rmax_case; lra]).
  pose (Wyp1 := fadd Wmp1 Wp1). pose (ryp1 := rmp1 + rp1).
  assert (Hyp1 : app Wyp1 ryp1 (165389 / 10000) (1920851 / 1000000000000000000000)) by (refine (add_b Hw _ _ _ _ _ _ _ _ _ _ Hmp1 Hp1 _ _ _); [apply Rabs_le; lra|rewrite ?u8; lra|rewrite ?u8; lra]).
  pose (Wp2 := (nth 2 atan_p8 (w0 8))). pose (rp2 := (- 5278258023629427 / 70368744177664)).
  assert (Hp2 : app Wp2 rp2 (5278258023629427 / 70368744177664) 0) by (refine (eq_rect _ (fun z => app Wp2 z (5278258023629427 / 70368744177664) 0) (eq_rect _ (fun b => app Wp2 _ b 0) (const_ok Hw Wp2 (-5278258023629427) 70368744177664 _ _ _) _ _) _ _); [vm_compute; reflexivity|reflexivity|vm_compute; reflexivity|cbn [Z.abs]; lra|unfold rp2; lra]).
  pose (Wmp2 := fmul Wyp1 Wz). pose (rmp2 := ryp1 * rz).
  assert (Hmp2 : app Wmp2 rmp2 (720653 / 100000) (609287 / 250000000000000000000)) by (refine (mul_w Hw _ _ _ _ _ _ _ _ _ _ Hyp1 Hz _ _ _ _ _ _ _); rewrite ?u8; lra).
  assert (Iyp2 : (- 822151 / 10000) <= rmp2 + rp2 <= (- 150017 / 2000)) by (pose proof (iv_mul ryp1 rz _ _ _ _ Iyp1 Iz) as (J1 & J2); unfold rp2; change rmp2 with (ryp1 * rz); split; [eapply Rle_trans; [|apply Rplus_le_compat_r; exact J1]; repeat apply Rmin_case; lra|eapply Rle_trans; [apply Rplus_le_compat_r; exact J2|]; repeat apply Rmax_case; lra]).
  pose (Wyp2 := fadd Wmp2 Wp2). pose (ryp2 := rmp2 + rp2).
  assert (Hyp2 : app Wyp2 ryp2 (822151 / 10000) (578243 / 50000000000000000000)) by (refine (add_b Hw _ _ _ _ _ _ _ _ _ _ Hmp2 Hp2 _ _ _); [apply Rabs_le; lra|rewrite ?u8; lra|rewrite ?u8; lra]).
  pose (Wp3 := (nth 3 atan_p8 (w0 8))). pose (rp3 := (- 8647380534934053 / 70368744177664)).
  assert (Hp3 : app Wp3 rp3 (8647380534934053 / 70368744177664) 0) by (refine (eq_rect _ (fun z => app Wp3 z (8647380534934053 / 70368744177664) 0) (eq_rect _ (fun b => app Wp3 _ b 0) (const_ok Hw Wp3 (-8647380534934053) 70368744177664 _ _ _) _ _) _ _); [vm_compute; reflexivity|reflexivity|vm_compute; reflexivity|cbn [Z.abs]; lra|unfold rp3; lra]).
  pose (Wmp3 := fmul Wyp2 Wz). pose (rmp3 := ryp2 * rz).
  assert (Hmp3 : app Wmp3 rmp3 (447797 / 12500) (649683 / 50000000000000000000)) by (refine (mul_w Hw _ _ _ _ _ _ _ _ _ _ Hyp2 Hz _ _ _ _ _ _ _); rewrite ?u8; lra).
  assert (Iyp3 : (- 158711 / 1000) <= rmp3 + rp3 <= (- 61443 / 500)) by (pose proof (iv_mul ryp2 rz _ _ _ _ Iyp2 Iz) as (J1 & J2); unfold rp3; change rmp3 with (ryp2 * rz); split; [eapply Rle_trans; [|apply Rplus_le_compat_r; exact J1]; repeat apply Rmin_case; lra|eapply Rle_trans; [apply Rplus_le_compat_r; exact J2|]; repeat apply Rmax_case; lra]).
  pose (Wyp3 := fadd Wmp3 Wp3). pose (ryp3 := rmp3 + rp3).
  assert (Hyp3 : app Wyp3 ryp3 (158711 / 1000) (3061413 / 100000000000000000000)) by (refine (add_b Hw _ _ _ _ _ _ _ _ _ _ Hmp3 Hp3 _ _ _); [apply Rabs_le; lra|rewrite ?u8; lra|rewrite ?u8; lra]).
  pose (Wp4 := (nth 4 atan_p8 (w0 8))). pose (rp4 := (- 2281714237077063 / 35184372088832)).
  assert (Hp4 : app Wp4 rp4 (2281714237077063 / 35184372088832) 0) by (refine (eq_rect _ (fun z => app Wp4 z (2281714237077063 / 35184372088832) 0) (eq_rect _ (fun b => app Wp4 _ b 0) (const_ok Hw Wp4 (-2281714237077063) 35184372088832 _ _ _) _ _) _ _); [vm_compute; reflexivity|reflexivity|vm_compute; reflexivity|cbn [Z.abs]; lra|unfold rp4; lra]).
  pose (Wmp4 := fmul Wyp3 Wz). pose (rmp4 := ryp3 * rz).
  assert (Hmp4 : app Wmp4 rmp4 (1728887 / 25000) (717379 / 25000000000000000000)) by (refine (mul_w Hw _ _ _ _ _ _ _ _ _ _ Hyp3 Hz _ _ _ _ _ _ _); rewrite ?u8; lra).
  assert (Iyp4 : (- 67003 / 500) <= rmp4 + rp4 <= (- 324251 / 5000)) by (pose proof (iv_mul ryp3 rz _ _ _ _ Iyp3 Iz) as (J1 & J2); unfold rp4; change rmp4 with (ryp3 * rz); split; [eapply Rle_trans; [|apply Rplus_le_compat_r; exact J1]; repeat apply Rmin_case; lra|eapply Rle_trans; [apply Rplus_le_compat_r; exact J2|]; repeat apply Rmax_case; lra]).
  pose (Wyp4 := fadd Wmp4 Wp4). pose (ryp4 := rmp4 + rp4).
  assert (Hyp4 : app Wyp4 ryp4 (67003 / 500) (2178641 / 50000000000000000000)) by (refine (add_b Hw _ _ _ _ _ _ _ _ _ _ Hmp4 Hp4 _ _ _); [apply Rabs_le; lra|rewrite ?u8; lra|rewrite ?u8; lra]).
  pose (Wq0 := (hd (w0 8) atan_q8)). pose (rq0 := (1749258957297679 / 70368744177664)).
  assert (Hq0 : app Wq0 rq0 (1749258957297679 / 70368744177664) 0) by (refine (eq_rect _ (fun z => app Wq0 z (1749258957297679 / 70368744177664) 0) (eq_rect _ (fun b => app Wq0 _ b 0) (const_ok Hw Wq0 (1749258957297679) 70368744177664 _ _ _) _ _) _ _); [vm_compute; reflexivity|reflexivity|vm_compute; reflexivity|cbn [Z.abs]; lra|unfold rq0; lra]).
  pose (Wqa := fadd Wz Wq0). pose (rqa := rz + rq0).
  assert (Hqa : app Wqa rqa (126471 / 5000) (2856597 / 1000000000000000000000)) by (refine (add_w Hw _ _ _ _ _ _ _ _ _ _ Hz Hq0 _ _ _); rewrite ?u8; lra).
  assert (Iqa : (1749258957297679 / 70368744177664) <= rqa <= (695281590484136067119 / 27487790694400000000)) by (change rqa with (rz + rq0); unfold rq0; lra).
  pose (Wq1 := (nth 1 atan_q8 (w0 8))). pose (rq1 := (5806371718625829 / 35184372088832)).
  assert (Hq1 : app Wq1 rq1 (5806371718625829 / 35184372088832) 0) by (refine (eq_rect _ (fun z => app Wq1 z (5806371718625829 / 35184372088832) 0) (eq_rect _ (fun b => app Wq1 _ b 0) (const_ok Hw Wq1 (5806371718625829) 35184372088832 _ _ _) _ _) _ _); [vm_compute; reflexivity|reflexivity|vm_compute; reflexivity|cbn [Z.abs]; lra|unfold rq1; lra]).
  pose (Wmq1 := fmul Wqa Wz). pose (rmq1 := rqa * rz).
  assert (Hmq1 : app Wmq1 rmq1 (22043 / 2000) (147679 / 40000000000000000000)) by (refine (mul_w Hw _ _ _ _ _ _ _ _ _ _ Hqa Hz _ _ _ _ _ _ _); rewrite ?u8; lra).
  assert (Iyq1 : (165027 / 1000) <= rmq1 + rq1 <= (176049 / 1000)) by (pose proof (iv_mul rqa rz _ _ _ _ Iqa Iz) as (J1 & J2); unfold rq1; change rmq1 with (rqa * rz); split; [eapply Rle_trans; [|apply Rplus_le_compat_r; exact J1]; repeat apply Rmin_case; lra|eapply Rle_trans; [apply Rplus_le_compat_r; exact J2|]; repeat apply Rmax_case; lra]).
  pose (Wyq1 := fadd Wmq1 Wq1). pose (ryq1 := rmq1 + rq1).
  assert (Hyq1 : app Wyq1 ryq1 (176049 / 1000) (464747 / 20000000000000000000)) by (refine (add_b Hw _ _ _ _ _ _ _ _ _ _ Hmq1 Hq1 _ _ _); [apply Rabs_le; lra|rewrite ?u8; lra|rewrite ?u8; lra]).
  pose (Wq2 := (nth 2 atan_q8 (w0 8))). pose (rq2 := (7615324151266875 / 17592186044416)).
  assert (Hq2 : app Wq2 rq2 (7615324151266875 / 17592186044416) 0) by (refine (eq_rect _ (fun z => app Wq2 z (7615324151266875 / 17592186044416) 0) (eq_rect _ (fun b => app Wq2 _ b 0) (const_ok Hw Wq2 (7615324151266875) 17592186044416 _ _ _) _ _) _ _); [vm_compute; reflexivity|reflexivity|vm_compute; reflexivity|cbn [Z.abs]; lra|unfold rq2; lra]).
  pose (Wmq2 := fmul Wyq1 Wz). pose (rmq2 := ryq1 * rz).
  assert (Hmq2 : app Wmq2 rmq2 (7671021 / 100000) (543167 / 20000000000000000000)) by (refine (mul_w Hw _ _ _ _ _ _ _ _ _ _ Hyq1 Hz _ _ _ _ _ _ _); rewrite ?u8; lra).
  assert (Iyq2 : (432881 / 1000) <= rmq2 + rq2 <= (63699 / 125)) by (pose proof (iv_mul ryq1 rz _ _ _ _ Iyq1 Iz) as (J1 & J2); unfold rq2; change rmq2 with (ryq1 * rz); split; [eapply Rle_trans; [|apply Rplus_le_compat_r; exact J1]; repeat apply Rmin_case; lra|eapply Rle_trans; [apply Rplus_le_compat_r; exact J2|]; repeat apply Rmax_case; lra]).
  pose (Wyq2 := fadd Wmq2 Wq2). pose (ryq2 := rmq2 + rq2).
  assert (Hyq2 : app Wyq2 ryq2 (63699 / 125) (8373443 / 100000000000000000000)) by (refine (add_b Hw _ _ _ _ _ _ _ _ _ _ Hmq2 Hq2 _ _ _); [apply Rabs_le; lra|rewrite ?u8; lra|rewrite ?u8; lra]).
  pose (Wq3 := (nth 3 atan_q8 (w0 8))). pose (rq3 := (4269539107284213 / 8796093022208)).
  assert (Hq3 : app Wq3 rq3 (4269539107284213 / 8796093022208) 0) by (refine (eq_rect _ (fun z => app Wq3 z (4269539107284213 / 8796093022208) 0) (eq_rect _ (fun b => app Wq3 _ b 0) (const_ok Hw Wq3 (4269539107284213) 8796093022208 _ _ _) _ _) _ _); [vm_compute; reflexivity|reflexivity|vm_compute; reflexivity|cbn [Z.abs]; lra|unfold rq3; lra]).
  pose (Wmq3 := fmul Wyq2 Wz). pose (rmq3 := ryq2 * rz).
  assert (Hmq3 : app Wmq3 rmq3 (277557 / 1250) (8578981 / 100000000000000000000)) by (refine (mul_w Hw _ _ _ _ _ _ _ _ _ _ Hyq2 Hz _ _ _ _ _ _ _); rewrite ?u8; lra).
  assert (Iyq3 : (48539 / 100) <= rmq3 + rq3 <= (176859 / 250)) by (pose proof (iv_mul ryq2 rz _ _ _ _ Iyq2 Iz) as (J1 & J2); unfold rq3; change rmq3 with (ryq2 * rz); split; [eapply Rle_trans; [|apply Rplus_le_compat_r; exact J1]; repeat apply Rmin_case; lra|eapply Rle_trans; [apply Rplus_le_compat_r; exact J2|]; repeat apply Rmax_case; lra]).
  pose (Wyq3 := fadd Wmq3 Wq3). pose (ryq3 := rmq3 + rq3).
  assert (Hyq3 : app Wyq3 ryq3 (176859 / 250) (164331 / 1000000000000000000)) by (refine (add_b Hw _ _ _ _ _ _ _ _ _ _ Hmq3 Hq3 _ _ _); [apply Rabs_le; lra|rewrite ?u8; lra|rewrite ?u8; lra]).
  pose (Wq4 := (nth 4 atan_q8 (w0 8))). pose (rq4 := (1711285677807803 / 8796093022208)).
  assert (Hq4 : app Wq4 rq4 (1711285677807803 / 8796093022208) 0) by (refine (eq_rect _ (fun z => app Wq4 z (1711285677807803 / 8796093022208) 0) (eq_rect _ (fun b => app Wq4 _ b 0) (const_ok Hw Wq4 (1711285677807803) 8796093022208 _ _ _) _ _) _ _); [vm_compute; reflexivity|reflexivity|vm_compute; reflexivity|cbn [Z.abs]; lra|unfold rq4; lra]).
  pose (Wmq4 := fmul Wyq3 Wz). pose (rmq4 := ryq3 * rz).
  assert (Hmq4 : app Wmq4 rmq4 (1541263 / 5000) (700251 / 5000000000000000000)) by (refine (mul_w Hw _ _ _ _ _ _ _ _ _ _ Hyq3 Hz _ _ _ _ _ _ _); rewrite ?u8; lra).
  assert (Iyq4 : (3891 / 20) <= rmq4 + rq4 <= (125701 / 250)) by (pose proof (iv_mul ryq3 rz _ _ _ _ Iyq3 Iz) as (J1 & J2); unfold rq4; change rmq4 with (ryq3 * rz); split; [eapply Rle_trans; [|apply Rplus_le_compat_r; exact J1]; repeat apply Rmin_case; lra|eapply Rle_trans; [apply Rplus_le_compat_r; exact J2|]; repeat apply Rmax_case; lra]).
  pose (Wyq4 := fadd Wmq4 Wq4). pose (ryq4 := rmq4 + rq4).
  assert (Hyq4 : app Wyq4 ryq4 (125701 / 250) (1958727 / 10000000000000000000)) by (refine (add_b Hw _ _ _ _ _ _ _ _ _ _ Hmq4 Hq4 _ _ _); [apply Rabs_le; lra|rewrite ?u8; lra|rewrite ?u8; lra]).
  pose (Wzp := fmul Wz Wyp4). pose (rzp := rz * ryp4).
  assert (Hzp : app Wzp rzp (182471 / 3125) (1597571 / 50000000000000000000)) by (refine (mul_w Hw _ _ _ _ _ _ _ _ _ _ Hz Hyp4 _ _ _ _ _ _ _); rewrite ?u8; lra).
  pose (Wt := fdiv Wzp Wyq4). pose (rt := rzp / ryq4).
  assert (Ht : app Wt rt (153 / 1000) (209537 / 625000000000000000000)) by (refine (div_w Hw _ _ _ _ _ _ _ _ (3891 / 20) (3182727 / 10000000000000000000000) _ _ Hzp Hyq4 _ _ _ _ _ _ _ _); [change ryq4 with (rmq4 + rq4); rewrite Rabs_pos_eq; lra|split; lra|lra|split; lra|split; lra|exact TB|lra|rewrite ?u8; lra]).
  change (atan_t8 X) with Wt. exact Ht.
Qed.
Lemma atan_core_ok8 X : is_Finite X = true -> Rabs (real X) <= (6601 / 10000) -> is_Finite (atan_core8 X) = true /\ Rabs (real (atan_core8 X) - atan (real X)) <= (1047187 / 2000000000000000000000) * Rabs (real X) + 2 * eta (w := 8).
Proof.
  intros F HX. pose proof (atan_t_ok8 X F HX) as (FT & BT & ET). pose proof (atan_poly8 (real X) HX) as AP. cbv zeta in *. set (x := real X) in *. set (tau := ((x * x) * (((((- 1970461881518437 / 2251799813685248) * (x * x) + (- 2273971201753149 / 140737488355328)) * (x * x) + (- 5278258023629427 / 70368744177664)) * (x * x) + (- 8647380534934053 / 70368744177664)) * (x * x) + (- 2281714237077063 / 35184372088832)) / ((((((x * x) + (1749258957297679 / 70368744177664)) * (x * x) + (5806371718625829 / 35184372088832)) * (x * x) + (7615324151266875 / 17592186044416)) * (x * x) + (4269539107284213 / 8796093022208)) * (x * x) + (1711285677807803 / 8796093022208)))) in *.
  pose proof (atan_fin fp8 (fmul X (atan_t8 X)) X (atan_t8 X) tau (153 / 1000) (209537 / 625000000000000000000) (6032547 / 100000000000000000000000) (4125711 / 10000000000000000000000) FT F BT ET) as AF. fold x in AF. rewrite u8 in AF.
  destruct AF as (FR & ER); [lra|lra|lra|lra|exact AP| | |split; [exact FR|]; eapply Rle_trans; [exact ER|]; pose proof (Rabs_pos x); pose proof (eta_pos fp8); lra].
  - intros BB. rewrite (Rmult_comm (real (atan_t8 X))) in BB |- *. exact (fmul_real fp8 _ _ F FT BB).
  - lra.
Qed.
