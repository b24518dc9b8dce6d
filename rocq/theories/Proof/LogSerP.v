(** log: rounding errors of the series and its distance from ln (1 + x).  (The bounds were computed by a script; every one
    of them is checked here.) *)
From Coq Require Import ZArith Reals List Bool Lia Lra Psatz.
From Verif.Spec Require Import FloatSpec RoundSpec AccuracySpec.
From Verif.Model Require Import Word Fp FpArith Transcend.
From Verif.Proof Require Import WordP FpP FpArithP FpIntP RealErrP SeriesP PolyP ExpRealP RealOpsP ExpSerP ExpAccP FoldP LogRealP LogOpsP.
Import ListNotations.
Local Open Scope R_scope.
Definition papp {w} (s : R) (X : word w) (x B E : R) : Prop := is_Finite X = true /\ Rabs x <= B * s /\ Rabs (real X - x) <= E * s.
Section P.
  Context {w : nat} (Hw : fp_width w).
  Lemma p_add s X x B E Y y C D B' E' : 0 < s <= 2000 -> papp (w := w) s X x B E -> papp s Y y C D -> Rabs (x + y) <= B' * s -> B + C + (E + D) <= 1000000 -> E + D + uu (w := w) * (B' + (E + D)) <= E' -> papp s (fadd X Y) (x + y) B' E'.
  Proof using Hw.
    intros S (F1 & A1 & A2) (F2 & C1 & C2) S1 HL HE. pose proof (uu_pos Hw) as U. pose proof (eta_pos Hw). pose proof B70_big.
    assert (S2 : Rabs (real X + real Y - (x + y)) <= (E + D) * s) by (replace (real X + real Y - (x + y)) with ((real X - x) + (real Y - y)) by ring; eapply Rle_trans; [apply Rabs_triang|lra]).
    assert (S3 : Rabs (real X + real Y) <= B70).
    { replace (real X + real Y) with (x + (y + (real X + real Y - (x + y)))) by ring. eapply Rle_trans; [apply Rabs_triang|]. assert (Rabs (y + (real X + real Y - (x + y))) <= C * s + (E + D) * s) by (eapply Rle_trans; [apply Rabs_triang|lra]). nra. }
    destruct (fadd_real Hw X Y F1 F2 S3) as (F & G). split; [exact F|]. split; [exact S1|]. eapply Rle_trans; [apply (round_bound (w := w) (real X + real Y) (x + y) (B' * s) ((E + D) * s) 0); auto; lra|].
    replace ((E + D) * s + uu (w := w) * (B' * s + (E + D) * s) + 0) with ((E + D + uu (w := w) * (B' + (E + D))) * s) by ring. apply Rmult_le_compat_r; lra.
  Qed.
  Lemma p_sub s X x B E Y y C D B' E' : 0 < s <= 2000 -> papp (w := w) s X x B E -> papp s Y y C D -> Rabs (x - y) <= B' * s -> B + C + (E + D) <= 1000000 -> E + D + uu (w := w) * (B' + (E + D)) <= E' -> papp s (fsub X Y) (x - y) B' E'.
  Proof using Hw.
    intros S (F1 & A1 & A2) (F2 & C1 & C2) S1 HL HE. pose proof (uu_pos Hw) as U. pose proof (eta_pos Hw). pose proof B70_big.
    assert (S2 : Rabs (real X - real Y - (x - y)) <= (E + D) * s) by (replace (real X - real Y - (x - y)) with ((real X - x) + - (real Y - y)) by ring; eapply Rle_trans; [apply Rabs_triang|rewrite Rabs_Ropp; lra]).
    assert (S3 : Rabs (real X - real Y) <= B70).
    { replace (real X - real Y) with (x + (- y + (real X - real Y - (x - y)))) by ring. eapply Rle_trans; [apply Rabs_triang|]. assert (Rabs (- y + (real X - real Y - (x - y))) <= C * s + (E + D) * s) by (eapply Rle_trans; [apply Rabs_triang|]; rewrite Rabs_Ropp; lra). nra. }
    destruct (fsub_real Hw X Y F1 F2 S3) as (F & G). split; [exact F|]. split; [exact S1|]. eapply Rle_trans; [apply (round_bound (w := w) (real X - real Y) (x - y) (B' * s) ((E + D) * s) 0); auto; lra|].
    replace ((E + D) * s + uu (w := w) * (B' * s + (E + D) * s) + 0) with ((E + D + uu (w := w) * (B' + (E + D))) * s) by ring. apply Rmult_le_compat_r; lra.
  Qed.
  Lemma papp_of s X x B E : 1 <= s -> 0 <= B -> 0 <= E -> app (w := w) X x B E -> papp s X x B E.
  Proof using. intros S B0 E0 (F & H1 & H2). split; [exact F|]. split; [eapply Rle_trans; [exact H1|]|eapply Rle_trans; [exact H2|]]; nra. Qed.
  Lemma app_of t X x B E : sapp (w := w) t 0 X x B E -> app X x B E.
  Proof using. unfold sapp. cbn [pow]. rewrite !Rmult_1_r. intros (A & B0 & C). now repeat split. Qed.
End P.
Lemma iv_mul x y a b c d : a <= x <= b -> c <= y <= d -> Rmin (Rmin (a * c) (a * d)) (Rmin (b * c) (b * d)) <= x * y <= Rmax (Rmax (a * c) (a * d)) (Rmax (b * c) (b * d)).
Proof.
  intros X Y. split.
  - assert (A1 : Rmin (a * c) (a * d) <= a * y) by (destruct (Rle_dec 0 a); [eapply Rle_trans; [apply Rmin_l|]; nra|eapply Rle_trans; [apply Rmin_r|]; nra]). assert (A2 : Rmin (b * c) (b * d) <= b * y) by (destruct (Rle_dec 0 b); [eapply Rle_trans; [apply Rmin_l|]; nra|eapply Rle_trans; [apply Rmin_r|]; nra]).
    destruct (Rle_dec 0 y); [eapply Rle_trans; [apply Rmin_l|]; eapply Rle_trans; [exact A1|]; nra|eapply Rle_trans; [apply Rmin_r|]; eapply Rle_trans; [exact A2|]; nra].
  - assert (A1 : a * y <= Rmax (a * c) (a * d)) by (destruct (Rle_dec 0 a); [eapply Rle_trans; [|apply Rmax_r]; nra|eapply Rle_trans; [|apply Rmax_l]; nra]). assert (A2 : b * y <= Rmax (b * c) (b * d)) by (destruct (Rle_dec 0 b); [eapply Rle_trans; [|apply Rmax_r]; nra|eapply Rle_trans; [|apply Rmax_l]; nra]).
    destruct (Rle_dec 0 y); [eapply Rle_trans; [|apply Rmax_r]; eapply Rle_trans; [|exact A2]; nra|eapply Rle_trans; [|apply Rmax_l]; eapply Rle_trans; [|exact A1]; nra].
Qed.
Lemma z_range x : - (2929 / 10000) <= x <= 41422 / 100000 -> let z := x / (2 + x) in
  -704 <= z * 4096 <= 704 /\ z < 1 /\ Rabs z <= 704 / 4096 /\ x * (1 - z) = 2 * z /\ Rabs z <= 5859 / 10000 * Rabs x /\ ln (1 + z) - ln (1 - z) = ln (1 + x).
Proof.
  intros X z. assert (E : z * (2 + x) = x) by (unfold z; field; lra). assert (I : 0 < / (2 + x) <= 5859 / 10000) by (split; [apply Rinv_0_lt_compat; lra|]; apply (Rmult_le_reg_r (2 + x)); [lra|]; rewrite Rinv_l by lra; lra).
  assert (Z : -704 <= z * 4096 <= 704) by nra. split; [exact Z|]. split; [lra|]. split; [apply Rabs_le; lra|]. split; [lra|]. split.
  - unfold z, Rdiv at 1. rewrite Rabs_mult, (Rabs_pos_eq (/ _)) by lra. pose proof (Rabs_pos x). nra.
  - replace (1 + x) with ((1 + z) * / (1 - z)) by (unfold z; field; lra). rewrite ln_mult, ln_Rinv; [ring|lra|lra|apply Rinv_0_lt_compat; lra].
Qed.

Definition la4 : list Z := [44739240; (-33554424); 26844504; (-22371488); 19125118; (-16670031); 15672602; (-15454648); 9445819]%Z.
Definition lb4 : list Z := [134217728]%Z.
Definition lt4 : list Z := [0; 6930; 0; 2310; 0; 1386; 0; 990; 0; 770; 0; 630]%Z.
Lemma log_poly4 x : - (2929 / 10000) <= x <= 41422 / 100000 -> Rabs ((x * x * x * (((((((((9445819 / 134217728) * x + (- 1931831 / 16777216)) * x + (7836301 / 67108864)) * x + (- 16670031 / 134217728)) * x + (9562559 / 67108864)) * x + (- 699109 / 4194304)) * x + (3355563 / 16777216)) * x + (- 4194303 / 16777216)) * x + (5592405 / 16777216))) - (ln (1 + x) - x + x * x / 2)) <= (563959 / 50000000000000) * Rabs x.
Proof.
  intros X. destruct (z_range x X) as (Z1 & Z2 & Z3 & Z4 & Z5 & Z6). set (z := x / (2 + x)) in *.
  
  pose proof (log_rat la4 lb4 lt4 3465 5 3 167772160 12 (-704) 16 44 z x) as LR.
  assert (HTL : forall z, pe lt4 z = IZR 3465 * tl 5 z) by (intros y; unfold lt4; cbn [pe tl Nat.mul Nat.add pow Z.of_nat Pos.of_succ_nat Pos.succ Z.mul Pos.mul Z.add Pos.add]; field).
  specialize (LR ltac:(cbn; lia) ltac:(lia) ltac:(lia) ltac:(lia) ltac:(lia) ltac:(lia) HTL ltac:(vm_compute; reflexivity) ltac:(vm_compute; reflexivity) ltac:(vm_compute; reflexivity)). clear HTL.
  change (2 ^ 12)%Z with 4096%Z in LR. change (-704 + 2 * 16 * Z.of_nat 44)%Z with 704%Z in LR. specialize (LR Z1 Z2 Z4 ltac:(unfold lb4; cbn [pe]; lra)).
  pose proof (ln_tl 5 z (704 / 4096) Z3 ltac:(lra)) as LT. rewrite Z6 in LT.
  assert (TB : 2 * (704 / 4096) ^ (2 * 5 + 2) / (1 - 704 / 4096 * (704 / 4096)) <= (1369637 / 1000000000000000)) by (cbn [Nat.mul Nat.add pow]; lra).
  pose proof (Rabs_pos z) as ZP. assert (LT' : Rabs (ln (1 + x) - tl 5 z) <= (1369637 / 1000000000000000) * Rabs z) by (eapply Rle_trans; [exact LT|]; apply Rmult_le_compat_r; [exact ZP|exact TB]). clear LT TB.
  assert (E : x * x * x * (pe la4 x / pe lb4 x) = (x * x * x * (((((((((9445819 / 134217728) * x + (- 1931831 / 16777216)) * x + (7836301 / 67108864)) * x + (- 16670031 / 134217728)) * x + (9562559 / 67108864)) * x + (- 699109 / 4194304)) * x + (3355563 / 16777216)) * x + (- 4194303 / 16777216)) * x + (5592405 / 16777216)))).
  { unfold la4, lb4; cbn [pe]; field. }
  rewrite E in LR. clear E. set (e := (x * x * x * (((((((((9445819 / 134217728) * x + (- 1931831 / 16777216)) * x + (7836301 / 67108864)) * x + (- 16670031 / 134217728)) * x + (9562559 / 67108864)) * x + (- 699109 / 4194304)) * x + (3355563 / 16777216)) * x + (- 4194303 / 16777216)) * x + (5592405 / 16777216)))) in *. clearbody e. set (T := tl 5 z) in *. clearbody T. set (l := ln (1 + x)) in *. clearbody l. replace (e - (l - x + x * x / 2)) with ((e - (T - x + x * x / 2)) + - (l - T)) by ring. eapply Rle_trans; [apply Rabs_triang|]. rewrite Rabs_Ropp. lra.
Qed.
Definition log_y4 (X : word 4) : word 4 := fmul (horner log_p4 X) (fmul X (fmul X X)).
Lemma log_series_y4 b X EE : log_series4 b X EE = log_finish b X (fmul X X) (log_y4 X) EE.
Proof. unfold log_series4, log_y4. cbv zeta. reflexivity. Qed.
Definition scale4 (t : R) : Prop := uu (w := 4) <= t <= (20711 / 50000).
Lemma scale_tiny4 t : scale4 t -> tiny (w := 4) t (1 / 18014398509481984).
Proof.
  intros (T1 & T2). rewrite u4 in T1. apply tiny_of; [lra|lra|]. apply Rle_trans with ((1 / 18014398509481984) * (/ 16777216) ^ 4); [|apply Rmult_le_compat_l; [lra|]; apply pow_incr; lra].
  unfold eta. apply Rle_trans with (/ 1427247692705959881058285969449495136382746624); [apply Rinv_le_contravar; [lra|]; rewrite <- mult_IZR; apply IZR_le; apply Z.leb_le; vm_compute; reflexivity|cbn [pow]; lra].
Qed.
Definition log_in4 (X : word 4) (t : R) : Prop := is_Finite X = true /\ - (2929 / 10000) <= real X <= 41422 / 100000 /\ Rabs (real X) <= t /\ scale4 t.

Lemma log_y_ok4_0 X t : log_in4 X t -> (- 2929 / 10000) <= real X <= (20711 / 50000) -> exists y, sapp t 3 (log_y4 X) y (4896527 / 10000000) (1450859 / 10000000000000) /\ Rabs (y - (ln (1 + real X) - real X + real X * real X / 2)) <= (563959 / 50000000000000) * t.
Proof.
  intros (F & RX & HX & SC) Ix. set (Hw := fp4). pose proof (scale_tiny4 t SC) as HT. destruct SC as (T1 & T2). rewrite u4 in T1. pose proof (log_poly4 (real X) RX) as PD.
  pose proof (app_exact X (20711 / 50000) F ltac:(apply Rabs_le; lra)) as Hx. set (x := real X) in *.
  assert (Sx : sapp t 1 X x 1 0) by (split; [exact F|]; cbn [pow]; split; [lra|unfold x; rewrite Rminus_diag_eq, Rabs_R0 by reflexivity; lra]).
  pose (Wpc0 := (nth 0 log_p4 (w0 4))). pose (rpc0 := (9445819 / 134217728)).
  assert (Hpc0 : app Wpc0 rpc0 (9445819 / 134217728) 0) by (refine (eq_rect _ (fun z => app Wpc0 z (9445819 / 134217728) 0) (eq_rect _ (fun b => app Wpc0 _ b 0) (const_ok Hw Wpc0 (9445819) 134217728 _ _ _) _ _) _ _); [vm_compute; reflexivity|reflexivity|vm_compute; reflexivity|cbn [Z.abs]; lra|unfold rpc0; lra]).
  pose (Wpc1 := (nth 1 log_p4 (w0 4))). pose (rpc1 := (- 1931831 / 16777216)).
  assert (Hpc1 : app Wpc1 rpc1 (1931831 / 16777216) 0) by (refine (eq_rect _ (fun z => app Wpc1 z (1931831 / 16777216) 0) (eq_rect _ (fun b => app Wpc1 _ b 0) (const_ok Hw Wpc1 (-1931831) 16777216 _ _ _) _ _) _ _); [vm_compute; reflexivity|reflexivity|vm_compute; reflexivity|cbn [Z.abs]; lra|unfold rpc1; lra]).
  pose (Wpm1 := fmul Wpc0 X). pose (rpm1 := rpc0 * x).
  assert (Hpm1 : app Wpm1 rpm1 (58303 / 2000000) (347513 / 200000000000000)) by (refine (mul_w Hw _ _ _ _ _ _ _ _ _ _ Hpc0 Hx _ _ _ _ _ _ _); rewrite ?u4; lra).
  pose (Wpy1 := fadd Wpm1 Wpc1). pose (rpy1 := rpm1 + rpc1).
  assert (Hpy1 : app Wpy1 rpy1 (1442977 / 10000000) (516919 / 50000000000000)) by (refine (add_w Hw _ _ _ _ _ _ _ _ _ _ Hpm1 Hpc1 _ _ _); rewrite ?u4; lra).
  pose (Wpc2 := (nth 2 log_p4 (w0 4))). pose (rpc2 := (7836301 / 67108864)).
  assert (Hpc2 : app Wpc2 rpc2 (7836301 / 67108864) 0) by (refine (eq_rect _ (fun z => app Wpc2 z (7836301 / 67108864) 0) (eq_rect _ (fun b => app Wpc2 _ b 0) (const_ok Hw Wpc2 (7836301) 67108864 _ _ _) _ _) _ _); [vm_compute; reflexivity|reflexivity|vm_compute; reflexivity|cbn [Z.abs]; lra|unfold rpc2; lra]).
  pose (Wpm2 := fmul Wpy1 X). pose (rpm2 := rpy1 * x).
  assert (Hpm2 : app Wpm2 rpm2 (59771 / 1000000) (7844993 / 1000000000000000)) by (refine (mul_w Hw _ _ _ _ _ _ _ _ _ _ Hpy1 Hx _ _ _ _ _ _ _); rewrite ?u4; lra).
  pose (Wpy2 := fadd Wpm2 Wpc2). pose (rpy2 := rpm2 + rpc2).
  assert (Hpy2 : app Wpy2 rpy2 (176541 / 1000000) (918383 / 50000000000000)) by (refine (add_w Hw _ _ _ _ _ _ _ _ _ _ Hpm2 Hpc2 _ _ _); rewrite ?u4; lra).
  pose (Wpc3 := (nth 3 log_p4 (w0 4))). pose (rpc3 := (- 16670031 / 134217728)).
  assert (Hpc3 : app Wpc3 rpc3 (16670031 / 134217728) 0) by (refine (eq_rect _ (fun z => app Wpc3 z (16670031 / 134217728) 0) (eq_rect _ (fun b => app Wpc3 _ b 0) (const_ok Hw Wpc3 (-16670031) 134217728 _ _ _) _ _) _ _); [vm_compute; reflexivity|reflexivity|vm_compute; reflexivity|cbn [Z.abs]; lra|unfold rpc3; lra]).
  pose (Wpm3 := fmul Wpy2 X). pose (rpm3 := rpy2 * x).
  assert (Hpm3 : app Wpm3 rpm3 (3656341 / 50000000) (149587 / 12500000000000)) by (refine (mul_w Hw _ _ _ _ _ _ _ _ _ _ Hpy2 Hx _ _ _ _ _ _ _); rewrite ?u4; lra).
  pose (Wpy3 := fadd Wpm3 Wpc3). pose (rpy3 := rpm3 + rpc3).
  assert (Hpy3 : app Wpy3 rpy3 (1973283 / 10000000) (474573 / 20000000000000)) by (refine (add_w Hw _ _ _ _ _ _ _ _ _ _ Hpm3 Hpc3 _ _ _); rewrite ?u4; lra).
  pose (Wpc4 := (nth 4 log_p4 (w0 4))). pose (rpc4 := (9562559 / 67108864)).
  assert (Hpc4 : app Wpc4 rpc4 (9562559 / 67108864) 0) by (refine (eq_rect _ (fun z => app Wpc4 z (9562559 / 67108864) 0) (eq_rect _ (fun b => app Wpc4 _ b 0) (const_ok Hw Wpc4 (9562559) 67108864 _ _ _) _ _) _ _); [vm_compute; reflexivity|reflexivity|vm_compute; reflexivity|cbn [Z.abs]; lra|unfold rpc4; lra]).
  pose (Wpm4 := fmul Wpy3 X). pose (rpm4 := rpy3 * x).
  assert (Hpm4 : app Wpm4 rpm4 (8173733 / 100000000) (1470081 / 100000000000000)) by (refine (mul_w Hw _ _ _ _ _ _ _ _ _ _ Hpy3 Hx _ _ _ _ _ _ _); rewrite ?u4; lra).
  pose (Wpy4 := fadd Wpm4 Wpc4). pose (rpy4 := rpm4 + rpc4).
  assert (Hpy4 : app Wpy4 rpy4 (1121153 / 5000000) (14033 / 500000000000)) by (refine (add_w Hw _ _ _ _ _ _ _ _ _ _ Hpm4 Hpc4 _ _ _); rewrite ?u4; lra).
  pose (Wpc5 := (nth 5 log_p4 (w0 4))). pose (rpc5 := (- 699109 / 4194304)).
  assert (Hpc5 : app Wpc5 rpc5 (699109 / 4194304) 0) by (refine (eq_rect _ (fun z => app Wpc5 z (699109 / 4194304) 0) (eq_rect _ (fun b => app Wpc5 _ b 0) (const_ok Hw Wpc5 (-699109) 4194304 _ _ _) _ _) _ _); [vm_compute; reflexivity|reflexivity|vm_compute; reflexivity|cbn [Z.abs]; lra|unfold rpc5; lra]).
  pose (Wpm5 := fmul Wpy4 X). pose (rpm5 := rpy4 * x).
  assert (Hpm5 : app Wpm5 rpm5 (116101 / 1250000) (1716163 / 100000000000000)) by (refine (mul_w Hw _ _ _ _ _ _ _ _ _ _ Hpy4 Hx _ _ _ _ _ _ _); rewrite ?u4; lra).
  pose (Wpy5 := fadd Wpm5 Wpc5). pose (rpy5 := rpm5 + rpc5).
  assert (Hpy5 : app Wpy5 rpy5 (1297807 / 5000000) (326327 / 10000000000000)) by (refine (add_w Hw _ _ _ _ _ _ _ _ _ _ Hpm5 Hpc5 _ _ _); rewrite ?u4; lra).
  pose (Wpc6 := (nth 6 log_p4 (w0 4))). pose (rpc6 := (3355563 / 16777216)).
  assert (Hpc6 : app Wpc6 rpc6 (3355563 / 16777216) 0) by (refine (eq_rect _ (fun z => app Wpc6 z (3355563 / 16777216) 0) (eq_rect _ (fun b => app Wpc6 _ b 0) (const_ok Hw Wpc6 (3355563) 16777216 _ _ _) _ _) _ _); [vm_compute; reflexivity|reflexivity|vm_compute; reflexivity|cbn [Z.abs]; lra|unfold rpc6; lra]).
  pose (Wpm6 := fmul Wpy5 X). pose (rpm6 := rpy5 * x).
  assert (Hpm6 : app Wpm6 rpm6 (268789 / 2500000) (398511 / 20000000000000)) by (refine (mul_w Hw _ _ _ _ _ _ _ _ _ _ Hpy5 Hx _ _ _ _ _ _ _); rewrite ?u4; lra).
  pose (Wpy6 := fadd Wpm6 Wpc6). pose (rpy6 := rpm6 + rpc6).
  assert (Hpy6 : app Wpy6 rpy6 (768807 / 2500000) (1912767 / 50000000000000)) by (refine (add_w Hw _ _ _ _ _ _ _ _ _ _ Hpm6 Hpc6 _ _ _); rewrite ?u4; lra).
  pose (Wpc7 := (nth 7 log_p4 (w0 4))). pose (rpc7 := (- 4194303 / 16777216)).
  assert (Hpc7 : app Wpc7 rpc7 (4194303 / 16777216) 0) by (refine (eq_rect _ (fun z => app Wpc7 z (4194303 / 16777216) 0) (eq_rect _ (fun b => app Wpc7 _ b 0) (const_ok Hw Wpc7 (-4194303) 16777216 _ _ _) _ _) _ _); [vm_compute; reflexivity|reflexivity|vm_compute; reflexivity|cbn [Z.abs]; lra|unfold rpc7; lra]).
  pose (Wpm7 := fmul Wpy6 X). pose (rpm7 := rpy6 * x).
  assert (Hpm7 : app Wpm7 rpm7 (1273821 / 10000000) (234387 / 10000000000000)) by (refine (mul_w Hw _ _ _ _ _ _ _ _ _ _ Hpy6 Hx _ _ _ _ _ _ _); rewrite ?u4; lra).
  pose (Wpy7 := fadd Wpm7 Wpc7). pose (rpy7 := rpm7 + rpc7).
  assert (Hpy7 : app Wpy7 rpy7 (3773821 / 10000000) (4593243 / 100000000000000)) by (refine (add_w Hw _ _ _ _ _ _ _ _ _ _ Hpm7 Hpc7 _ _ _); rewrite ?u4; lra).
  pose (Wpc8 := (nth 8 log_p4 (w0 4))). pose (rpc8 := (5592405 / 16777216)).
  assert (Hpc8 : app Wpc8 rpc8 (5592405 / 16777216) 0) by (refine (eq_rect _ (fun z => app Wpc8 z (5592405 / 16777216) 0) (eq_rect _ (fun b => app Wpc8 _ b 0) (const_ok Hw Wpc8 (5592405) 16777216 _ _ _) _ _) _ _); [vm_compute; reflexivity|reflexivity|vm_compute; reflexivity|cbn [Z.abs]; lra|unfold rpc8; lra]).
  pose (Wpm8 := fmul Wpy7 X). pose (rpm8 := rpy7 * x).
  assert (Hpm8 : app Wpm8 rpm8 (1563193 / 10000000) (2834349 / 100000000000000)) by (refine (mul_w Hw _ _ _ _ _ _ _ _ _ _ Hpy7 Hx _ _ _ _ _ _ _); rewrite ?u4; lra).
  pose (Wpy8 := fadd Wpm8 Wpc8). pose (rpy8 := rpm8 + rpc8).
  assert (Hpy8 : app Wpy8 rpy8 (4896527 / 10000000) (5752907 / 100000000000000)) by (refine (add_w Hw _ _ _ _ _ _ _ _ _ _ Hpm8 Hpc8 _ _ _); rewrite ?u4; lra).
  assert (Spy8 : sapp t 0 Wpy8 rpy8 (4896527 / 10000000) (5752907 / 100000000000000)) by (exact (sapp0 t _ _ _ _ Hpy8)).
  pose (Wxx := fmul X X). pose (rxx := x * x).
  assert (Sxx : sapp t 2 Wxx rxx 1 (1192093 / 20000000000000)) by (refine (s_mul Hw t (1 / 18014398509481984) HT 1 1 2 _ _ _ _ _ _ _ _ _ _ Sx Sx eq_refl ltac:(lia) _ _ _ _ _ _ _); rewrite ?u4; lra).
  pose (Wx3 := fmul X Wxx). pose (rx3 := x * rxx).
  assert (Sx3 : sapp t 3 Wx3 rx3 1 (1192093 / 10000000000000)) by (refine (s_mul Hw t (1 / 18014398509481984) HT 1 2 3 _ _ _ _ _ _ _ _ _ _ Sx Sxx eq_refl ltac:(lia) _ _ _ _ _ _ _); rewrite ?u4; lra).
  pose (Wr := fmul Wpy8 Wx3). pose (rr := rpy8 * rx3).
  assert (Sr : sapp t 3 Wr rr (4896527 / 10000000) (1450859 / 10000000000000)) by (refine (s_mul Hw t (1 / 18014398509481984) HT 0 3 3 _ _ _ _ _ _ _ _ _ _ Spy8 Sx3 eq_refl ltac:(lia) _ _ _ _ _ _ _); rewrite ?u4; lra).
  exists rr. split; [exact Sr|]. replace rr with (x * x * x * (((((((((9445819 / 134217728) * x + (- 1931831 / 16777216)) * x + (7836301 / 67108864)) * x + (- 16670031 / 134217728)) * x + (9562559 / 67108864)) * x + (- 699109 / 4194304)) * x + (3355563 / 16777216)) * x + (- 4194303 / 16777216)) * x + (5592405 / 16777216))); [|change rr with ((((((((((9445819 / 134217728) * x + (- 1931831 / 16777216)) * x + (7836301 / 67108864)) * x + (- 16670031 / 134217728)) * x + (9562559 / 67108864)) * x + (- 699109 / 4194304)) * x + (3355563 / 16777216)) * x + (- 4194303 / 16777216)) * x + (5592405 / 16777216)) * (x * (x * x))); ring]. eapply Rle_trans; [exact PD|]. apply Rmult_le_compat_l; lra.
Qed.
Lemma log_y_ok4 X t : log_in4 X t -> exists y, sapp t 3 (log_y4 X) y (4896527 / 10000000) (1450859 / 10000000000000) /\ Rabs (y - (ln (1 + real X) - real X + real X * real X / 2)) <= (563959 / 50000000000000) * t.
Proof.
  intros HI. pose proof HI as (F & RX & HX & SC). pose proof (scale_tiny4 t SC) as HT. destruct SC as (T1 & T2). rewrite u4 in T1. destruct (Rle_dec (real X) (20711 / 50000)) as [C0|C0]; [destruct (log_y_ok4_0 X t HI ltac:(lra)) as (y & SY & PD); exists y; split; [refine (s_low t (1 / 18014398509481984) HT 3 0 _ _ _ _ 1 _ _ SY _ _ _ _ _); cbn [pow]; lra|exact PD]|]. lra.
Qed.
Lemma log_fin_e4 X Y t : log_in4 X t -> is_Finite Y = true -> real Y = real (log_y4 X) -> is_Finite (fsub Y (fmul (fmul X X) (half 4))) = true /\ Rabs (real X + real (fsub Y (fmul (fmul X X) (half 4))) - ln (1 + real X)) <= (7821457 / 100000000000000) * t.
Proof.
  intros HI FY RY. destruct (log_y_ok4 X t HI) as (y & Sy & PD). destruct HI as (F & RX & HX & SC). set (Hw := fp4). pose proof (scale_tiny4 t SC) as HT. destruct SC as (T1 & T2). rewrite u4 in T1. destruct (ln1_abs (real X) RX) as (LN & LA).
  pose proof (app_exact X (20711 / 50000) F ltac:(lra)) as Hx. set (x := real X) in *. assert (Sx : sapp t 1 X x 1 0) by (split; [exact F|]; cbn [pow]; split; [lra|unfold x; rewrite Rminus_diag_eq, Rabs_R0 by reflexivity; lra]). pose proof (Rabs_pos x) as XP. assert (Sy' : sapp t 3 Y y (4896527 / 10000000) (1450859 / 10000000000000)) by (destruct Sy as (_ & Q1 & Q2); split; [exact FY|]; rewrite RY; auto). clear Sy. rename Sy' into Sy.
  pose (Wxx := fmul X X). pose (rxx := x * x).
  assert (Sxx : sapp t 2 Wxx rxx 1 (1192093 / 20000000000000)) by (refine (s_mul Hw t (1 / 18014398509481984) HT 1 1 2 _ _ _ _ _ _ _ _ _ _ Sx Sx eq_refl ltac:(lia) _ _ _ _ _ _ _); rewrite ?u4; lra).
  pose (Wh := (half 4)). pose (rh := (1 / 2)).
  assert (Hh : app Wh rh (1 / 2) 0) by (refine (eq_rect _ (fun z => app Wh z (1 / 2) 0) (eq_rect _ (fun b => app Wh _ b 0) (const_ok Hw Wh (1) 2 _ _ _) _ _) _ _); [vm_compute; reflexivity|reflexivity|vm_compute; reflexivity|cbn [Z.abs]; lra|unfold rh; lra]).
  assert (Sh : sapp t 0 Wh rh (1 / 2) 0) by (exact (sapp0 t _ _ _ _ Hh)).
  pose (Wxh := fmul Wxx Wh). pose (rxh := rxx * rh).
  assert (Sxh : sapp t 2 Wxh rxh (1 / 2) (1192093 / 20000000000000)) by (refine (s_mul Hw t (1 / 18014398509481984) HT 2 0 2 _ _ _ _ _ _ _ _ _ _ Sxx Sh eq_refl ltac:(lia) _ _ _ _ _ _ _); rewrite ?u4; lra).
  assert (Sy2 : sapp t 2 Y y (25353 / 125000) (6009749 / 100000000000000)) by (refine (s_low t (1 / 18014398509481984) HT 2 1 _ _ _ _ (20711 / 50000) _ _ Sy T2 _ _ _ _); cbn [pow]; lra).
  pose (Wz := fsub Y Wxh). pose (rz := y - rxh).
  assert (Sz : sapp t 2 Wz rz (87853 / 125000) (807969 / 5000000000000)) by (refine (s_sub Hw t (1 / 18014398509481984) HT 2 _ _ _ _ _ _ _ _ _ _ Sy2 Sxh _ _ _ _ _ _ _); rewrite ?u4; lra).
  change (fsub Y (fmul (fmul X X) (half 4))) with Wz. assert (SL : sapp t 1 Wz rz (1455619 / 5000000) (6693539 / 100000000000000)) by (refine (s_low t (1 / 18014398509481984) HT 1 1 _ _ _ _ (20711 / 50000) _ _ Sz T2 _ _ _ _); cbn [pow]; lra). destruct SL as (FZ & _ & EZ). split; [exact FZ|]. cbn [pow] in EZ. rewrite Rmult_1_r in EZ.
  change rz with (y - x * x * (1 / 2)) in EZ. set (l := ln (1 + x)) in *. clearbody l. set (zz := real Wz) in *. clearbody zz. apply abs_le_inv in EZ, PD. apply Rabs_le. lra.
Qed.
Lemma inv_ln2_4 : (892984977797453331270606843 / 618970019642690137449562112) <= / ln 2 <= (1785969955594906662541213687 / 1237940039285380274899124224).
Proof. pose proof ln2_num as L. split; (apply (Rmult_le_reg_r (ln 2)); [lra|]; rewrite Rinv_l by lra; lra). Qed.
Definition log2_x4 (X : word 4) : word 4 := let x := fmul X (c_log2_e 4) in fadd x (fsub (fmul (log_y4 X) (c_log2_e 4)) (fmul (fmul X x) (half 4))).
Lemma log_fin_2_4 X t : log_in4 X t -> is_Finite (log2_x4 X) = true /\ Rabs (real (log2_x4 X) - ln (1 + real X) * / ln 2) <= (36213 / 100000000000) * t.
Proof.
  intros HI. destruct (log_y_ok4 X t HI) as (y & Sy & PD). destruct HI as (F & RX & HX & SC). set (Hw := fp4). pose proof (scale_tiny4 t SC) as HT. destruct SC as (T1 & T2). rewrite u4 in T1. destruct (ln1_abs (real X) RX) as (LN & LA).
  pose proof (app_exact X (20711 / 50000) F ltac:(lra)) as Hx. set (x := real X) in *. assert (Sx : sapp t 1 X x 1 0) by (split; [exact F|]; cbn [pow]; split; [lra|unfold x; rewrite Rminus_diag_eq, Rabs_R0 by reflexivity; lra]). pose proof (Rabs_pos x) as XP.
  pose (Wc := (c_log2_e 4)). pose (rc := (12102203 / 8388608)).
  assert (Hc : app Wc rc (12102203 / 8388608) 0) by (refine (eq_rect _ (fun z => app Wc z (12102203 / 8388608) 0) (eq_rect _ (fun b => app Wc _ b 0) (const_ok Hw Wc (12102203) 8388608 _ _ _) _ _) _ _); [vm_compute; reflexivity|reflexivity|vm_compute; reflexivity|cbn [Z.abs]; lra|unfold rc; lra]).
  assert (Sc : sapp t 0 Wc rc (12102203 / 8388608) 0) by (exact (sapp0 t _ _ _ _ Hc)).
  pose (Wxc := fmul X Wc). pose (rxc := x * rc).
  assert (Sxc : sapp t 1 Wxc rxc (180337 / 125000) (8599133 / 100000000000000)) by (refine (s_mul Hw t (1 / 18014398509481984) HT 1 0 1 _ _ _ _ _ _ _ _ _ _ Sx Sc eq_refl ltac:(lia) _ _ _ _ _ _ _); rewrite ?u4; lra).
  pose (Wyc := fmul (log_y4 X) Wc). pose (ryc := y * rc).
  assert (Syc : sapp t 3 Wyc ryc (1766049 / 2500000) (2514207 / 10000000000000)) by (refine (s_mul Hw t (1 / 18014398509481984) HT 3 0 3 _ _ _ _ _ _ _ _ _ _ Sy Sc eq_refl ltac:(lia) _ _ _ _ _ _ _); rewrite ?u4; lra).
  pose (Wqq := fmul X Wxc). pose (rqq := x * rxc).
  assert (Sqq : sapp t 2 Wqq rqq (180337 / 125000) (429957 / 2500000000000)) by (refine (s_mul Hw t (1 / 18014398509481984) HT 1 1 2 _ _ _ _ _ _ _ _ _ _ Sx Sxc eq_refl ltac:(lia) _ _ _ _ _ _ _); rewrite ?u4; lra).
  pose (Wh := (half 4)). pose (rh := (1 / 2)).
  assert (Hh : app Wh rh (1 / 2) 0) by (refine (eq_rect _ (fun z => app Wh z (1 / 2) 0) (eq_rect _ (fun b => app Wh _ b 0) (const_ok Hw Wh (1) 2 _ _ _) _ _) _ _); [vm_compute; reflexivity|reflexivity|vm_compute; reflexivity|cbn [Z.abs]; lra|unfold rh; lra]).
  assert (Sh : sapp t 0 Wh rh (1 / 2) 0) by (exact (sapp0 t _ _ _ _ Hh)).
  pose (Wqh := fmul Wqq Wh). pose (rqh := rqq * rh).
  assert (Sqh : sapp t 2 Wqh rqh (180337 / 250000) (1289871 / 10000000000000)) by (refine (s_mul Hw t (1 / 18014398509481984) HT 2 0 2 _ _ _ _ _ _ _ _ _ _ Sqq Sh eq_refl ltac:(lia) _ _ _ _ _ _ _); rewrite ?u4; lra).
  assert (Syd : sapp t 2 Wyc ryc (731533 / 2500000) (208287 / 2000000000000)) by (refine (s_low t (1 / 18014398509481984) HT 2 1 _ _ _ _ (20711 / 50000) _ _ Syc T2 _ _ _ _); cbn [pow]; lra).
  pose (Wz := fsub Wyc Wqh). pose (rz := ryc - rqh).
  assert (Sz : sapp t 2 Wz rz (506981 / 500000) (117427 / 400000000000)) by (refine (s_sub Hw t (1 / 18014398509481984) HT 2 _ _ _ _ _ _ _ _ _ _ Syd Sqh _ _ _ _ _ _ _); rewrite ?u4; lra).
  assert (Szl : sapp t 1 Wz rz (2100017 / 5000000) (76001 / 625000000000)) by (refine (s_low t (1 / 18014398509481984) HT 1 1 _ _ _ _ (20711 / 50000) _ _ Sz T2 _ _ _ _); cbn [pow]; lra).
  pose (Wr := fadd Wxc Wz). pose (rr := rxc + rz).
  assert (Sr : sapp t 1 Wr rr (18627 / 10000) (1593093 / 5000000000000)) by (refine (s_add Hw t (1 / 18014398509481984) HT 1 _ _ _ _ _ _ _ _ _ _ Sxc Szl _ _ _ _ _ _ _); rewrite ?u4; lra).
  change (log2_x4 X) with Wr. destruct Sr as (FR & _ & ER). split; [exact FR|]. cbn [pow] in ER. rewrite Rmult_1_r in ER. change rr with (x * (12102203 / 8388608) + (y * (12102203 / 8388608) - x * (x * (12102203 / 8388608)) * (1 / 2))) in ER.
  pose proof inv_ln2_4 as IL. set (c := / ln 2) in *. clearbody c. set (l := ln (1 + x)) in *. clearbody l. set (zz := real Wr) in *. clearbody zz.
  assert (LC : Rabs (l * ((12102203 / 8388608) - c)) <= (14143 / 10000) * t * (1925963 / 100000000000000)) by (apply prod_le; [lra|apply Rabs_le; lra]).
  apply abs_le_inv in ER, PD, LC. apply Rabs_le. lra.
Qed.
Definition loge_x4 (X EE : word 4) : word 4 := fadd X (fsub (fadd (log_y4 X) (fmul EE (c_ln2_small 4))) (fmul (fmul X X) (half 4))).
Lemma log_fin_n4 X EE t e : log_in4 X t -> is_Finite EE = true -> real EE = IZR e -> (1 <= Z.abs e <= 1100)%Z ->
  is_Finite (loge_x4 X EE) = true /\ Rabs (real (loge_x4 X EE) + IZR e * (355 / 512) - (ln (1 + real X) + IZR e * ln 2)) <= (5518947 / 100000000000000) * IZR (Z.abs e).
Proof.
  intros HI FE RE HE. destruct (log_y_ok4 X t HI) as (y & Sy & PD). destruct HI as (F & RX & HX & SC). set (Hw := fp4). pose proof (scale_tiny4 t SC) as HT. destruct SC as (T1 & T2). rewrite u4 in T1. destruct (ln1_abs (real X) RX) as (LN & LA).
  pose proof (app_exact X (20711 / 50000) F ltac:(lra)) as Hx. set (x := real X) in *. assert (Sx : sapp t 1 X x 1 0) by (split; [exact F|]; cbn [pow]; split; [lra|unfold x; rewrite Rminus_diag_eq, Rabs_R0 by reflexivity; lra]). pose proof (Rabs_pos x) as XP.
  assert (HA : 1 <= IZR (Z.abs e) <= 1100) by (split; apply IZR_le; lia). rewrite abs_IZR in *. set (A := Rabs (IZR e)) in *.
  pose (Wxx := fmul X X). pose (rxx := x * x).
  assert (Sxx : sapp t 2 Wxx rxx 1 (1192093 / 20000000000000)) by (refine (s_mul Hw t (1 / 18014398509481984) HT 1 1 2 _ _ _ _ _ _ _ _ _ _ Sx Sx eq_refl ltac:(lia) _ _ _ _ _ _ _); rewrite ?u4; lra).
  pose (Wh := (half 4)). pose (rh := (1 / 2)).
  assert (Hh : app Wh rh (1 / 2) 0) by (refine (eq_rect _ (fun z => app Wh z (1 / 2) 0) (eq_rect _ (fun b => app Wh _ b 0) (const_ok Hw Wh (1) 2 _ _ _) _ _) _ _); [vm_compute; reflexivity|reflexivity|vm_compute; reflexivity|cbn [Z.abs]; lra|unfold rh; lra]).
  assert (Sh : sapp t 0 Wh rh (1 / 2) 0) by (exact (sapp0 t _ _ _ _ Hh)).
  pose (Wxh := fmul Wxx Wh). pose (rxh := rxx * rh).
  assert (Sxh : sapp t 2 Wxh rxh (1 / 2) (1192093 / 20000000000000)) by (refine (s_mul Hw t (1 / 18014398509481984) HT 2 0 2 _ _ _ _ _ _ _ _ _ _ Sxx Sh eq_refl ltac:(lia) _ _ _ _ _ _ _); rewrite ?u4; lra).
  assert (Sy0 : sapp t 0 (log_y4 X) y (3480017 / 100000000) (515571 / 50000000000000)) by (refine (s_low t (1 / 18014398509481984) HT 0 3 _ _ _ _ (20711 / 50000) _ _ Sy T2 _ _ _ _); cbn [pow]; lra).
  assert (Sh0 : sapp t 0 Wxh rxh (8578911 / 100000000) (511343 / 50000000000000)) by (refine (s_low t (1 / 18014398509481984) HT 0 2 _ _ _ _ (20711 / 50000) _ _ Sxh T2 _ _ _ _); cbn [pow]; lra).
  assert (Py : papp A (log_y4 X) y (3480017 / 100000000) (515571 / 50000000000000)) by (apply papp_of; [lra|lra|lra|exact (app_of t _ _ _ _ Sy0)]). assert (Ph : papp A Wxh rxh (8578911 / 100000000) (511343 / 50000000000000)) by (apply papp_of; [lra|lra|lra|exact (app_of t _ _ _ _ Sh0)]). assert (Px : papp A X x (20711 / 50000) 0) by (apply papp_of; [lra|lra|lra|exact Hx]).
  destruct (const_ok Hw (c_ln2_small 4) (-14581891) 68719476736 eq_refl eq_refl eq_refl) as (FC & _ & EC). assert (VC : real (c_ln2_small 4) = (- 14581891 / 68719476736)) by (clear - EC; apply abs_le_inv in EC; lra).
  pose (WP := fmul EE (c_ln2_small 4)). assert (Pp : papp A WP (IZR e * (- 14581891 / 68719476736)) (14581891 / 68719476736) (632389 / 50000000000000000)).
  { assert (AB : Rabs (IZR e * (- 14581891 / 68719476736)) <= (14581891 / 68719476736) * A) by (rewrite Rabs_mult; fold A; assert (Rabs (- 14581891 / 68719476736) <= (14581891 / 68719476736)) by (apply Rabs_le; lra); nra).
    pose proof B70_big. pose proof (eta_le Hw) as ET. destruct (fmul_real Hw EE (c_ln2_small 4) FE FC) as (G1 & G2); [rewrite RE, VC; lra|]. fold WP in G1, G2. rewrite RE, VC, u4 in G2. split; [exact G1|]. split; [exact AB|]. lra. }
  pose (W1 := fadd (log_y4 X) WP). assert (P1 : papp A W1 (y + IZR e * (- 14581891 / 68719476736)) (3501237 / 100000000) (1241097 / 100000000000000)).
  { refine (p_add Hw A _ _ _ _ _ _ _ _ _ _ ltac:(lra) Py Pp _ _ _); [|lra|rewrite u4; lra]. destruct Py as (_ & Q1 & _). destruct Pp as (_ & Q2 & _). eapply Rle_trans; [apply Rabs_triang|]. lra. }
  pose (W2 := fsub W1 Wxh). assert (P2 : papp A W2 (y + IZR e * (- 14581891 / 68719476736) - rxh) (241603 / 2000000) (2983817 / 100000000000000)).
  { refine (p_sub Hw A _ _ _ _ _ _ _ _ _ _ ltac:(lra) P1 Ph _ _ _); [|lra|rewrite u4; lra]. destruct P1 as (_ & Q1 & _). destruct Ph as (_ & Q2 & _). unfold Rminus. eapply Rle_trans; [apply Rabs_triang|]. rewrite Rabs_Ropp. lra. }
  pose (W3 := fadd X W2). assert (P3 : papp A W3 (x + (y + IZR e * (- 14581891 / 68719476736) - rxh)) (1734561 / 5000000) (631447 / 12500000000000)).
  { refine (p_add Hw A _ _ _ _ _ _ _ _ _ _ ltac:(lra) Px P2 _ _ _); [|lra|rewrite u4; lra]. destruct Pp as (_ & Q2 & _). change rxh with (x * x * (1 / 2)). set (l := ln (1 + x)) in *. clearbody l. set (ec := IZR e * (- 14581891 / 68719476736)) in *. clearbody ec. clear - PD LA Q2 HA T1 T2. apply abs_le_inv in PD, LA, Q2. apply Rabs_le. lra. }
  change (loge_x4 X EE) with W3. destruct P3 as (F3 & _ & E3). split; [exact F3|]. change rxh with (x * x * (1 / 2)) in E3.
  assert (LD : Rabs (IZR e * ((355 / 512) + (- 14581891 / 68719476736) - ln 2)) <= A * (329319 / 200000000000000000)) by (apply prod_le; [apply Rle_refl|pose proof ln2_num; apply Rabs_le; lra]).
  set (l := ln (1 + x)) in *. clearbody l. set (ll := ln 2) in *. clearbody ll. set (ee := IZR e) in *. clearbody A. set (zz := real W3) in *. clearbody zz. clear - PD E3 LD HA T1 T2. apply abs_le_inv in PD, E3, LD. apply Rabs_le. lra.
Qed.
Definition la8 : list Z := [35548662109242884096; 82719202681830981632; 66864478333052502016; 21701631477093044224; 2294290712571867648; 469818574385595]%Z.
Definition lb8 : list Z := [106645986327728521216; 328142097791303352320; 382712416546034876416; 208576941328522903552; 52053754389002829824; 4611686018427387904]%Z.
Definition lt8 : list Z := [0; 669278610; 0; 223092870; 0; 133855722; 0; 95611230; 0; 74364290; 0; 60843510; 0; 51482970; 0; 44618574; 0; 39369330; 0; 35225190; 0; 31870410; 0; 29099070]%Z.
Lemma log_den8 x : - (2929 / 10000) <= x <= 41422 / 100000 -> 8 <= ((((((3177109032531911 / 281474976710656) + x) * x + (6365263102066739 / 140737488355328)) * x + (5839728035675581 / 70368744177664)) * x + (5007051052723745 / 70368744177664)) * x + (3254577219474137 / 140737488355328)) /\ 36893488147419103232 <= pe lb8 x.
Proof.
  intros X. assert (C : 0 <= pe [69752498180309417984; 328142097791303352320; 382712416546034876416; 208576941328522903552; 52053754389002829824; 4611686018427387904]%Z x).
  { apply (ppos_ok _ 10 5 ltac:(lia) ltac:(lia) 73%nat (-301)); [vm_compute; reflexivity|lia|]. change (2 ^ 10)%Z with 1024%Z. change (-301 + 2 * 5 * Z.of_nat 73)%Z with 429%Z. lra. }
  assert (E : pe [69752498180309417984; 328142097791303352320; 382712416546034876416; 208576941328522903552; 52053754389002829824; 4611686018427387904]%Z x = pe lb8 x - 36893488147419103232) by (unfold lb8; cbn [pe]; ring). assert (E2 : ((((((3177109032531911 / 281474976710656) + x) * x + (6365263102066739 / 140737488355328)) * x + (5839728035675581 / 70368744177664)) * x + (5007051052723745 / 70368744177664)) * x + (3254577219474137 / 140737488355328)) = pe lb8 x / 4611686018427387904) by (unfold lb8; cbn [pe]; field). rewrite E2. rewrite E in C. split; lra.
Qed.
Lemma log_poly8 x : - (2929 / 10000) <= x <= 41422 / 100000 -> Rabs ((x * x * ((((((469818574385595 / 4611686018427387904) * x + (4481036547991929 / 9007199254740992)) * x + (5298249872337169 / 1125899906842624)) * x + (4081083882632599 / 281474976710656)) * x + (5048779460560973 / 281474976710656)) * x + (1084859073158047 / 140737488355328)) * (x / ((((((3177109032531911 / 281474976710656) + x) * x + (6365263102066739 / 140737488355328)) * x + (5839728035675581 / 70368744177664)) * x + (5007051052723745 / 70368744177664)) * x + (3254577219474137 / 140737488355328)))) - (ln (1 + x) - x + x * x / 2)) <= (4931929 / 100000000000000000000000) * Rabs x.
Proof.
  intros X. destruct (z_range x X) as (Z1 & Z2 & Z3 & Z4 & Z5 & Z6). set (z := x / (2 + x)) in *.
  destruct (log_den8 x X) as (D1 & D2).
  pose proof (log_rat la8 lb8 lt8 334639305 11 3 36028797018963968 12 (-704) 16 44 z x) as LR.
  assert (HTL : forall z, pe lt8 z = IZR 334639305 * tl 11 z) by (intros y; unfold lt8; cbn [pe tl Nat.mul Nat.add pow Z.of_nat Pos.of_succ_nat Pos.succ Z.mul Pos.mul Z.add Pos.add]; field).
  specialize (LR ltac:(cbn; lia) ltac:(lia) ltac:(lia) ltac:(lia) ltac:(lia) ltac:(lia) HTL ltac:(vm_compute; reflexivity) ltac:(vm_compute; reflexivity) ltac:(vm_compute; reflexivity)). clear HTL.
  change (2 ^ 12)%Z with 4096%Z in LR. change (-704 + 2 * 16 * Z.of_nat 44)%Z with 704%Z in LR. specialize (LR Z1 Z2 Z4 ltac:(lra)).
  pose proof (ln_tl 11 z (704 / 4096) Z3 ltac:(lra)) as LT. rewrite Z6 in LT.
  assert (TB : 2 * (704 / 4096) ^ (2 * 11 + 2) / (1 - 704 / 4096 * (704 / 4096)) <= (4551221 / 5000000000000000000000000)) by (cbn [Nat.mul Nat.add pow]; lra).
  pose proof (Rabs_pos z) as ZP. assert (LT' : Rabs (ln (1 + x) - tl 11 z) <= (4551221 / 5000000000000000000000000) * Rabs z) by (eapply Rle_trans; [exact LT|]; apply Rmult_le_compat_r; [exact ZP|exact TB]). clear LT TB.
  assert (E : x * x * x * (pe la8 x / pe lb8 x) = (x * x * ((((((469818574385595 / 4611686018427387904) * x + (4481036547991929 / 9007199254740992)) * x + (5298249872337169 / 1125899906842624)) * x + (4081083882632599 / 281474976710656)) * x + (5048779460560973 / 281474976710656)) * x + (1084859073158047 / 140737488355328)) * (x / ((((((3177109032531911 / 281474976710656) + x) * x + (6365263102066739 / 140737488355328)) * x + (5839728035675581 / 70368744177664)) * x + (5007051052723745 / 70368744177664)) * x + (3254577219474137 / 140737488355328))))).
  { assert (E2 : ((((((3177109032531911 / 281474976710656) + x) * x + (6365263102066739 / 140737488355328)) * x + (5839728035675581 / 70368744177664)) * x + (5007051052723745 / 70368744177664)) * x + (3254577219474137 / 140737488355328)) = pe lb8 x / 4611686018427387904) by (unfold lb8; cbn [pe]; field). assert (E1 : ((((((469818574385595 / 4611686018427387904) * x + (4481036547991929 / 9007199254740992)) * x + (5298249872337169 / 1125899906842624)) * x + (4081083882632599 / 281474976710656)) * x + (5048779460560973 / 281474976710656)) * x + (1084859073158047 / 140737488355328)) = pe la8 x / 4611686018427387904) by (unfold la8; cbn [pe]; field). rewrite E2, E1. field. lra. }
  rewrite E in LR. clear E. set (e := (x * x * ((((((469818574385595 / 4611686018427387904) * x + (4481036547991929 / 9007199254740992)) * x + (5298249872337169 / 1125899906842624)) * x + (4081083882632599 / 281474976710656)) * x + (5048779460560973 / 281474976710656)) * x + (1084859073158047 / 140737488355328)) * (x / ((((((3177109032531911 / 281474976710656) + x) * x + (6365263102066739 / 140737488355328)) * x + (5839728035675581 / 70368744177664)) * x + (5007051052723745 / 70368744177664)) * x + (3254577219474137 / 140737488355328))))) in *. clearbody e. set (T := tl 11 z) in *. clearbody T. set (l := ln (1 + x)) in *. clearbody l. replace (e - (l - x + x * x / 2)) with ((e - (T - x + x * x / 2)) + - (l - T)) by ring. eapply Rle_trans; [apply Rabs_triang|]. rewrite Rabs_Ropp. lra.
Qed.
Definition log_y8 (X : word 8) : word 8 := fmul (fmul (fmul X X) (fadd (fmul (horner (firstn 5 log_p8) X) X) (nth 5 log_p8 (w0 8)))) (fdiv X (fold_left (fun y c => fadd (fmul y X) c) (List.tl log_q8) (fadd (hd (w0 8) log_q8) X))).
Lemma log_series_y8 b X EE : log_series8 b X EE = log_finish b X (fmul X X) (log_y8 X) EE.
Proof. unfold log_series8, log_y8. cbv zeta. reflexivity. Qed.
Definition scale8 (t : R) : Prop := uu (w := 8) <= t <= (20711 / 50000).
Lemma scale_tiny8 t : scale8 t -> tiny (w := 8) t (1 / 9671406556917033397649408).
Proof.
  intros (T1 & T2). rewrite u8 in T1. apply tiny_of; [lra|lra|]. apply Rle_trans with ((1 / 9671406556917033397649408) * (/ 9007199254740992) ^ 4); [|apply Rmult_le_compat_l; [lra|]; apply pow_incr; lra].
  unfold eta. apply Rle_trans with (/ 2582249878086908589655919172003011874329705792829223512830659356540647622016841194629645353280137831435903171972747493376); [apply Rinv_le_contravar; [lra|]; rewrite <- mult_IZR; apply IZR_le; apply Z.leb_le; vm_compute; reflexivity|cbn [pow]; lra].
Qed.
Definition log_in8 (X : word 8) (t : R) : Prop := is_Finite X = true /\ - (2929 / 10000) <= real X <= 41422 / 100000 /\ Rabs (real X) <= t /\ scale8 t.

Lemma log_y_ok8_0 X t : log_in8 X t -> (- 2929 / 10000) <= real X <= (- 1 / 4) -> exists y, sapp t 3 (log_y8 X) y (5641037 / 10000000) (1194591 / 1250000000000000000000) /\ Rabs (y - (ln (1 + real X) - real X + real X * real X / 2)) <= (4931929 / 100000000000000000000000) * t.
Proof.
  intros (F & RX & HX & SC) Ix. set (Hw := fp8). pose proof (scale_tiny8 t SC) as HT. destruct SC as (T1 & T2). rewrite u8 in T1. pose proof (log_poly8 (real X) RX) as PD.
  pose proof (app_exact X (2929 / 10000) F ltac:(apply Rabs_le; lra)) as Hx. set (x := real X) in *.
  assert (Sx : sapp t 1 X x 1 0) by (split; [exact F|]; cbn [pow]; split; [lra|unfold x; rewrite Rminus_diag_eq, Rabs_R0 by reflexivity; lra]).
  pose (Wp0 := (nth 0 log_p8 (w0 8))). pose (rp0 := (469818574385595 / 4611686018427387904)).
  assert (Hp0 : app Wp0 rp0 (469818574385595 / 4611686018427387904) 0) by (refine (eq_rect _ (fun z => app Wp0 z (469818574385595 / 4611686018427387904) 0) (eq_rect _ (fun b => app Wp0 _ b 0) (const_ok Hw Wp0 (469818574385595) 4611686018427387904 _ _ _) _ _) _ _); [vm_compute; reflexivity|reflexivity|vm_compute; reflexivity|cbn [Z.abs]; lra|unfold rp0; lra]).
  assert (Ip0 : (469818574385595 / 4611686018427387904) <= rp0 <= (469818574385595 / 4611686018427387904)) by (unfold rp0; lra).
  pose (Wp1 := (nth 1 log_p8 (w0 8))). pose (rp1 := (4481036547991929 / 9007199254740992)).
  assert (Hp1 : app Wp1 rp1 (4481036547991929 / 9007199254740992) 0) by (refine (eq_rect _ (fun z => app Wp1 z (4481036547991929 / 9007199254740992) 0) (eq_rect _ (fun b => app Wp1 _ b 0) (const_ok Hw Wp1 (4481036547991929) 9007199254740992 _ _ _) _ _) _ _); [vm_compute; reflexivity|reflexivity|vm_compute; reflexivity|cbn [Z.abs]; lra|unfold rp1; lra]).
  pose (Wmp1 := fmul Wp0 X). pose (rmp1 := rp0 * x).
  assert (Hmp1 : app Wmp1 rmp1 (2983939 / 100000000000) (3312837 / 1000000000000000000000000000)) by (refine (mul_w Hw _ _ _ _ _ _ _ _ _ _ Hp0 Hx _ _ _ _ _ _ _); rewrite ?u8; lra).
  assert (Iyp1 : (99493 / 200000) <= rmp1 + rp1 <= (49747 / 100000)) by (pose proof (iv_mul rp0 x _ _ _ _ Ip0 Ix) as (J1 & J2); unfold rp1; change rmp1 with (rp0 * x); split; [eapply Rle_trans; [|apply Rplus_le_compat_r; exact J1]; repeat apply Rmin_case; lra|eapply Rle_trans; [apply Rplus_le_compat_r; exact J2|]; repeat apply Rmax_case; lra]).
  pose (Wyp1 := fadd Wmp1 Wp1). pose (ryp1 := rmp1 + rp1).
  assert (Hyp1 : app Wyp1 ryp1 (49747 / 100000) (2761679 / 50000000000000000000000)) by (refine (add_b Hw _ _ _ _ _ _ _ _ _ _ Hmp1 Hp1 _ _ _); [apply Rabs_le; lra|rewrite ?u8; lra|rewrite ?u8; lra]).
  pose (Wp2 := (nth 2 log_p8 (w0 8))). pose (rp2 := (5298249872337169 / 1125899906842624)).
  assert (Hp2 : app Wp2 rp2 (5298249872337169 / 1125899906842624) 0) by (refine (eq_rect _ (fun z => app Wp2 z (5298249872337169 / 1125899906842624) 0) (eq_rect _ (fun b => app Wp2 _ b 0) (const_ok Hw Wp2 (5298249872337169) 1125899906842624 _ _ _) _ _) _ _); [vm_compute; reflexivity|reflexivity|vm_compute; reflexivity|cbn [Z.abs]; lra|unfold rp2; lra]).
  pose (Wmp2 := fmul Wyp1 X). pose (rmp2 := ryp1 * x).
  assert (Hmp2 : app Wmp2 rmp2 (145709 / 1000000) (3235487 / 100000000000000000000000)) by (refine (mul_w Hw _ _ _ _ _ _ _ _ _ _ Hyp1 Hx _ _ _ _ _ _ _); rewrite ?u8; lra).
  assert (Iyp2 : (57001 / 12500) <= rmp2 + rp2 <= (458143 / 100000)) by (pose proof (iv_mul ryp1 x _ _ _ _ Iyp1 Ix) as (J1 & J2); unfold rp2; change rmp2 with (ryp1 * x); split; [eapply Rle_trans; [|apply Rplus_le_compat_r; exact J1]; repeat apply Rmin_case; lra|eapply Rle_trans; [apply Rplus_le_compat_r; exact J2|]; repeat apply Rmax_case; lra]).
  pose (Wyp2 := fadd Wmp2 Wp2). pose (ryp2 := rmp2 + rp2).
  assert (Hyp2 : app Wyp2 ryp2 (458143 / 100000) (2704979 / 5000000000000000000000)) by (refine (add_b Hw _ _ _ _ _ _ _ _ _ _ Hmp2 Hp2 _ _ _); [apply Rabs_le; lra|rewrite ?u8; lra|rewrite ?u8; lra]).
  pose (Wp3 := (nth 3 log_p8 (w0 8))). pose (rp3 := (4081083882632599 / 281474976710656)).
  assert (Hp3 : app Wp3 rp3 (4081083882632599 / 281474976710656) 0) by (refine (eq_rect _ (fun z => app Wp3 z (4081083882632599 / 281474976710656) 0) (eq_rect _ (fun b => app Wp3 _ b 0) (const_ok Hw Wp3 (4081083882632599) 281474976710656 _ _ _) _ _) _ _); [vm_compute; reflexivity|reflexivity|vm_compute; reflexivity|cbn [Z.abs]; lra|unfold rp3; lra]).
  pose (Wmp3 := fmul Wyp2 X). pose (rmp3 := ryp2 * x).
  assert (Hmp3 : app Wmp3 rmp3 (1341901 / 1000000) (1537193 / 5000000000000000000000)) by (refine (mul_w Hw _ _ _ _ _ _ _ _ _ _ Hyp2 Hx _ _ _ _ _ _ _); rewrite ?u8; lra).
  assert (Iyp3 : (13157 / 1000) <= rmp3 + rp3 <= (13359 / 1000)) by (pose proof (iv_mul ryp2 x _ _ _ _ Iyp2 Ix) as (J1 & J2); unfold rp3; change rmp3 with (ryp2 * x); split; [eapply Rle_trans; [|apply Rplus_le_compat_r; exact J1]; repeat apply Rmin_case; lra|eapply Rle_trans; [apply Rplus_le_compat_r; exact J2|]; repeat apply Rmax_case; lra]).
  pose (Wyp3 := fadd Wmp3 Wp3). pose (ryp3 := rmp3 + rp3).
  assert (Hyp3 : app Wyp3 ryp3 (13359 / 1000) (895293 / 500000000000000000000)) by (refine (add_b Hw _ _ _ _ _ _ _ _ _ _ Hmp3 Hp3 _ _ _); [apply Rabs_le; lra|rewrite ?u8; lra|rewrite ?u8; lra]).
  pose (Wp4 := (nth 4 log_p8 (w0 8))). pose (rp4 := (5048779460560973 / 281474976710656)).
  assert (Hp4 : app Wp4 rp4 (5048779460560973 / 281474976710656) 0) by (refine (eq_rect _ (fun z => app Wp4 z (5048779460560973 / 281474976710656) 0) (eq_rect _ (fun b => app Wp4 _ b 0) (const_ok Hw Wp4 (5048779460560973) 281474976710656 _ _ _) _ _) _ _); [vm_compute; reflexivity|reflexivity|vm_compute; reflexivity|cbn [Z.abs]; lra|unfold rp4; lra]).
  pose (Wmp4 := fmul Wyp3 X). pose (rmp4 := ryp3 * x).
  assert (Hmp4 : app Wmp4 rmp4 (978213 / 250000) (2397191 / 2500000000000000000000)) by (refine (mul_w Hw _ _ _ _ _ _ _ _ _ _ Hyp3 Hx _ _ _ _ _ _ _); rewrite ?u8; lra).
  assert (Iyp4 : (1753 / 125) <= rmp4 + rp4 <= (146477 / 10000)) by (pose proof (iv_mul ryp3 x _ _ _ _ Iyp3 Ix) as (J1 & J2); unfold rp4; change rmp4 with (ryp3 * x); split; [eapply Rle_trans; [|apply Rplus_le_compat_r; exact J1]; repeat apply Rmin_case; lra|eapply Rle_trans; [apply Rplus_le_compat_r; exact J2|]; repeat apply Rmax_case; lra]).
  pose (Wyp4 := fadd Wmp4 Wp4). pose (ryp4 := rmp4 + rp4).
  assert (Hyp4 : app Wyp4 ryp4 (146477 / 10000) (1292549 / 500000000000000000000)) by (refine (add_b Hw _ _ _ _ _ _ _ _ _ _ Hmp4 Hp4 _ _ _); [apply Rabs_le; lra|rewrite ?u8; lra|rewrite ?u8; lra]).
  pose (Wp5 := (nth 5 log_p8 (w0 8))). pose (rp5 := (1084859073158047 / 140737488355328)).
  assert (Hp5 : app Wp5 rp5 (1084859073158047 / 140737488355328) 0) by (refine (eq_rect _ (fun z => app Wp5 z (1084859073158047 / 140737488355328) 0) (eq_rect _ (fun b => app Wp5 _ b 0) (const_ok Hw Wp5 (1084859073158047) 140737488355328 _ _ _) _ _) _ _); [vm_compute; reflexivity|reflexivity|vm_compute; reflexivity|cbn [Z.abs]; lra|unfold rp5; lra]).
  pose (Wmp5 := fmul Wyp4 X). pose (rmp5 := ryp4 * x).
  assert (Hmp5 : app Wmp5 rmp5 (536289 / 125000) (154187 / 125000000000000000000)) by (refine (mul_w Hw _ _ _ _ _ _ _ _ _ _ Hyp4 Hx _ _ _ _ _ _ _); rewrite ?u8; lra).
  assert (Iyp5 : (341807 / 100000) <= rmp5 + rp5 <= (420239 / 100000)) by (pose proof (iv_mul ryp4 x _ _ _ _ Iyp4 Ix) as (J1 & J2); unfold rp5; change rmp5 with (ryp4 * x); split; [eapply Rle_trans; [|apply Rplus_le_compat_r; exact J1]; repeat apply Rmin_case; lra|eapply Rle_trans; [apply Rplus_le_compat_r; exact J2|]; repeat apply Rmax_case; lra]).
  pose (Wyp5 := fadd Wmp5 Wp5). pose (ryp5 := rmp5 + rp5).
  assert (Hyp5 : app Wyp5 ryp5 (420239 / 100000) (212507 / 125000000000000000000)) by (refine (add_b Hw _ _ _ _ _ _ _ _ _ _ Hmp5 Hp5 _ _ _); [apply Rabs_le; lra|rewrite ?u8; lra|rewrite ?u8; lra]).
  pose (Wq0 := (hd (w0 8) log_q8)). pose (rq0 := (3177109032531911 / 281474976710656)).
  assert (Hq0 : app Wq0 rq0 (3177109032531911 / 281474976710656) 0) by (refine (eq_rect _ (fun z => app Wq0 z (3177109032531911 / 281474976710656) 0) (eq_rect _ (fun b => app Wq0 _ b 0) (const_ok Hw Wq0 (3177109032531911) 281474976710656 _ _ _) _ _) _ _); [vm_compute; reflexivity|reflexivity|vm_compute; reflexivity|cbn [Z.abs]; lra|unfold rq0; lra]).
  pose (Wqa := fadd Wq0 X). pose (rqa := rq0 + x).
  assert (Hqa : app Wqa rqa (35273 / 3125) (1253149 / 1000000000000000000000)) by (refine (add_b Hw _ _ _ _ _ _ _ _ _ _ Hq0 Hx _ _ _); [unfold rq0; apply Rabs_le; lra|rewrite ?u8; lra|rewrite ?u8; lra]).
  assert (Iqa : (1934165632408349911 / 175921860444160000) <= rqa <= (3106740288354247 / 281474976710656)) by (change rqa with (rq0 + x); unfold rq0; lra).
  pose (Wq1 := (nth 1 log_q8 (w0 8))). pose (rq1 := (6365263102066739 / 140737488355328)).
  assert (Hq1 : app Wq1 rq1 (6365263102066739 / 140737488355328) 0) by (refine (eq_rect _ (fun z => app Wq1 z (6365263102066739 / 140737488355328) 0) (eq_rect _ (fun b => app Wq1 _ b 0) (const_ok Hw Wq1 (6365263102066739) 140737488355328 _ _ _) _ _) _ _); [vm_compute; reflexivity|reflexivity|vm_compute; reflexivity|cbn [Z.abs]; lra|unfold rq1; lra]).
  pose (Wmq1 := fmul Wqa X). pose (rmq1 := rqa * x).
  assert (Hmq1 : app Wmq1 rmq1 (826517 / 250000) (3670473 / 5000000000000000000000)) by (refine (mul_w Hw _ _ _ _ _ _ _ _ _ _ Hqa Hx _ _ _ _ _ _ _); rewrite ?u8; lra).
  assert (Iyq1 : (8399 / 200) <= rmq1 + rq1 <= (424793 / 10000)) by (pose proof (iv_mul rqa x _ _ _ _ Iqa Ix) as (J1 & J2); unfold rq1; change rmq1 with (rqa * x); split; [eapply Rle_trans; [|apply Rplus_le_compat_r; exact J1]; repeat apply Rmin_case; lra|eapply Rle_trans; [apply Rplus_le_compat_r; exact J2|]; repeat apply Rmax_case; lra]).
  pose (Wyq1 := fadd Wmq1 Wq1). pose (ryq1 := rmq1 + rq1).
  assert (Hyq1 : app Wyq1 ryq1 (424793 / 10000) (1090049 / 200000000000000000000)) by (refine (add_b Hw _ _ _ _ _ _ _ _ _ _ Hmq1 Hq1 _ _ _); [apply Rabs_le; lra|rewrite ?u8; lra|rewrite ?u8; lra]).
  pose (Wq2 := (nth 2 log_q8 (w0 8))). pose (rq2 := (5839728035675581 / 70368744177664)).
  assert (Hq2 : app Wq2 rq2 (5839728035675581 / 70368744177664) 0) by (refine (eq_rect _ (fun z => app Wq2 z (5839728035675581 / 70368744177664) 0) (eq_rect _ (fun b => app Wq2 _ b 0) (const_ok Hw Wq2 (5839728035675581) 70368744177664 _ _ _) _ _) _ _); [vm_compute; reflexivity|reflexivity|vm_compute; reflexivity|cbn [Z.abs]; lra|unfold rq2; lra]).
  pose (Wmq2 := fmul Wyq1 X). pose (rmq2 := ryq1 * x).
  assert (Hmq2 : app Wmq2 rmq2 (1244219 / 100000) (1488869 / 500000000000000000000)) by (refine (mul_w Hw _ _ _ _ _ _ _ _ _ _ Hyq1 Hx _ _ _ _ _ _ _); rewrite ?u8; lra).
  assert (Iyq2 : (705453 / 10000) <= rmq2 + rq2 <= (90611 / 1250)) by (pose proof (iv_mul ryq1 x _ _ _ _ Iyq1 Ix) as (J1 & J2); unfold rq2; change rmq2 with (ryq1 * x); split; [eapply Rle_trans; [|apply Rplus_le_compat_r; exact J1]; repeat apply Rmin_case; lra|eapply Rle_trans; [apply Rplus_le_compat_r; exact J2|]; repeat apply Rmax_case; lra]).
  pose (Wyq2 := fadd Wmq2 Wq2). pose (ryq2 := rmq2 + rq2).
  assert (Hyq2 : app Wyq2 ryq2 (90611 / 1250) (551281 / 50000000000000000000)) by (refine (add_b Hw _ _ _ _ _ _ _ _ _ _ Hmq2 Hq2 _ _ _); [apply Rabs_le; lra|rewrite ?u8; lra|rewrite ?u8; lra]).
  pose (Wq3 := (nth 3 log_q8 (w0 8))). pose (rq3 := (5007051052723745 / 70368744177664)).
  assert (Hq3 : app Wq3 rq3 (5007051052723745 / 70368744177664) 0) by (refine (eq_rect _ (fun z => app Wq3 z (5007051052723745 / 70368744177664) 0) (eq_rect _ (fun b => app Wq3 _ b 0) (const_ok Hw Wq3 (5007051052723745) 70368744177664 _ _ _) _ _) _ _); [vm_compute; reflexivity|reflexivity|vm_compute; reflexivity|cbn [Z.abs]; lra|unfold rq3; lra]).
  pose (Wmq3 := fmul Wyq2 X). pose (rmq3 := ryq2 * x).
  assert (Hmq3 : app Wmq3 rmq3 (2123197 / 100000) (5586627 / 1000000000000000000000)) by (refine (mul_w Hw _ _ _ _ _ _ _ _ _ _ Hyq2 Hx _ _ _ _ _ _ _); rewrite ?u8; lra).
  assert (Iyq3 : (19969 / 400) <= rmq3 + rq3 <= (267591 / 5000)) by (pose proof (iv_mul ryq2 x _ _ _ _ Iyq2 Ix) as (J1 & J2); unfold rq3; change rmq3 with (ryq2 * x); split; [eapply Rle_trans; [|apply Rplus_le_compat_r; exact J1]; repeat apply Rmin_case; lra|eapply Rle_trans; [apply Rplus_le_compat_r; exact J2|]; repeat apply Rmax_case; lra]).
  pose (Wyq3 := fadd Wmq3 Wq3). pose (ryq3 := rmq3 + rq3).
  assert (Hyq3 : app Wyq3 ryq3 (267591 / 5000) (230567 / 20000000000000000000)) by (refine (add_b Hw _ _ _ _ _ _ _ _ _ _ Hmq3 Hq3 _ _ _); [apply Rabs_le; lra|rewrite ?u8; lra|rewrite ?u8; lra]).
  pose (Wq4 := (nth 4 log_q8 (w0 8))). pose (rq4 := (3254577219474137 / 140737488355328)).
  assert (Hq4 : app Wq4 rq4 (3254577219474137 / 140737488355328) 0) by (refine (eq_rect _ (fun z => app Wq4 z (3254577219474137 / 140737488355328) 0) (eq_rect _ (fun b => app Wq4 _ b 0) (const_ok Hw Wq4 (3254577219474137) 140737488355328 _ _ _) _ _) _ _); [vm_compute; reflexivity|reflexivity|vm_compute; reflexivity|cbn [Z.abs]; lra|unfold rq4; lra]).
  pose (Wmq4 := fmul Wyq3 X). pose (rmq4 := ryq3 * x).
  assert (Hmq4 : app Wmq4 rmq4 (1567549 / 100000) (2558491 / 500000000000000000000)) by (refine (mul_w Hw _ _ _ _ _ _ _ _ _ _ Hyq3 Hx _ _ _ _ _ _ _); rewrite ?u8; lra).
  assert (Iyq4 : (93121 / 12500) <= rmq4 + rq4 <= (53223 / 5000)) by (pose proof (iv_mul ryq3 x _ _ _ _ Iyq3 Ix) as (J1 & J2); unfold rq4; change rmq4 with (ryq3 * x); split; [eapply Rle_trans; [|apply Rplus_le_compat_r; exact J1]; repeat apply Rmin_case; lra|eapply Rle_trans; [apply Rplus_le_compat_r; exact J2|]; repeat apply Rmax_case; lra]).
  pose (Wyq4 := fadd Wmq4 Wq4). pose (ryq4 := rmq4 + rq4).
  assert (Hyq4 : app Wyq4 ryq4 (53223 / 5000) (6298771 / 1000000000000000000000)) by (refine (add_b Hw _ _ _ _ _ _ _ _ _ _ Hmq4 Hq4 _ _ _); [apply Rabs_le; lra|rewrite ?u8; lra|rewrite ?u8; lra]).
  pose (Wv := fdiv X Wyq4). pose (rv := x / ryq4).
  assert (Sv : sapp t 1 Wv rv (67117 / 500000) (1283991 / 10000000000000000000000)) by (refine (s_div Hw t (1 / 9671406556917033397649408) HT 1 _ _ _ _ _ _ _ _ (93121 / 12500) (1134961 / 10000000000000000000000) _ _ Sx Hyq4 ltac:(lia) _ _ _ _ _ _ _ _ _); [change ryq4 with (rmq4 + rq4); rewrite Rabs_pos_eq; lra|split; lra|lra|lra|lra|lra|split; lra|lra|rewrite ?u8; lra]).
  pose (Wxx := fmul X X). pose (rxx := x * x).
  assert (Sxx : sapp t 2 Wxx rxx 1 (69389 / 625000000000000000000)) by (refine (s_mul Hw t (1 / 9671406556917033397649408) HT 1 1 2 _ _ _ _ _ _ _ _ _ _ Sx Sx eq_refl ltac:(lia) _ _ _ _ _ _ _); rewrite ?u8; lra).
  assert (Syp5 : sapp t 0 Wyp5 ryp5 (420239 / 100000) (212507 / 125000000000000000000)) by (exact (sapp0 t _ _ _ _ Hyp5)).
  pose (Wxy := fmul Wxx Wyp5). pose (rxy := rxx * ryp5).
  assert (Sxy : sapp t 2 Wxy rxy (420239 / 100000) (105327 / 40000000000000000000)) by (refine (s_mul Hw t (1 / 9671406556917033397649408) HT 2 0 2 _ _ _ _ _ _ _ _ _ _ Sxx Syp5 eq_refl ltac:(lia) _ _ _ _ _ _ _); rewrite ?u8; lra).
  pose (Wr := fmul Wxy Wv). pose (rr := rxy * rv).
  assert (Sr : sapp t 3 Wr rr (5641037 / 10000000) (1194591 / 1250000000000000000000)) by (refine (s_mul Hw t (1 / 9671406556917033397649408) HT 2 1 3 _ _ _ _ _ _ _ _ _ _ Sxy Sv eq_refl ltac:(lia) _ _ _ _ _ _ _); rewrite ?u8; lra).
  exists rr. split; [exact Sr|]. replace rr with (x * x * ((((((469818574385595 / 4611686018427387904) * x + (4481036547991929 / 9007199254740992)) * x + (5298249872337169 / 1125899906842624)) * x + (4081083882632599 / 281474976710656)) * x + (5048779460560973 / 281474976710656)) * x + (1084859073158047 / 140737488355328)) * (x / ((((((3177109032531911 / 281474976710656) + x) * x + (6365263102066739 / 140737488355328)) * x + (5839728035675581 / 70368744177664)) * x + (5007051052723745 / 70368744177664)) * x + (3254577219474137 / 140737488355328)))); [|reflexivity]. eapply Rle_trans; [exact PD|]. apply Rmult_le_compat_l; lra.
Qed.
Lemma log_y_ok8_1 X t : log_in8 X t -> (- 1 / 4) <= real X <= (- 1 / 5) -> exists y, sapp t 3 (log_y8 X) y (2682213 / 5000000) (1899057 / 2500000000000000000000) /\ Rabs (y - (ln (1 + real X) - real X + real X * real X / 2)) <= (4931929 / 100000000000000000000000) * t.
Proof.
  intros (F & RX & HX & SC) Ix. set (Hw := fp8). pose proof (scale_tiny8 t SC) as HT. destruct SC as (T1 & T2). rewrite u8 in T1. pose proof (log_poly8 (real X) RX) as PD.
  pose proof (app_exact X (1 / 4) F ltac:(apply Rabs_le; lra)) as Hx. set (x := real X) in *.
  assert (Sx : sapp t 1 X x 1 0) by (split; [exact F|]; cbn [pow]; split; [lra|unfold x; rewrite Rminus_diag_eq, Rabs_R0 by reflexivity; lra]).
  pose (Wp0 := (nth 0 log_p8 (w0 8))). pose (rp0 := (469818574385595 / 4611686018427387904)).
  assert (Hp0 : app Wp0 rp0 (469818574385595 / 4611686018427387904) 0) by (refine (eq_rect _ (fun z => app Wp0 z (469818574385595 / 4611686018427387904) 0) (eq_rect _ (fun b => app Wp0 _ b 0) (const_ok Hw Wp0 (469818574385595) 4611686018427387904 _ _ _) _ _) _ _); [vm_compute; reflexivity|reflexivity|vm_compute; reflexivity|cbn [Z.abs]; lra|unfold rp0; lra]).
  assert (Ip0 : (469818574385595 / 4611686018427387904) <= rp0 <= (469818574385595 / 4611686018427387904)) by (unfold rp0; lra).
  pose (Wp1 := (nth 1 log_p8 (w0 8))). pose (rp1 := (4481036547991929 / 9007199254740992)).
  assert (Hp1 : app Wp1 rp1 (4481036547991929 / 9007199254740992) 0) by (refine (eq_rect _ (fun z => app Wp1 z (4481036547991929 / 9007199254740992) 0) (eq_rect _ (fun b => app Wp1 _ b 0) (const_ok Hw Wp1 (4481036547991929) 9007199254740992 _ _ _) _ _) _ _); [vm_compute; reflexivity|reflexivity|vm_compute; reflexivity|cbn [Z.abs]; lra|unfold rp1; lra]).
  pose (Wmp1 := fmul Wp0 X). pose (rmp1 := rp0 * x).
  assert (Hmp1 : app Wmp1 rmp1 (636723 / 25000000000) (1413809 / 500000000000000000000000000)) by (refine (mul_w Hw _ _ _ _ _ _ _ _ _ _ Hp0 Hx _ _ _ _ _ _ _); rewrite ?u8; lra).
  assert (Iyp1 : (497469 / 1000000) <= rmp1 + rp1 <= (19899 / 40000)) by (pose proof (iv_mul rp0 x _ _ _ _ Ip0 Ix) as (J1 & J2); unfold rp1; change rmp1 with (rp0 * x); split; [eapply Rle_trans; [|apply Rplus_le_compat_r; exact J1]; repeat apply Rmin_case; lra|eapply Rle_trans; [apply Rplus_le_compat_r; exact J2|]; repeat apply Rmax_case; lra]).
  pose (Wyp1 := fadd Wmp1 Wp1). pose (ryp1 := rmp1 + rp1).
  assert (Hyp1 : app Wyp1 ryp1 (19899 / 40000) (1104673 / 20000000000000000000000)) by (refine (add_b Hw _ _ _ _ _ _ _ _ _ _ Hmp1 Hp1 _ _ _); [apply Rabs_le; lra|rewrite ?u8; lra|rewrite ?u8; lra]).
  pose (Wp2 := (nth 2 log_p8 (w0 8))). pose (rp2 := (5298249872337169 / 1125899906842624)).
  assert (Hp2 : app Wp2 rp2 (5298249872337169 / 1125899906842624) 0) by (refine (eq_rect _ (fun z => app Wp2 z (5298249872337169 / 1125899906842624) 0) (eq_rect _ (fun b => app Wp2 _ b 0) (const_ok Hw Wp2 (5298249872337169) 1125899906842624 _ _ _) _ _) _ _); [vm_compute; reflexivity|reflexivity|vm_compute; reflexivity|cbn [Z.abs]; lra|unfold rp2; lra]).
  pose (Wmp2 := fmul Wyp1 X). pose (rmp2 := ryp1 * x).
  assert (Hmp2 : app Wmp2 rmp2 (155461 / 1250000) (690403 / 25000000000000000000000)) by (refine (mul_w Hw _ _ _ _ _ _ _ _ _ _ Hyp1 Hx _ _ _ _ _ _ _); rewrite ?u8; lra).
  assert (Iyp2 : (229071 / 50000) <= rmp2 + rp2 <= (46063 / 10000)) by (pose proof (iv_mul ryp1 x _ _ _ _ Iyp1 Ix) as (J1 & J2); unfold rp2; change rmp2 with (ryp1 * x); split; [eapply Rle_trans; [|apply Rplus_le_compat_r; exact J1]; repeat apply Rmin_case; lra|eapply Rle_trans; [apply Rplus_le_compat_r; exact J2|]; repeat apply Rmax_case; lra]).
  pose (Wyp2 := fadd Wmp2 Wp2). pose (ryp2 := rmp2 + rp2).
  assert (Hyp2 : app Wyp2 ryp2 (46063 / 10000) (2695091 / 5000000000000000000000)) by (refine (add_b Hw _ _ _ _ _ _ _ _ _ _ Hmp2 Hp2 _ _ _); [apply Rabs_le; lra|rewrite ?u8; lra|rewrite ?u8; lra]).
  pose (Wp3 := (nth 3 log_p8 (w0 8))). pose (rp3 := (4081083882632599 / 281474976710656)).
  assert (Hp3 : app Wp3 rp3 (4081083882632599 / 281474976710656) 0) by (refine (eq_rect _ (fun z => app Wp3 z (4081083882632599 / 281474976710656) 0) (eq_rect _ (fun b => app Wp3 _ b 0) (const_ok Hw Wp3 (4081083882632599) 281474976710656 _ _ _) _ _) _ _); [vm_compute; reflexivity|reflexivity|vm_compute; reflexivity|cbn [Z.abs]; lra|unfold rp3; lra]).
  pose (Wmp3 := fmul Wyp2 X). pose (rmp3 := ryp2 * x).
  assert (Hmp3 : app Wmp3 rmp3 (46063 / 40000) (2626051 / 10000000000000000000000)) by (refine (mul_w Hw _ _ _ _ _ _ _ _ _ _ Hyp2 Hx _ _ _ _ _ _ _); rewrite ?u8; lra).
  assert (Iyp3 : (133473 / 10000) <= rmp3 + rp3 <= (135827 / 10000)) by (pose proof (iv_mul ryp2 x _ _ _ _ Iyp2 Ix) as (J1 & J2); unfold rp3; change rmp3 with (ryp2 * x); split; [eapply Rle_trans; [|apply Rplus_le_compat_r; exact J1]; repeat apply Rmin_case; lra|eapply Rle_trans; [apply Rplus_le_compat_r; exact J2|]; repeat apply Rmax_case; lra]).
  pose (Wyp3 := fadd Wmp3 Wp3). pose (ryp3 := rmp3 + rp3).
  assert (Hyp3 : app Wyp3 ryp3 (135827 / 10000) (442647 / 250000000000000000000)) by (refine (add_b Hw _ _ _ _ _ _ _ _ _ _ Hmp3 Hp3 _ _ _); [apply Rabs_le; lra|rewrite ?u8; lra|rewrite ?u8; lra]).
  pose (Wp4 := (nth 4 log_p8 (w0 8))). pose (rp4 := (5048779460560973 / 281474976710656)).
  assert (Hp4 : app Wp4 rp4 (5048779460560973 / 281474976710656) 0) by (refine (eq_rect _ (fun z => app Wp4 z (5048779460560973 / 281474976710656) 0) (eq_rect _ (fun b => app Wp4 _ b 0) (const_ok Hw Wp4 (5048779460560973) 281474976710656 _ _ _) _ _) _ _); [vm_compute; reflexivity|reflexivity|vm_compute; reflexivity|cbn [Z.abs]; lra|unfold rp4; lra]).
  pose (Wmp4 := fmul Wyp3 X). pose (rmp4 := ryp3 * x).
  assert (Hmp4 : app Wmp4 rmp4 (135827 / 40000) (8196427 / 10000000000000000000000)) by (refine (mul_w Hw _ _ _ _ _ _ _ _ _ _ Hyp3 Hx _ _ _ _ _ _ _); rewrite ?u8; lra).
  assert (Iyp4 : (145411 / 10000) <= rmp4 + rp4 <= (6107 / 400)) by (pose proof (iv_mul ryp3 x _ _ _ _ Iyp3 Ix) as (J1 & J2); unfold rp4; change rmp4 with (ryp3 * x); split; [eapply Rle_trans; [|apply Rplus_le_compat_r; exact J1]; repeat apply Rmin_case; lra|eapply Rle_trans; [apply Rplus_le_compat_r; exact J2|]; repeat apply Rmax_case; lra]).
  pose (Wyp4 := fadd Wmp4 Wp4). pose (ryp4 := rmp4 + rp4).
  assert (Hyp4 : app Wyp4 ryp4 (6107 / 400) (628669 / 250000000000000000000)) by (refine (add_b Hw _ _ _ _ _ _ _ _ _ _ Hmp4 Hp4 _ _ _); [apply Rabs_le; lra|rewrite ?u8; lra|rewrite ?u8; lra]).
  pose (Wp5 := (nth 5 log_p8 (w0 8))). pose (rp5 := (1084859073158047 / 140737488355328)).
  assert (Hp5 : app Wp5 rp5 (1084859073158047 / 140737488355328) 0) by (refine (eq_rect _ (fun z => app Wp5 z (1084859073158047 / 140737488355328) 0) (eq_rect _ (fun b => app Wp5 _ b 0) (const_ok Hw Wp5 (1084859073158047) 140737488355328 _ _ _) _ _) _ _); [vm_compute; reflexivity|reflexivity|vm_compute; reflexivity|cbn [Z.abs]; lra|unfold rp5; lra]).
  pose (Wmp5 := fmul Wyp4 X). pose (rmp5 := ryp4 * x).
  assert (Hmp5 : app Wmp5 rmp5 (6107 / 1600) (263107 / 250000000000000000000)) by (refine (mul_w Hw _ _ _ _ _ _ _ _ _ _ Hyp4 Hx _ _ _ _ _ _ _); rewrite ?u8; lra).
  assert (Iyp5 : (389151 / 100000) <= rmp5 + rp5 <= (480017 / 100000)) by (pose proof (iv_mul ryp4 x _ _ _ _ Iyp4 Ix) as (J1 & J2); unfold rp5; change rmp5 with (ryp4 * x); split; [eapply Rle_trans; [|apply Rplus_le_compat_r; exact J1]; repeat apply Rmin_case; lra|eapply Rle_trans; [apply Rplus_le_compat_r; exact J2|]; repeat apply Rmax_case; lra]).
  pose (Wyp5 := fadd Wmp5 Wp5). pose (ryp5 := rmp5 + rp5).
  assert (Hyp5 : app Wyp5 ryp5 (480017 / 100000) (792677 / 500000000000000000000)) by (refine (add_b Hw _ _ _ _ _ _ _ _ _ _ Hmp5 Hp5 _ _ _); [apply Rabs_le; lra|rewrite ?u8; lra|rewrite ?u8; lra]).
  pose (Wq0 := (hd (w0 8) log_q8)). pose (rq0 := (3177109032531911 / 281474976710656)).
  assert (Hq0 : app Wq0 rq0 (3177109032531911 / 281474976710656) 0) by (refine (eq_rect _ (fun z => app Wq0 z (3177109032531911 / 281474976710656) 0) (eq_rect _ (fun b => app Wq0 _ b 0) (const_ok Hw Wq0 (3177109032531911) 281474976710656 _ _ _) _ _) _ _); [vm_compute; reflexivity|reflexivity|vm_compute; reflexivity|cbn [Z.abs]; lra|unfold rq0; lra]).
  pose (Wqa := fadd Wq0 X). pose (rqa := rq0 + x).
  assert (Hqa : app Wqa rqa (35273 / 3125) (1253149 / 1000000000000000000000)) by (refine (add_b Hw _ _ _ _ _ _ _ _ _ _ Hq0 Hx _ _ _); [unfold rq0; apply Rabs_le; lra|rewrite ?u8; lra|rewrite ?u8; lra]).
  assert (Iqa : (3106740288354247 / 281474976710656) <= rqa <= (15604070185948899 / 1407374883553280)) by (change rqa with (rq0 + x); unfold rq0; lra).
  pose (Wq1 := (nth 1 log_q8 (w0 8))). pose (rq1 := (6365263102066739 / 140737488355328)).
  assert (Hq1 : app Wq1 rq1 (6365263102066739 / 140737488355328) 0) by (refine (eq_rect _ (fun z => app Wq1 z (6365263102066739 / 140737488355328) 0) (eq_rect _ (fun b => app Wq1 _ b 0) (const_ok Hw Wq1 (6365263102066739) 140737488355328 _ _ _) _ _) _ _); [vm_compute; reflexivity|reflexivity|vm_compute; reflexivity|cbn [Z.abs]; lra|unfold rq1; lra]).
  pose (Wmq1 := fmul Wqa X). pose (rmq1 := rqa * x).
  assert (Hmq1 : app Wmq1 rmq1 (35273 / 12500) (1253149 / 2000000000000000000000)) by (refine (mul_w Hw _ _ _ _ _ _ _ _ _ _ Hqa Hx _ _ _ _ _ _ _); rewrite ?u8; lra).
  assert (Iyq1 : (5307 / 125) <= rmq1 + rq1 <= (86041 / 2000)) by (pose proof (iv_mul rqa x _ _ _ _ Iqa Ix) as (J1 & J2); unfold rq1; change rmq1 with (rqa * x); split; [eapply Rle_trans; [|apply Rplus_le_compat_r; exact J1]; repeat apply Rmin_case; lra|eapply Rle_trans; [apply Rplus_le_compat_r; exact J2|]; repeat apply Rmax_case; lra]).
  pose (Wyq1 := fadd Wmq1 Wq1). pose (ryq1 := rmq1 + rq1).
  assert (Hyq1 : app Wyq1 ryq1 (86041 / 2000) (540281 / 100000000000000000000)) by (refine (add_b Hw _ _ _ _ _ _ _ _ _ _ Hmq1 Hq1 _ _ _); [apply Rabs_le; lra|rewrite ?u8; lra|rewrite ?u8; lra]).
  pose (Wq2 := (nth 2 log_q8 (w0 8))). pose (rq2 := (5839728035675581 / 70368744177664)).
  assert (Hq2 : app Wq2 rq2 (5839728035675581 / 70368744177664) 0) by (refine (eq_rect _ (fun z => app Wq2 z (5839728035675581 / 70368744177664) 0) (eq_rect _ (fun b => app Wq2 _ b 0) (const_ok Hw Wq2 (5839728035675581) 70368744177664 _ _ _) _ _) _ _); [vm_compute; reflexivity|reflexivity|vm_compute; reflexivity|cbn [Z.abs]; lra|unfold rq2; lra]).
  pose (Wmq2 := fmul Wyq1 X). pose (rmq2 := ryq1 * x).
  assert (Hmq2 : app Wmq2 rmq2 (1075513 / 100000) (1272381 / 500000000000000000000)) by (refine (mul_w Hw _ _ _ _ _ _ _ _ _ _ Hyq1 Hx _ _ _ _ _ _ _); rewrite ?u8; lra).
  assert (Iyq2 : (180581 / 2500) <= rmq2 + rq2 <= (186241 / 2500)) by (pose proof (iv_mul ryq1 x _ _ _ _ Iyq1 Ix) as (J1 & J2); unfold rq2; change rmq2 with (ryq1 * x); split; [eapply Rle_trans; [|apply Rplus_le_compat_r; exact J1]; repeat apply Rmin_case; lra|eapply Rle_trans; [apply Rplus_le_compat_r; exact J2|]; repeat apply Rmax_case; lra]).
  pose (Wyq2 := fadd Wmq2 Wq2). pose (ryq2 := rmq2 + rq2).
  assert (Hyq2 : app Wyq2 ryq2 (186241 / 2500) (1081553 / 100000000000000000000)) by (refine (add_b Hw _ _ _ _ _ _ _ _ _ _ Hmq2 Hq2 _ _ _); [apply Rabs_le; lra|rewrite ?u8; lra|rewrite ?u8; lra]).
  pose (Wq3 := (nth 3 log_q8 (w0 8))). pose (rq3 := (5007051052723745 / 70368744177664)).
  assert (Hq3 : app Wq3 rq3 (5007051052723745 / 70368744177664) 0) by (refine (eq_rect _ (fun z => app Wq3 z (5007051052723745 / 70368744177664) 0) (eq_rect _ (fun b => app Wq3 _ b 0) (const_ok Hw Wq3 (5007051052723745) 70368744177664 _ _ _) _ _) _ _); [vm_compute; reflexivity|reflexivity|vm_compute; reflexivity|cbn [Z.abs]; lra|unfold rq3; lra]).
  pose (Wmq3 := fmul Wyq2 X). pose (rmq3 := ryq2 * x).
  assert (Hmq3 : app Wmq3 rmq3 (186241 / 10000) (4771573 / 1000000000000000000000)) by (refine (mul_w Hw _ _ _ _ _ _ _ _ _ _ Hyq2 Hx _ _ _ _ _ _ _); rewrite ?u8; lra).
  assert (Iyq3 : (525303 / 10000) <= rmq3 + rq3 <= (14177 / 250)) by (pose proof (iv_mul ryq2 x _ _ _ _ Iyq2 Ix) as (J1 & J2); unfold rq3; change rmq3 with (ryq2 * x); split; [eapply Rle_trans; [|apply Rplus_le_compat_r; exact J1]; repeat apply Rmin_case; lra|eapply Rle_trans; [apply Rplus_le_compat_r; exact J2|]; repeat apply Rmax_case; lra]).
  pose (Wyq3 := fadd Wmq3 Wq3). pose (ryq3 := rmq3 + rq3).
  assert (Hyq3 : app Wyq3 ryq3 (14177 / 250) (1106743 / 100000000000000000000)) by (refine (add_b Hw _ _ _ _ _ _ _ _ _ _ Hmq3 Hq3 _ _ _); [apply Rabs_le; lra|rewrite ?u8; lra|rewrite ?u8; lra]).
  pose (Wq4 := (nth 4 log_q8 (w0 8))). pose (rq4 := (3254577219474137 / 140737488355328)).
  assert (Hq4 : app Wq4 rq4 (3254577219474137 / 140737488355328) 0) by (refine (eq_rect _ (fun z => app Wq4 z (3254577219474137 / 140737488355328) 0) (eq_rect _ (fun b => app Wq4 _ b 0) (const_ok Hw Wq4 (3254577219474137) 140737488355328 _ _ _) _ _) _ _); [vm_compute; reflexivity|reflexivity|vm_compute; reflexivity|cbn [Z.abs]; lra|unfold rq4; lra]).
  pose (Wmq4 := fmul Wyq3 X). pose (rmq4 := ryq3 * x).
  assert (Hmq4 : app Wmq4 rmq4 (14177 / 1000) (4340821 / 1000000000000000000000)) by (refine (mul_w Hw _ _ _ _ _ _ _ _ _ _ Hyq3 Hx _ _ _ _ _ _ _); rewrite ?u8; lra).
  assert (Iyq4 : (27963 / 3125) <= rmq4 + rq4 <= (7887 / 625)) by (pose proof (iv_mul ryq3 x _ _ _ _ Iyq3 Ix) as (J1 & J2); unfold rq4; change rmq4 with (ryq3 * x); split; [eapply Rle_trans; [|apply Rplus_le_compat_r; exact J1]; repeat apply Rmin_case; lra|eapply Rle_trans; [apply Rplus_le_compat_r; exact J2|]; repeat apply Rmax_case; lra]).
  pose (Wyq4 := fadd Wmq4 Wq4). pose (ryq4 := rmq4 + rq4).
  assert (Hyq4 : app Wyq4 ryq4 (7887 / 625) (2870917 / 500000000000000000000)) by (refine (add_b Hw _ _ _ _ _ _ _ _ _ _ Hmq4 Hq4 _ _ _); [apply Rabs_le; lra|rewrite ?u8; lra|rewrite ?u8; lra]).
  pose (Wv := fdiv X Wyq4). pose (rv := x / ryq4).
  assert (Sv : sapp t 1 Wv rv (1117549 / 10000000) (8411791 / 100000000000000000000000)) by (refine (s_div Hw t (1 / 9671406556917033397649408) HT 1 _ _ _ _ _ _ _ _ (27963 / 3125) (3585531 / 50000000000000000000000) _ _ Sx Hyq4 ltac:(lia) _ _ _ _ _ _ _ _ _); [change ryq4 with (rmq4 + rq4); rewrite Rabs_pos_eq; lra|split; lra|lra|lra|lra|lra|split; lra|lra|rewrite ?u8; lra]).
  pose (Wxx := fmul X X). pose (rxx := x * x).
  assert (Sxx : sapp t 2 Wxx rxx 1 (69389 / 625000000000000000000)) by (refine (s_mul Hw t (1 / 9671406556917033397649408) HT 1 1 2 _ _ _ _ _ _ _ _ _ _ Sx Sx eq_refl ltac:(lia) _ _ _ _ _ _ _); rewrite ?u8; lra).
  assert (Syp5 : sapp t 0 Wyp5 ryp5 (480017 / 100000) (792677 / 500000000000000000000)) by (exact (sapp0 t _ _ _ _ Hyp5)).
  pose (Wxy := fmul Wxx Wyp5). pose (rxy := rxx * ryp5).
  assert (Sxy : sapp t 2 Wxy rxy (480017 / 100000) (2651207 / 1000000000000000000000)) by (refine (s_mul Hw t (1 / 9671406556917033397649408) HT 2 0 2 _ _ _ _ _ _ _ _ _ _ Sxx Syp5 eq_refl ltac:(lia) _ _ _ _ _ _ _); rewrite ?u8; lra).
  pose (Wr := fmul Wxy Wv). pose (rr := rxy * rv).
  assert (Sr : sapp t 3 Wr rr (2682213 / 5000000) (1899057 / 2500000000000000000000)) by (refine (s_mul Hw t (1 / 9671406556917033397649408) HT 2 1 3 _ _ _ _ _ _ _ _ _ _ Sxy Sv eq_refl ltac:(lia) _ _ _ _ _ _ _); rewrite ?u8; lra).
  exists rr. split; [exact Sr|]. replace rr with (x * x * ((((((469818574385595 / 4611686018427387904) * x + (4481036547991929 / 9007199254740992)) * x + (5298249872337169 / 1125899906842624)) * x + (4081083882632599 / 281474976710656)) * x + (5048779460560973 / 281474976710656)) * x + (1084859073158047 / 140737488355328)) * (x / ((((((3177109032531911 / 281474976710656) + x) * x + (6365263102066739 / 140737488355328)) * x + (5839728035675581 / 70368744177664)) * x + (5007051052723745 / 70368744177664)) * x + (3254577219474137 / 140737488355328)))); [|reflexivity]. eapply Rle_trans; [exact PD|]. apply Rmult_le_compat_l; lra.
Qed.
Lemma log_y_ok8_2 X t : log_in8 X t -> (- 1 / 5) <= real X <= (- 13 / 100) -> exists y, sapp t 3 (log_y8 X) y (1060219 / 2000000) (788287 / 1250000000000000000000) /\ Rabs (y - (ln (1 + real X) - real X + real X * real X / 2)) <= (4931929 / 100000000000000000000000) * t.
Proof.
  intros (F & RX & HX & SC) Ix. set (Hw := fp8). pose proof (scale_tiny8 t SC) as HT. destruct SC as (T1 & T2). rewrite u8 in T1. pose proof (log_poly8 (real X) RX) as PD.
  pose proof (app_exact X (1 / 5) F ltac:(apply Rabs_le; lra)) as Hx. set (x := real X) in *.
  assert (Sx : sapp t 1 X x 1 0) by (split; [exact F|]; cbn [pow]; split; [lra|unfold x; rewrite Rminus_diag_eq, Rabs_R0 by reflexivity; lra]).
  pose (Wp0 := (nth 0 log_p8 (w0 8))). pose (rp0 := (469818574385595 / 4611686018427387904)).
  assert (Hp0 : app Wp0 rp0 (469818574385595 / 4611686018427387904) 0) by (refine (eq_rect _ (fun z => app Wp0 z (469818574385595 / 4611686018427387904) 0) (eq_rect _ (fun b => app Wp0 _ b 0) (const_ok Hw Wp0 (469818574385595) 4611686018427387904 _ _ _) _ _) _ _); [vm_compute; reflexivity|reflexivity|vm_compute; reflexivity|cbn [Z.abs]; lra|unfold rp0; lra]).
  assert (Ip0 : (469818574385595 / 4611686018427387904) <= rp0 <= (469818574385595 / 4611686018427387904)) by (unfold rp0; lra).
  pose (Wp1 := (nth 1 log_p8 (w0 8))). pose (rp1 := (4481036547991929 / 9007199254740992)).
  assert (Hp1 : app Wp1 rp1 (4481036547991929 / 9007199254740992) 0) by (refine (eq_rect _ (fun z => app Wp1 z (4481036547991929 / 9007199254740992) 0) (eq_rect _ (fun b => app Wp1 _ b 0) (const_ok Hw Wp1 (4481036547991929) 9007199254740992 _ _ _) _ _) _ _); [vm_compute; reflexivity|reflexivity|vm_compute; reflexivity|cbn [Z.abs]; lra|unfold rp1; lra]).
  pose (Wmp1 := fmul Wp0 X). pose (rmp1 := rp0 * x).
  assert (Hmp1 : app Wmp1 rmp1 (1018757 / 50000000000) (452419 / 200000000000000000000000000)) by (refine (mul_w Hw _ _ _ _ _ _ _ _ _ _ Hp0 Hx _ _ _ _ _ _ _); rewrite ?u8; lra).
  assert (Iyp1 : (248737 / 500000) <= rmp1 + rp1 <= (248741 / 500000)) by (pose proof (iv_mul rp0 x _ _ _ _ Ip0 Ix) as (J1 & J2); unfold rp1; change rmp1 with (rp0 * x); split; [eapply Rle_trans; [|apply Rplus_le_compat_r; exact J1]; repeat apply Rmin_case; lra|eapply Rle_trans; [apply Rplus_le_compat_r; exact J2|]; repeat apply Rmax_case; lra]).
  pose (Wyp1 := fadd Wmp1 Wp1). pose (ryp1 := rmp1 + rp1).
  assert (Hyp1 : app Wyp1 ryp1 (248741 / 500000) (2761693 / 50000000000000000000000)) by (refine (add_b Hw _ _ _ _ _ _ _ _ _ _ Hmp1 Hp1 _ _ _); [apply Rabs_le; lra|rewrite ?u8; lra|rewrite ?u8; lra]).
  pose (Wp2 := (nth 2 log_p8 (w0 8))). pose (rp2 := (5298249872337169 / 1125899906842624)).
  assert (Hp2 : app Wp2 rp2 (5298249872337169 / 1125899906842624) 0) by (refine (eq_rect _ (fun z => app Wp2 z (5298249872337169 / 1125899906842624) 0) (eq_rect _ (fun b => app Wp2 _ b 0) (const_ok Hw Wp2 (5298249872337169) 1125899906842624 _ _ _) _ _) _ _); [vm_compute; reflexivity|reflexivity|vm_compute; reflexivity|cbn [Z.abs]; lra|unfold rp2; lra]).
  pose (Wmp2 := fmul Wyp1 X). pose (rmp2 := ryp1 * x).
  assert (Hmp2 : app Wmp2 rmp2 (248741 / 2500000) (220931 / 10000000000000000000000)) by (refine (mul_w Hw _ _ _ _ _ _ _ _ _ _ Hyp1 Hx _ _ _ _ _ _ _); rewrite ?u8; lra).
  assert (Iyp2 : (460629 / 100000) <= rmp2 + rp2 <= (29007 / 6250)) by (pose proof (iv_mul ryp1 x _ _ _ _ Iyp1 Ix) as (J1 & J2); unfold rp2; change rmp2 with (ryp1 * x); split; [eapply Rle_trans; [|apply Rplus_le_compat_r; exact J1]; repeat apply Rmin_case; lra|eapply Rle_trans; [apply Rplus_le_compat_r; exact J2|]; repeat apply Rmax_case; lra]).
  pose (Wyp2 := fadd Wmp2 Wp2). pose (ryp2 := rmp2 + rp2).
  assert (Hyp2 : app Wyp2 ryp2 (29007 / 6250) (537361 / 1000000000000000000000)) by (refine (add_b Hw _ _ _ _ _ _ _ _ _ _ Hmp2 Hp2 _ _ _); [apply Rabs_le; lra|rewrite ?u8; lra|rewrite ?u8; lra]).
  pose (Wp3 := (nth 3 log_p8 (w0 8))). pose (rp3 := (4081083882632599 / 281474976710656)).
  assert (Hp3 : app Wp3 rp3 (4081083882632599 / 281474976710656) 0) by (refine (eq_rect _ (fun z => app Wp3 z (4081083882632599 / 281474976710656) 0) (eq_rect _ (fun b => app Wp3 _ b 0) (const_ok Hw Wp3 (4081083882632599) 281474976710656 _ _ _) _ _) _ _); [vm_compute; reflexivity|reflexivity|vm_compute; reflexivity|cbn [Z.abs]; lra|unfold rp3; lra]).
  pose (Wmp3 := fmul Wyp2 X). pose (rmp3 := ryp2 * x).
  assert (Hmp3 : app Wmp3 rmp3 (29007 / 31250) (1052629 / 5000000000000000000000)) by (refine (mul_w Hw _ _ _ _ _ _ _ _ _ _ Hyp2 Hx _ _ _ _ _ _ _); rewrite ?u8; lra).
  assert (Iyp3 : (67853 / 5000) <= rmp3 + rp3 <= (69501 / 5000)) by (pose proof (iv_mul ryp2 x _ _ _ _ Iyp2 Ix) as (J1 & J2); unfold rp3; change rmp3 with (ryp2 * x); split; [eapply Rle_trans; [|apply Rplus_le_compat_r; exact J1]; repeat apply Rmin_case; lra|eapply Rle_trans; [apply Rplus_le_compat_r; exact J2|]; repeat apply Rmax_case; lra]).
  pose (Wyp3 := fadd Wmp3 Wp3). pose (ryp3 := rmp3 + rp3).
  assert (Hyp3 : app Wyp3 ryp3 (69501 / 5000) (1753759 / 1000000000000000000000)) by (refine (add_b Hw _ _ _ _ _ _ _ _ _ _ Hmp3 Hp3 _ _ _); [apply Rabs_le; lra|rewrite ?u8; lra|rewrite ?u8; lra]).
  pose (Wp4 := (nth 4 log_p8 (w0 8))). pose (rp4 := (5048779460560973 / 281474976710656)).
  assert (Hp4 : app Wp4 rp4 (5048779460560973 / 281474976710656) 0) by (refine (eq_rect _ (fun z => app Wp4 z (5048779460560973 / 281474976710656) 0) (eq_rect _ (fun b => app Wp4 _ b 0) (const_ok Hw Wp4 (5048779460560973) 281474976710656 _ _ _) _ _) _ _); [vm_compute; reflexivity|reflexivity|vm_compute; reflexivity|cbn [Z.abs]; lra|unfold rp4; lra]).
  pose (Wmp4 := fmul Wyp3 X). pose (rmp4 := ryp3 * x).
  assert (Hmp4 : app Wmp4 rmp4 (69501 / 25000) (6593983 / 10000000000000000000000)) by (refine (mul_w Hw _ _ _ _ _ _ _ _ _ _ Hyp3 Hx _ _ _ _ _ _ _); rewrite ?u8; lra).
  assert (Iyp4 : (9473 / 625) <= rmp4 + rp4 <= (161727 / 10000)) by (pose proof (iv_mul ryp3 x _ _ _ _ Iyp3 Ix) as (J1 & J2); unfold rp4; change rmp4 with (ryp3 * x); split; [eapply Rle_trans; [|apply Rplus_le_compat_r; exact J1]; repeat apply Rmin_case; lra|eapply Rle_trans; [apply Rplus_le_compat_r; exact J2|]; repeat apply Rmax_case; lra]).
  pose (Wyp4 := fadd Wmp4 Wp4). pose (ryp4 := rmp4 + rp4).
  assert (Hyp4 : app Wyp4 ryp4 (161727 / 10000) (2454929 / 1000000000000000000000)) by (refine (add_b Hw _ _ _ _ _ _ _ _ _ _ Hmp4 Hp4 _ _ _); [apply Rabs_le; lra|rewrite ?u8; lra|rewrite ?u8; lra]).
  pose (Wp5 := (nth 5 log_p8 (w0 8))). pose (rp5 := (1084859073158047 / 140737488355328)).
  assert (Hp5 : app Wp5 rp5 (1084859073158047 / 140737488355328) 0) by (refine (eq_rect _ (fun z => app Wp5 z (1084859073158047 / 140737488355328) 0) (eq_rect _ (fun b => app Wp5 _ b 0) (const_ok Hw Wp5 (1084859073158047) 140737488355328 _ _ _) _ _) _ _); [vm_compute; reflexivity|reflexivity|vm_compute; reflexivity|cbn [Z.abs]; lra|unfold rp5; lra]).
  pose (Wmp5 := fmul Wyp4 X). pose (rmp5 := ryp4 * x).
  assert (Hmp5 : app Wmp5 rmp5 (161727 / 50000) (8500919 / 10000000000000000000000)) by (refine (mul_w Hw _ _ _ _ _ _ _ _ _ _ Hyp4 Hx _ _ _ _ _ _ _); rewrite ?u8; lra).
  assert (Iyp5 : (55923 / 12500) <= rmp5 + rp5 <= (573801 / 100000)) by (pose proof (iv_mul ryp4 x _ _ _ _ Iyp4 Ix) as (J1 & J2); unfold rp5; change rmp5 with (ryp4 * x); split; [eapply Rle_trans; [|apply Rplus_le_compat_r; exact J1]; repeat apply Rmin_case; lra|eapply Rle_trans; [apply Rplus_le_compat_r; exact J2|]; repeat apply Rmax_case; lra]).
  pose (Wyp5 := fadd Wmp5 Wp5). pose (ryp5 := rmp5 + rp5).
  assert (Hyp5 : app Wyp5 ryp5 (573801 / 100000) (1487139 / 1000000000000000000000)) by (refine (add_b Hw _ _ _ _ _ _ _ _ _ _ Hmp5 Hp5 _ _ _); [apply Rabs_le; lra|rewrite ?u8; lra|rewrite ?u8; lra]).
  pose (Wq0 := (hd (w0 8) log_q8)). pose (rq0 := (3177109032531911 / 281474976710656)).
  assert (Hq0 : app Wq0 rq0 (3177109032531911 / 281474976710656) 0) by (refine (eq_rect _ (fun z => app Wq0 z (3177109032531911 / 281474976710656) 0) (eq_rect _ (fun b => app Wq0 _ b 0) (const_ok Hw Wq0 (3177109032531911) 281474976710656 _ _ _) _ _) _ _); [vm_compute; reflexivity|reflexivity|vm_compute; reflexivity|cbn [Z.abs]; lra|unfold rq0; lra]).
  pose (Wqa := fadd Wq0 X). pose (rqa := rq0 + x).
  assert (Hqa : app Wqa rqa (35273 / 3125) (1253149 / 1000000000000000000000)) by (refine (add_b Hw _ _ _ _ _ _ _ _ _ _ Hq0 Hx _ _ _); [unfold rq0; apply Rabs_le; lra|rewrite ?u8; lra|rewrite ?u8; lra]).
  assert (Iqa : (15604070185948899 / 1407374883553280) <= rqa <= (78512932138988143 / 7036874417766400)) by (change rqa with (rq0 + x); unfold rq0; lra).
  pose (Wq1 := (nth 1 log_q8 (w0 8))). pose (rq1 := (6365263102066739 / 140737488355328)).
  assert (Hq1 : app Wq1 rq1 (6365263102066739 / 140737488355328) 0) by (refine (eq_rect _ (fun z => app Wq1 z (6365263102066739 / 140737488355328) 0) (eq_rect _ (fun b => app Wq1 _ b 0) (const_ok Hw Wq1 (6365263102066739) 140737488355328 _ _ _) _ _) _ _); [vm_compute; reflexivity|reflexivity|vm_compute; reflexivity|cbn [Z.abs]; lra|unfold rq1; lra]).
  pose (Wmq1 := fmul Wqa X). pose (rmq1 := rqa * x).
  assert (Hmq1 : app Wmq1 rmq1 (35273 / 15625) (1253149 / 2500000000000000000000)) by (refine (mul_w Hw _ _ _ _ _ _ _ _ _ _ Hqa Hx _ _ _ _ _ _ _); rewrite ?u8; lra).
  assert (Iyq1 : (107491 / 2500) <= rmq1 + rq1 <= (218933 / 5000)) by (pose proof (iv_mul rqa x _ _ _ _ Iqa Ix) as (J1 & J2); unfold rq1; change rmq1 with (rqa * x); split; [eapply Rle_trans; [|apply Rplus_le_compat_r; exact J1]; repeat apply Rmin_case; lra|eapply Rle_trans; [apply Rplus_le_compat_r; exact J2|]; repeat apply Rmax_case; lra]).
  pose (Wyq1 := fadd Wmq1 Wq1). pose (ryq1 := rmq1 + rq1).
  assert (Hyq1 : app Wyq1 ryq1 (218933 / 5000) (5362549 / 1000000000000000000000)) by (refine (add_b Hw _ _ _ _ _ _ _ _ _ _ Hmq1 Hq1 _ _ _); [apply Rabs_le; lra|rewrite ?u8; lra|rewrite ?u8; lra]).
  pose (Wq2 := (nth 2 log_q8 (w0 8))). pose (rq2 := (5839728035675581 / 70368744177664)).
  assert (Hq2 : app Wq2 rq2 (5839728035675581 / 70368744177664) 0) by (refine (eq_rect _ (fun z => app Wq2 z (5839728035675581 / 70368744177664) 0) (eq_rect _ (fun b => app Wq2 _ b 0) (const_ok Hw Wq2 (5839728035675581) 70368744177664 _ _ _) _ _) _ _); [vm_compute; reflexivity|reflexivity|vm_compute; reflexivity|cbn [Z.abs]; lra|unfold rq2; lra]).
  pose (Wmq2 := fmul Wyq1 X). pose (rmq2 := ryq1 * x).
  assert (Hmq2 : app Wmq2 rmq2 (218933 / 25000) (63899 / 31250000000000000000)) by (refine (mul_w Hw _ _ _ _ _ _ _ _ _ _ Hyq1 Hx _ _ _ _ _ _ _); rewrite ?u8; lra).
  assert (Iyq2 : (371151 / 5000) <= rmq2 + rq2 <= (38699 / 500)) by (pose proof (iv_mul ryq1 x _ _ _ _ Iyq1 Ix) as (J1 & J2); unfold rq2; change rmq2 with (ryq1 * x); split; [eapply Rle_trans; [|apply Rplus_le_compat_r; exact J1]; repeat apply Rmin_case; lra|eapply Rle_trans; [apply Rplus_le_compat_r; exact J2|]; repeat apply Rmax_case; lra]).
  pose (Wyq2 := fadd Wmq2 Wq2). pose (ryq2 := rmq2 + rq2).
  assert (Hyq2 : app Wyq2 ryq2 (38699 / 500) (132971 / 12500000000000000000)) by (refine (add_b Hw _ _ _ _ _ _ _ _ _ _ Hmq2 Hq2 _ _ _); [apply Rabs_le; lra|rewrite ?u8; lra|rewrite ?u8; lra]).
  pose (Wq3 := (nth 3 log_q8 (w0 8))). pose (rq3 := (5007051052723745 / 70368744177664)).
  assert (Hq3 : app Wq3 rq3 (5007051052723745 / 70368744177664) 0) by (refine (eq_rect _ (fun z => app Wq3 z (5007051052723745 / 70368744177664) 0) (eq_rect _ (fun b => app Wq3 _ b 0) (const_ok Hw Wq3 (5007051052723745) 70368744177664 _ _ _) _ _) _ _); [vm_compute; reflexivity|reflexivity|vm_compute; reflexivity|cbn [Z.abs]; lra|unfold rq3; lra]).
  pose (Wmq3 := fmul Wyq2 X). pose (rmq3 := ryq2 * x).
  assert (Hmq3 : app Wmq3 rmq3 (38699 / 2500) (3846117 / 1000000000000000000000)) by (refine (mul_w Hw _ _ _ _ _ _ _ _ _ _ Hyq2 Hx _ _ _ _ _ _ _); rewrite ?u8; lra).
  assert (Iyq3 : (139187 / 2500) <= rmq3 + rq3 <= (307523 / 5000)) by (pose proof (iv_mul ryq2 x _ _ _ _ Iyq2 Ix) as (J1 & J2); unfold rq3; change rmq3 with (ryq2 * x); split; [eapply Rle_trans; [|apply Rplus_le_compat_r; exact J1]; repeat apply Rmin_case; lra|eapply Rle_trans; [apply Rplus_le_compat_r; exact J2|]; repeat apply Rmax_case; lra]).
  pose (Wyq3 := fadd Wmq3 Wq3). pose (ryq3 := rmq3 + rq3).
  assert (Hyq3 : app Wyq3 ryq3 (307523 / 5000) (21349 / 2000000000000000000)) by (refine (add_b Hw _ _ _ _ _ _ _ _ _ _ Hmq3 Hq3 _ _ _); [apply Rabs_le; lra|rewrite ?u8; lra|rewrite ?u8; lra]).
  pose (Wq4 := (nth 4 log_q8 (w0 8))). pose (rq4 := (3254577219474137 / 140737488355328)).
  assert (Hq4 : app Wq4 rq4 (3254577219474137 / 140737488355328) 0) by (refine (eq_rect _ (fun z => app Wq4 z (3254577219474137 / 140737488355328) 0) (eq_rect _ (fun b => app Wq4 _ b 0) (const_ok Hw Wq4 (3254577219474137) 140737488355328 _ _ _) _ _) _ _); [vm_compute; reflexivity|reflexivity|vm_compute; reflexivity|cbn [Z.abs]; lra|unfold rq4; lra]).
  pose (Wmq4 := fmul Wyq3 X). pose (rmq4 := ryq3 * x).
  assert (Hmq4 : app Wmq4 rmq4 (307523 / 25000) (3500577 / 1000000000000000000000)) by (refine (mul_w Hw _ _ _ _ _ _ _ _ _ _ Hyq3 Hx _ _ _ _ _ _ _); rewrite ?u8; lra).
  assert (Iyq4 : (54121 / 5000) <= rmq4 + rq4 <= (1271 / 80)) by (pose proof (iv_mul ryq3 x _ _ _ _ Iyq3 Ix) as (J1 & J2); unfold rq4; change rmq4 with (ryq3 * x); split; [eapply Rle_trans; [|apply Rplus_le_compat_r; exact J1]; repeat apply Rmin_case; lra|eapply Rle_trans; [apply Rplus_le_compat_r; exact J2|]; repeat apply Rmax_case; lra]).
  pose (Wyq4 := fadd Wmq4 Wq4). pose (ryq4 := rmq4 + rq4).
  assert (Hyq4 : app Wyq4 ryq4 (1271 / 80) (1316111 / 250000000000000000000)) by (refine (add_b Hw _ _ _ _ _ _ _ _ _ _ Hmq4 Hq4 _ _ _); [apply Rabs_le; lra|rewrite ?u8; lra|rewrite ?u8; lra]).
  pose (Wv := fdiv X Wyq4). pose (rv := x / ryq4).
  assert (Sv : sapp t 1 Wv rv (9238559 / 100000000) (5518941 / 100000000000000000000000)) by (refine (s_div Hw t (1 / 9671406556917033397649408) HT 1 _ _ _ _ _ _ _ _ (54121 / 5000) (2246627 / 50000000000000000000000) _ _ Sx Hyq4 ltac:(lia) _ _ _ _ _ _ _ _ _); [change ryq4 with (rmq4 + rq4); rewrite Rabs_pos_eq; lra|split; lra|lra|lra|lra|lra|split; lra|lra|rewrite ?u8; lra]).
  pose (Wxx := fmul X X). pose (rxx := x * x).
  assert (Sxx : sapp t 2 Wxx rxx 1 (69389 / 625000000000000000000)) by (refine (s_mul Hw t (1 / 9671406556917033397649408) HT 1 1 2 _ _ _ _ _ _ _ _ _ _ Sx Sx eq_refl ltac:(lia) _ _ _ _ _ _ _); rewrite ?u8; lra).
  assert (Syp5 : sapp t 0 Wyp5 ryp5 (573801 / 100000) (1487139 / 1000000000000000000000)) by (exact (sapp0 t _ _ _ _ Hyp5)).
  pose (Wxy := fmul Wxx Wyp5). pose (rxy := rxx * ryp5).
  assert (Sxy : sapp t 2 Wxy rxy (573801 / 100000) (1380617 / 500000000000000000000)) by (refine (s_mul Hw t (1 / 9671406556917033397649408) HT 2 0 2 _ _ _ _ _ _ _ _ _ _ Sxx Syp5 eq_refl ltac:(lia) _ _ _ _ _ _ _); rewrite ?u8; lra).
  pose (Wr := fmul Wxy Wv). pose (rr := rxy * rv).
  assert (Sr : sapp t 3 Wr rr (1060219 / 2000000) (788287 / 1250000000000000000000)) by (refine (s_mul Hw t (1 / 9671406556917033397649408) HT 2 1 3 _ _ _ _ _ _ _ _ _ _ Sxy Sv eq_refl ltac:(lia) _ _ _ _ _ _ _); rewrite ?u8; lra).
  exists rr. split; [exact Sr|]. replace rr with (x * x * ((((((469818574385595 / 4611686018427387904) * x + (4481036547991929 / 9007199254740992)) * x + (5298249872337169 / 1125899906842624)) * x + (4081083882632599 / 281474976710656)) * x + (5048779460560973 / 281474976710656)) * x + (1084859073158047 / 140737488355328)) * (x / ((((((3177109032531911 / 281474976710656) + x) * x + (6365263102066739 / 140737488355328)) * x + (5839728035675581 / 70368744177664)) * x + (5007051052723745 / 70368744177664)) * x + (3254577219474137 / 140737488355328)))); [|reflexivity]. eapply Rle_trans; [exact PD|]. apply Rmult_le_compat_l; lra.
Qed.
Lemma log_y_ok8_3 X t : log_in8 X t -> (- 13 / 100) <= real X <= 0 -> exists y, sapp t 3 (log_y8 X) y (2777799 / 5000000) (2741123 / 5000000000000000000000) /\ Rabs (y - (ln (1 + real X) - real X + real X * real X / 2)) <= (4931929 / 100000000000000000000000) * t.
Proof.
  intros (F & RX & HX & SC) Ix. set (Hw := fp8). pose proof (scale_tiny8 t SC) as HT. destruct SC as (T1 & T2). rewrite u8 in T1. pose proof (log_poly8 (real X) RX) as PD.
  pose proof (app_exact X (13 / 100) F ltac:(apply Rabs_le; lra)) as Hx. set (x := real X) in *.
  assert (Sx : sapp t 1 X x 1 0) by (split; [exact F|]; cbn [pow]; split; [lra|unfold x; rewrite Rminus_diag_eq, Rabs_R0 by reflexivity; lra]).
  pose (Wp0 := (nth 0 log_p8 (w0 8))). pose (rp0 := (469818574385595 / 4611686018427387904)).
  assert (Hp0 : app Wp0 rp0 (469818574385595 / 4611686018427387904) 0) by (refine (eq_rect _ (fun z => app Wp0 z (469818574385595 / 4611686018427387904) 0) (eq_rect _ (fun b => app Wp0 _ b 0) (const_ok Hw Wp0 (469818574385595) 4611686018427387904 _ _ _) _ _) _ _); [vm_compute; reflexivity|reflexivity|vm_compute; reflexivity|cbn [Z.abs]; lra|unfold rp0; lra]).
  assert (Ip0 : (469818574385595 / 4611686018427387904) <= rp0 <= (469818574385595 / 4611686018427387904)) by (unfold rp0; lra).
  pose (Wp1 := (nth 1 log_p8 (w0 8))). pose (rp1 := (4481036547991929 / 9007199254740992)).
  assert (Hp1 : app Wp1 rp1 (4481036547991929 / 9007199254740992) 0) by (refine (eq_rect _ (fun z => app Wp1 z (4481036547991929 / 9007199254740992) 0) (eq_rect _ (fun b => app Wp1 _ b 0) (const_ok Hw Wp1 (4481036547991929) 9007199254740992 _ _ _) _ _) _ _); [vm_compute; reflexivity|reflexivity|vm_compute; reflexivity|cbn [Z.abs]; lra|unfold rp1; lra]).
  pose (Wmp1 := fmul Wp0 X). pose (rmp1 := rp0 * x).
  assert (Hmp1 : app Wmp1 rmp1 (41387 / 3125000000) (735181 / 500000000000000000000000000)) by (refine (mul_w Hw _ _ _ _ _ _ _ _ _ _ Hp0 Hx _ _ _ _ _ _ _); rewrite ?u8; lra).
  assert (Iyp1 : (497481 / 1000000) <= rmp1 + rp1 <= (99499 / 200000)) by (pose proof (iv_mul rp0 x _ _ _ _ Ip0 Ix) as (J1 & J2); unfold rp1; change rmp1 with (rp0 * x); split; [eapply Rle_trans; [|apply Rplus_le_compat_r; exact J1]; repeat apply Rmin_case; lra|eapply Rle_trans; [apply Rplus_le_compat_r; exact J2|]; repeat apply Rmax_case; lra]).
  pose (Wyp1 := fadd Wmp1 Wp1). pose (ryp1 := rmp1 + rp1).
  assert (Hyp1 : app Wyp1 ryp1 (99499 / 200000) (1380863 / 25000000000000000000000)) by (refine (add_b Hw _ _ _ _ _ _ _ _ _ _ Hmp1 Hp1 _ _ _); [apply Rabs_le; lra|rewrite ?u8; lra|rewrite ?u8; lra]).
  pose (Wp2 := (nth 2 log_p8 (w0 8))). pose (rp2 := (5298249872337169 / 1125899906842624)).
  assert (Hp2 : app Wp2 rp2 (5298249872337169 / 1125899906842624) 0) by (refine (eq_rect _ (fun z => app Wp2 z (5298249872337169 / 1125899906842624) 0) (eq_rect _ (fun b => app Wp2 _ b 0) (const_ok Hw Wp2 (5298249872337169) 1125899906842624 _ _ _) _ _) _ _); [vm_compute; reflexivity|reflexivity|vm_compute; reflexivity|cbn [Z.abs]; lra|unfold rp2; lra]).
  pose (Wmp2 := fmul Wyp1 X). pose (rmp2 := ryp1 * x).
  assert (Hmp2 : app Wmp2 rmp2 (1293487 / 20000000) (1436079 / 100000000000000000000000)) by (refine (mul_w Hw _ _ _ _ _ _ _ _ _ _ Hyp1 Hx _ _ _ _ _ _ _); rewrite ?u8; lra).
  assert (Iyp2 : (464111 / 100000) <= rmp2 + rp2 <= (23529 / 5000)) by (pose proof (iv_mul ryp1 x _ _ _ _ Iyp1 Ix) as (J1 & J2); unfold rp2; change rmp2 with (ryp1 * x); split; [eapply Rle_trans; [|apply Rplus_le_compat_r; exact J1]; repeat apply Rmin_case; lra|eapply Rle_trans; [apply Rplus_le_compat_r; exact J2|]; repeat apply Rmax_case; lra]).
  pose (Wyp2 := fadd Wmp2 Wp2). pose (ryp2 := rmp2 + rp2).
  assert (Hyp2 : app Wyp2 ryp2 (23529 / 5000) (167753 / 312500000000000000000)) by (refine (add_b Hw _ _ _ _ _ _ _ _ _ _ Hmp2 Hp2 _ _ _); [apply Rabs_le; lra|rewrite ?u8; lra|rewrite ?u8; lra]).
  pose (Wp3 := (nth 3 log_p8 (w0 8))). pose (rp3 := (4081083882632599 / 281474976710656)).
  assert (Hp3 : app Wp3 rp3 (4081083882632599 / 281474976710656) 0) by (refine (eq_rect _ (fun z => app Wp3 z (4081083882632599 / 281474976710656) 0) (eq_rect _ (fun b => app Wp3 _ b 0) (const_ok Hw Wp3 (4081083882632599) 281474976710656 _ _ _) _ _) _ _); [vm_compute; reflexivity|reflexivity|vm_compute; reflexivity|cbn [Z.abs]; lra|unfold rp3; lra]).
  pose (Wmp3 := fmul Wyp2 X). pose (rmp3 := ryp2 * x).
  assert (Hmp3 : app Wmp3 rmp3 (305877 / 500000) (344259 / 2500000000000000000000)) by (refine (mul_w Hw _ _ _ _ _ _ _ _ _ _ Hyp2 Hx _ _ _ _ _ _ _); rewrite ?u8; lra).
  assert (Iyp3 : (138871 / 10000) <= rmp3 + rp3 <= (14499 / 1000)) by (pose proof (iv_mul ryp2 x _ _ _ _ Iyp2 Ix) as (J1 & J2); unfold rp3; change rmp3 with (ryp2 * x); split; [eapply Rle_trans; [|apply Rplus_le_compat_r; exact J1]; repeat apply Rmin_case; lra|eapply Rle_trans; [apply Rplus_le_compat_r; exact J2|]; repeat apply Rmax_case; lra]).
  pose (Wyp3 := fadd Wmp3 Wp3). pose (ryp3 := rmp3 + rp3).
  assert (Hyp3 : app Wyp3 ryp3 (14499 / 1000) (218427 / 125000000000000000000)) by (refine (add_b Hw _ _ _ _ _ _ _ _ _ _ Hmp3 Hp3 _ _ _); [apply Rabs_le; lra|rewrite ?u8; lra|rewrite ?u8; lra]).
  pose (Wp4 := (nth 4 log_p8 (w0 8))). pose (rp4 := (5048779460560973 / 281474976710656)).
  assert (Hp4 : app Wp4 rp4 (5048779460560973 / 281474976710656) 0) by (refine (eq_rect _ (fun z => app Wp4 z (5048779460560973 / 281474976710656) 0) (eq_rect _ (fun b => app Wp4 _ b 0) (const_ok Hw Wp4 (5048779460560973) 281474976710656 _ _ _) _ _) _ _); [vm_compute; reflexivity|reflexivity|vm_compute; reflexivity|cbn [Z.abs]; lra|unfold rp4; lra]).
  pose (Wmp4 := fmul Wyp3 X). pose (rmp4 := ryp3 * x).
  assert (Hmp4 : app Wmp4 rmp4 (188487 / 100000) (4364267 / 10000000000000000000000)) by (refine (mul_w Hw _ _ _ _ _ _ _ _ _ _ Hyp3 Hx _ _ _ _ _ _ _); rewrite ?u8; lra).
  assert (Iyp4 : (160519 / 10000) <= rmp4 + rp4 <= (179369 / 10000)) by (pose proof (iv_mul ryp3 x _ _ _ _ Iyp3 Ix) as (J1 & J2); unfold rp4; change rmp4 with (ryp3 * x); split; [eapply Rle_trans; [|apply Rplus_le_compat_r; exact J1]; repeat apply Rmin_case; lra|eapply Rle_trans; [apply Rplus_le_compat_r; exact J2|]; repeat apply Rmax_case; lra]).
  pose (Wyp4 := fadd Wmp4 Wp4). pose (ryp4 := rmp4 + rp4).
  assert (Hyp4 : app Wyp4 ryp4 (179369 / 10000) (2427823 / 1000000000000000000000)) by (refine (add_b Hw _ _ _ _ _ _ _ _ _ _ Hmp4 Hp4 _ _ _); [apply Rabs_le; lra|rewrite ?u8; lra|rewrite ?u8; lra]).
  pose (Wp5 := (nth 5 log_p8 (w0 8))). pose (rp5 := (1084859073158047 / 140737488355328)).
  assert (Hp5 : app Wp5 rp5 (1084859073158047 / 140737488355328) 0) by (refine (eq_rect _ (fun z => app Wp5 z (1084859073158047 / 140737488355328) 0) (eq_rect _ (fun b => app Wp5 _ b 0) (const_ok Hw Wp5 (1084859073158047) 140737488355328 _ _ _) _ _) _ _); [vm_compute; reflexivity|reflexivity|vm_compute; reflexivity|cbn [Z.abs]; lra|unfold rp5; lra]).
  pose (Wmp5 := fmul Wyp4 X). pose (rmp5 := ryp4 * x).
  assert (Hmp5 : app Wmp5 rmp5 (2331797 / 1000000) (1148997 / 2000000000000000000000)) by (refine (mul_w Hw _ _ _ _ _ _ _ _ _ _ Hyp4 Hx _ _ _ _ _ _ _); rewrite ?u8; lra).
  assert (Iyp5 : (537659 / 100000) <= rmp5 + rp5 <= (770839 / 100000)) by (pose proof (iv_mul ryp4 x _ _ _ _ Iyp4 Ix) as (J1 & J2); unfold rp5; change rmp5 with (ryp4 * x); split; [eapply Rle_trans; [|apply Rplus_le_compat_r; exact J1]; repeat apply Rmin_case; lra|eapply Rle_trans; [apply Rplus_le_compat_r; exact J2|]; repeat apply Rmax_case; lra]).
  pose (Wyp5 := fadd Wmp5 Wp5). pose (ryp5 := rmp5 + rp5).
  assert (Hyp5 : app Wyp5 ryp5 (770839 / 100000) (715151 / 500000000000000000000)) by (refine (add_b Hw _ _ _ _ _ _ _ _ _ _ Hmp5 Hp5 _ _ _); [apply Rabs_le; lra|rewrite ?u8; lra|rewrite ?u8; lra]).
  pose (Wq0 := (hd (w0 8) log_q8)). pose (rq0 := (3177109032531911 / 281474976710656)).
  assert (Hq0 : app Wq0 rq0 (3177109032531911 / 281474976710656) 0) by (refine (eq_rect _ (fun z => app Wq0 z (3177109032531911 / 281474976710656) 0) (eq_rect _ (fun b => app Wq0 _ b 0) (const_ok Hw Wq0 (3177109032531911) 281474976710656 _ _ _) _ _) _ _); [vm_compute; reflexivity|reflexivity|vm_compute; reflexivity|cbn [Z.abs]; lra|unfold rq0; lra]).
  pose (Wqa := fadd Wq0 X). pose (rqa := rq0 + x).
  assert (Hqa : app Wqa rqa (35273 / 3125) (1253149 / 1000000000000000000000)) by (refine (add_b Hw _ _ _ _ _ _ _ _ _ _ Hq0 Hx _ _ _); [unfold rq0; apply Rabs_le; lra|rewrite ?u8; lra|rewrite ?u8; lra]).
  assert (Iqa : (78512932138988143 / 7036874417766400) <= rqa <= (3177109032531911 / 281474976710656)) by (change rqa with (rq0 + x); unfold rq0; lra).
  pose (Wq1 := (nth 1 log_q8 (w0 8))). pose (rq1 := (6365263102066739 / 140737488355328)).
  assert (Hq1 : app Wq1 rq1 (6365263102066739 / 140737488355328) 0) by (refine (eq_rect _ (fun z => app Wq1 z (6365263102066739 / 140737488355328) 0) (eq_rect _ (fun b => app Wq1 _ b 0) (const_ok Hw Wq1 (6365263102066739) 140737488355328 _ _ _) _ _) _ _); [vm_compute; reflexivity|reflexivity|vm_compute; reflexivity|cbn [Z.abs]; lra|unfold rq1; lra]).
  pose (Wmq1 := fmul Wqa X). pose (rmq1 := rqa * x).
  assert (Hmq1 : app Wmq1 rmq1 (1467357 / 1000000) (814547 / 2500000000000000000000)) by (refine (mul_w Hw _ _ _ _ _ _ _ _ _ _ Hqa Hx _ _ _ _ _ _ _); rewrite ?u8; lra).
  assert (Iyq1 : (87521 / 2000) <= rmq1 + rq1 <= (11307 / 250)) by (pose proof (iv_mul rqa x _ _ _ _ Iqa Ix) as (J1 & J2); unfold rq1; change rmq1 with (rqa * x); split; [eapply Rle_trans; [|apply Rplus_le_compat_r; exact J1]; repeat apply Rmin_case; lra|eapply Rle_trans; [apply Rplus_le_compat_r; exact J2|]; repeat apply Rmax_case; lra]).
  pose (Wyq1 := fadd Wmq1 Wq1). pose (ryq1 := rmq1 + rq1).
  assert (Hyq1 : app Wyq1 ryq1 (11307 / 250) (83549 / 15625000000000000000)) by (refine (add_b Hw _ _ _ _ _ _ _ _ _ _ Hmq1 Hq1 _ _ _); [apply Rabs_le; lra|rewrite ?u8; lra|rewrite ?u8; lra]).
  pose (Wq2 := (nth 2 log_q8 (w0 8))). pose (rq2 := (5839728035675581 / 70368744177664)).
  assert (Hq2 : app Wq2 rq2 (5839728035675581 / 70368744177664) 0) by (refine (eq_rect _ (fun z => app Wq2 z (5839728035675581 / 70368744177664) 0) (eq_rect _ (fun b => app Wq2 _ b 0) (const_ok Hw Wq2 (5839728035675581) 70368744177664 _ _ _) _ _) _ _); [vm_compute; reflexivity|reflexivity|vm_compute; reflexivity|cbn [Z.abs]; lra|unfold rq2; lra]).
  pose (Wmq2 := fmul Wyq1 X). pose (rmq2 := ryq1 * x).
  assert (Hmq2 : app Wmq2 rmq2 (146991 / 25000) (1347899 / 1000000000000000000000)) by (refine (mul_w Hw _ _ _ _ _ _ _ _ _ _ Hyq1 Hx _ _ _ _ _ _ _); rewrite ?u8; lra).
  assert (Iyq2 : (385539 / 5000) <= rmq2 + rq2 <= (207469 / 2500)) by (pose proof (iv_mul ryq1 x _ _ _ _ Iyq1 Ix) as (J1 & J2); unfold rq2; change rmq2 with (ryq1 * x); split; [eapply Rle_trans; [|apply Rplus_le_compat_r; exact J1]; repeat apply Rmin_case; lra|eapply Rle_trans; [apply Rplus_le_compat_r; exact J2|]; repeat apply Rmax_case; lra]).
  pose (Wyq2 := fadd Wmq2 Wq2). pose (ryq2 := rmq2 + rq2).
  assert (Hyq2 : app Wyq2 ryq2 (207469 / 2500) (528069 / 50000000000000000000)) by (refine (add_b Hw _ _ _ _ _ _ _ _ _ _ Hmq2 Hq2 _ _ _); [apply Rabs_le; lra|rewrite ?u8; lra|rewrite ?u8; lra]).
  pose (Wq3 := (nth 3 log_q8 (w0 8))). pose (rq3 := (5007051052723745 / 70368744177664)).
  assert (Hq3 : app Wq3 rq3 (5007051052723745 / 70368744177664) 0) by (refine (eq_rect _ (fun z => app Wq3 z (5007051052723745 / 70368744177664) 0) (eq_rect _ (fun b => app Wq3 _ b 0) (const_ok Hw Wq3 (5007051052723745) 70368744177664 _ _ _) _ _) _ _); [vm_compute; reflexivity|reflexivity|vm_compute; reflexivity|cbn [Z.abs]; lra|unfold rq3; lra]).
  pose (Wmq3 := fmul Wyq2 X). pose (rmq3 := ryq2 * x).
  assert (Hmq3 : app Wmq3 rmq3 (1078839 / 100000) (642683 / 250000000000000000000)) by (refine (mul_w Hw _ _ _ _ _ _ _ _ _ _ Hyq2 Hx _ _ _ _ _ _ _); rewrite ?u8; lra).
  assert (Iyq3 : (30183 / 500) <= rmq3 + rq3 <= (142309 / 2000)) by (pose proof (iv_mul ryq2 x _ _ _ _ Iyq2 Ix) as (J1 & J2); unfold rq3; change rmq3 with (ryq2 * x); split; [eapply Rle_trans; [|apply Rplus_le_compat_r; exact J1]; repeat apply Rmin_case; lra|eapply Rle_trans; [apply Rplus_le_compat_r; exact J2|]; repeat apply Rmax_case; lra]).
  pose (Wyq3 := fadd Wmq3 Wq3). pose (ryq3 := rmq3 + rq3).
  assert (Hyq3 : app Wyq3 ryq3 (142309 / 2000) (1047047 / 100000000000000000000)) by (refine (add_b Hw _ _ _ _ _ _ _ _ _ _ Hmq3 Hq3 _ _ _); [apply Rabs_le; lra|rewrite ?u8; lra|rewrite ?u8; lra]).
  pose (Wq4 := (nth 4 log_q8 (w0 8))). pose (rq4 := (3254577219474137 / 140737488355328)).
  assert (Hq4 : app Wq4 rq4 (3254577219474137 / 140737488355328) 0) by (refine (eq_rect _ (fun z => app Wq4 z (3254577219474137 / 140737488355328) 0) (eq_rect _ (fun b => app Wq4 _ b 0) (const_ok Hw Wq4 (3254577219474137) 140737488355328 _ _ _) _ _) _ _); [vm_compute; reflexivity|reflexivity|vm_compute; reflexivity|cbn [Z.abs]; lra|unfold rq4; lra]).
  pose (Wmq4 := fmul Wyq3 X). pose (rmq4 := ryq3 * x).
  assert (Hmq4 : app Wmq4 rmq4 (1850017 / 200000) (2388127 / 1000000000000000000000)) by (refine (mul_w Hw _ _ _ _ _ _ _ _ _ _ Hyq3 Hx _ _ _ _ _ _ _); rewrite ?u8; lra).
  assert (Iyq4 : (111 / 8) <= rmq4 + rq4 <= (57813 / 2500)) by (pose proof (iv_mul ryq3 x _ _ _ _ Iyq3 Ix) as (J1 & J2); unfold rq4; change rmq4 with (ryq3 * x); split; [eapply Rle_trans; [|apply Rplus_le_compat_r; exact J1]; repeat apply Rmin_case; lra|eapply Rle_trans; [apply Rplus_le_compat_r; exact J2|]; repeat apply Rmax_case; lra]).
  pose (Wyq4 := fadd Wmq4 Wq4). pose (ryq4 := rmq4 + rq4).
  assert (Hyq4 : app Wyq4 ryq4 (57813 / 2500) (247777 / 50000000000000000000)) by (refine (add_b Hw _ _ _ _ _ _ _ _ _ _ Hmq4 Hq4 _ _ _); [apply Rabs_le; lra|rewrite ?u8; lra|rewrite ?u8; lra]).
  pose (Wv := fdiv X Wyq4). pose (rv := x / ryq4).
  assert (Sv : sapp t 1 Wv rv (900901 / 12500000) (3374259 / 100000000000000000000000)) by (refine (s_div Hw t (1 / 9671406556917033397649408) HT 1 _ _ _ _ _ _ _ _ (111 / 8) (1287049 / 50000000000000000000000) _ _ Sx Hyq4 ltac:(lia) _ _ _ _ _ _ _ _ _); [change ryq4 with (rmq4 + rq4); rewrite Rabs_pos_eq; lra|split; lra|lra|lra|lra|lra|split; lra|lra|rewrite ?u8; lra]).
  pose (Wxx := fmul X X). pose (rxx := x * x).
  assert (Sxx : sapp t 2 Wxx rxx 1 (69389 / 625000000000000000000)) by (refine (s_mul Hw t (1 / 9671406556917033397649408) HT 1 1 2 _ _ _ _ _ _ _ _ _ _ Sx Sx eq_refl ltac:(lia) _ _ _ _ _ _ _); rewrite ?u8; lra).
  assert (Syp5 : sapp t 0 Wyp5 ryp5 (770839 / 100000) (715151 / 500000000000000000000)) by (exact (sapp0 t _ _ _ _ Hyp5)).
  pose (Wxy := fmul Wxx Wyp5). pose (rxy := rxx * ryp5).
  assert (Sxy : sapp t 2 Wxy rxy (770839 / 100000) (314191 / 100000000000000000000)) by (refine (s_mul Hw t (1 / 9671406556917033397649408) HT 2 0 2 _ _ _ _ _ _ _ _ _ _ Sxx Syp5 eq_refl ltac:(lia) _ _ _ _ _ _ _); rewrite ?u8; lra).
  pose (Wr := fmul Wxy Wv). pose (rr := rxy * rv).
  assert (Sr : sapp t 3 Wr rr (2777799 / 5000000) (2741123 / 5000000000000000000000)) by (refine (s_mul Hw t (1 / 9671406556917033397649408) HT 2 1 3 _ _ _ _ _ _ _ _ _ _ Sxy Sv eq_refl ltac:(lia) _ _ _ _ _ _ _); rewrite ?u8; lra).
  exists rr. split; [exact Sr|]. replace rr with (x * x * ((((((469818574385595 / 4611686018427387904) * x + (4481036547991929 / 9007199254740992)) * x + (5298249872337169 / 1125899906842624)) * x + (4081083882632599 / 281474976710656)) * x + (5048779460560973 / 281474976710656)) * x + (1084859073158047 / 140737488355328)) * (x / ((((((3177109032531911 / 281474976710656) + x) * x + (6365263102066739 / 140737488355328)) * x + (5839728035675581 / 70368744177664)) * x + (5007051052723745 / 70368744177664)) * x + (3254577219474137 / 140737488355328)))); [|reflexivity]. eapply Rle_trans; [exact PD|]. apply Rmult_le_compat_l; lra.
Qed.
Lemma log_y_ok8_4 X t : log_in8 X t -> 0 <= real X <= (1 / 5) -> exists y, sapp t 3 (log_y8 X) y (1030413 / 2000000) (271611 / 500000000000000000000) /\ Rabs (y - (ln (1 + real X) - real X + real X * real X / 2)) <= (4931929 / 100000000000000000000000) * t.
Proof.
  intros (F & RX & HX & SC) Ix. set (Hw := fp8). pose proof (scale_tiny8 t SC) as HT. destruct SC as (T1 & T2). rewrite u8 in T1. pose proof (log_poly8 (real X) RX) as PD.
  pose proof (app_exact X (1 / 5) F ltac:(apply Rabs_le; lra)) as Hx. set (x := real X) in *.
  assert (Sx : sapp t 1 X x 1 0) by (split; [exact F|]; cbn [pow]; split; [lra|unfold x; rewrite Rminus_diag_eq, Rabs_R0 by reflexivity; lra]).
  pose (Wp0 := (nth 0 log_p8 (w0 8))). pose (rp0 := (469818574385595 / 4611686018427387904)).
  assert (Hp0 : app Wp0 rp0 (469818574385595 / 4611686018427387904) 0) by (refine (eq_rect _ (fun z => app Wp0 z (469818574385595 / 4611686018427387904) 0) (eq_rect _ (fun b => app Wp0 _ b 0) (const_ok Hw Wp0 (469818574385595) 4611686018427387904 _ _ _) _ _) _ _); [vm_compute; reflexivity|reflexivity|vm_compute; reflexivity|cbn [Z.abs]; lra|unfold rp0; lra]).
  assert (Ip0 : (469818574385595 / 4611686018427387904) <= rp0 <= (469818574385595 / 4611686018427387904)) by (unfold rp0; lra).
  pose (Wp1 := (nth 1 log_p8 (w0 8))). pose (rp1 := (4481036547991929 / 9007199254740992)).
  assert (Hp1 : app Wp1 rp1 (4481036547991929 / 9007199254740992) 0) by (refine (eq_rect _ (fun z => app Wp1 z (4481036547991929 / 9007199254740992) 0) (eq_rect _ (fun b => app Wp1 _ b 0) (const_ok Hw Wp1 (4481036547991929) 9007199254740992 _ _ _) _ _) _ _); [vm_compute; reflexivity|reflexivity|vm_compute; reflexivity|cbn [Z.abs]; lra|unfold rp1; lra]).
  pose (Wmp1 := fmul Wp0 X). pose (rmp1 := rp0 * x).
  assert (Hmp1 : app Wmp1 rmp1 (1018757 / 50000000000) (452419 / 200000000000000000000000000)) by (refine (mul_w Hw _ _ _ _ _ _ _ _ _ _ Hp0 Hx _ _ _ _ _ _ _); rewrite ?u8; lra).
  assert (Iyp1 : (248747 / 500000) <= rmp1 + rp1 <= (124379 / 250000)) by (pose proof (iv_mul rp0 x _ _ _ _ Ip0 Ix) as (J1 & J2); unfold rp1; change rmp1 with (rp0 * x); split; [eapply Rle_trans; [|apply Rplus_le_compat_r; exact J1]; repeat apply Rmin_case; lra|eapply Rle_trans; [apply Rplus_le_compat_r; exact J2|]; repeat apply Rmax_case; lra]).
  pose (Wyp1 := fadd Wmp1 Wp1). pose (ryp1 := rmp1 + rp1).
  assert (Hyp1 : app Wyp1 ryp1 (124379 / 250000) (1380941 / 25000000000000000000000)) by (refine (add_b Hw _ _ _ _ _ _ _ _ _ _ Hmp1 Hp1 _ _ _); [apply Rabs_le; lra|rewrite ?u8; lra|rewrite ?u8; lra]).
  pose (Wp2 := (nth 2 log_p8 (w0 8))). pose (rp2 := (5298249872337169 / 1125899906842624)).
  assert (Hp2 : app Wp2 rp2 (5298249872337169 / 1125899906842624) 0) by (refine (eq_rect _ (fun z => app Wp2 z (5298249872337169 / 1125899906842624) 0) (eq_rect _ (fun b => app Wp2 _ b 0) (const_ok Hw Wp2 (5298249872337169) 1125899906842624 _ _ _) _ _) _ _); [vm_compute; reflexivity|reflexivity|vm_compute; reflexivity|cbn [Z.abs]; lra|unfold rp2; lra]).
  pose (Wmp2 := fmul Wyp1 X). pose (rmp2 := ryp1 * x).
  assert (Hmp2 : app Wmp2 rmp2 (124379 / 1250000) (2209461 / 100000000000000000000000)) by (refine (mul_w Hw _ _ _ _ _ _ _ _ _ _ Hyp1 Hx _ _ _ _ _ _ _); rewrite ?u8; lra).
  assert (Iyp2 : (470579 / 100000) <= rmp2 + rp2 <= (48053 / 10000)) by (pose proof (iv_mul ryp1 x _ _ _ _ Iyp1 Ix) as (J1 & J2); unfold rp2; change rmp2 with (ryp1 * x); split; [eapply Rle_trans; [|apply Rplus_le_compat_r; exact J1]; repeat apply Rmin_case; lra|eapply Rle_trans; [apply Rplus_le_compat_r; exact J2|]; repeat apply Rmax_case; lra]).
  pose (Wyp2 := fadd Wmp2 Wp2). pose (ryp2 := rmp2 + rp2).
  assert (Hyp2 : app Wyp2 ryp2 (48053 / 10000) (5555901 / 10000000000000000000000)) by (refine (add_b Hw _ _ _ _ _ _ _ _ _ _ Hmp2 Hp2 _ _ _); [apply Rabs_le; lra|rewrite ?u8; lra|rewrite ?u8; lra]).
  pose (Wp3 := (nth 3 log_p8 (w0 8))). pose (rp3 := (4081083882632599 / 281474976710656)).
  assert (Hp3 : app Wp3 rp3 (4081083882632599 / 281474976710656) 0) by (refine (eq_rect _ (fun z => app Wp3 z (4081083882632599 / 281474976710656) 0) (eq_rect _ (fun b => app Wp3 _ b 0) (const_ok Hw Wp3 (4081083882632599) 281474976710656 _ _ _) _ _) _ _); [vm_compute; reflexivity|reflexivity|vm_compute; reflexivity|cbn [Z.abs]; lra|unfold rp3; lra]).
  pose (Wmp3 := fmul Wyp2 X). pose (rmp3 := ryp2 * x).
  assert (Hmp3 : app Wmp3 rmp3 (48053 / 50000) (544543 / 2500000000000000000000)) by (refine (mul_w Hw _ _ _ _ _ _ _ _ _ _ Hyp2 Hx _ _ _ _ _ _ _); rewrite ?u8; lra).
  assert (Iyp3 : (144989 / 10000) <= rmp3 + rp3 <= (773 / 50)) by (pose proof (iv_mul ryp2 x _ _ _ _ Iyp2 Ix) as (J1 & J2); unfold rp3; change rmp3 with (ryp2 * x); split; [eapply Rle_trans; [|apply Rplus_le_compat_r; exact J1]; repeat apply Rmin_case; lra|eapply Rle_trans; [apply Rplus_le_compat_r; exact J2|]; repeat apply Rmax_case; lra]).
  pose (Wyp3 := fadd Wmp3 Wp3). pose (ryp3 := rmp3 + rp3).
  assert (Hyp3 : app Wyp3 ryp3 (773 / 50) (967111 / 500000000000000000000)) by (refine (add_b Hw _ _ _ _ _ _ _ _ _ _ Hmp3 Hp3 _ _ _); [apply Rabs_le; lra|rewrite ?u8; lra|rewrite ?u8; lra]).
  pose (Wp4 := (nth 4 log_p8 (w0 8))). pose (rp4 := (5048779460560973 / 281474976710656)).
  assert (Hp4 : app Wp4 rp4 (5048779460560973 / 281474976710656) 0) by (refine (eq_rect _ (fun z => app Wp4 z (5048779460560973 / 281474976710656) 0) (eq_rect _ (fun b => app Wp4 _ b 0) (const_ok Hw Wp4 (5048779460560973) 281474976710656 _ _ _) _ _) _ _); [vm_compute; reflexivity|reflexivity|vm_compute; reflexivity|cbn [Z.abs]; lra|unfold rp4; lra]).
  pose (Wmp4 := fmul Wyp3 X). pose (rmp4 := ryp3 * x).
  assert (Hmp4 : app Wmp4 rmp4 (773 / 250) (3650627 / 5000000000000000000000)) by (refine (mul_w Hw _ _ _ _ _ _ _ _ _ _ Hyp3 Hx _ _ _ _ _ _ _); rewrite ?u8; lra).
  assert (Iyp4 : (22421 / 1250) <= rmp4 + rp4 <= (210289 / 10000)) by (pose proof (iv_mul ryp3 x _ _ _ _ Iyp3 Ix) as (J1 & J2); unfold rp4; change rmp4 with (ryp3 * x); split; [eapply Rle_trans; [|apply Rplus_le_compat_r; exact J1]; repeat apply Rmin_case; lra|eapply Rle_trans; [apply Rplus_le_compat_r; exact J2|]; repeat apply Rmax_case; lra]).
  pose (Wyp4 := fadd Wmp4 Wp4). pose (ryp4 := rmp4 + rp4).
  assert (Hyp4 : app Wyp4 ryp4 (210289 / 10000) (3064803 / 1000000000000000000000)) by (refine (add_b Hw _ _ _ _ _ _ _ _ _ _ Hmp4 Hp4 _ _ _); [apply Rabs_le; lra|rewrite ?u8; lra|rewrite ?u8; lra]).
  pose (Wp5 := (nth 5 log_p8 (w0 8))). pose (rp5 := (1084859073158047 / 140737488355328)).
  assert (Hp5 : app Wp5 rp5 (1084859073158047 / 140737488355328) 0) by (refine (eq_rect _ (fun z => app Wp5 z (1084859073158047 / 140737488355328) 0) (eq_rect _ (fun b => app Wp5 _ b 0) (const_ok Hw Wp5 (1084859073158047) 140737488355328 _ _ _) _ _) _ _); [vm_compute; reflexivity|reflexivity|vm_compute; reflexivity|cbn [Z.abs]; lra|unfold rp5; lra]).
  pose (Wmp5 := fmul Wyp4 X). pose (rmp5 := ryp4 * x).
  assert (Hmp5 : app Wmp5 rmp5 (210289 / 50000) (134987 / 125000000000000000000)) by (refine (mul_w Hw _ _ _ _ _ _ _ _ _ _ Hyp4 Hx _ _ _ _ _ _ _); rewrite ?u8; lra).
  assert (Iyp5 : (385419 / 50000) <= rmp5 + rp5 <= (59571 / 5000)) by (pose proof (iv_mul ryp4 x _ _ _ _ Iyp4 Ix) as (J1 & J2); unfold rp5; change rmp5 with (ryp4 * x); split; [eapply Rle_trans; [|apply Rplus_le_compat_r; exact J1]; repeat apply Rmin_case; lra|eapply Rle_trans; [apply Rplus_le_compat_r; exact J2|]; repeat apply Rmax_case; lra]).
  pose (Wyp5 := fadd Wmp5 Wp5). pose (ryp5 := rmp5 + rp5).
  assert (Hyp5 : app Wyp5 ryp5 (59571 / 5000) (1201319 / 500000000000000000000)) by (refine (add_b Hw _ _ _ _ _ _ _ _ _ _ Hmp5 Hp5 _ _ _); [apply Rabs_le; lra|rewrite ?u8; lra|rewrite ?u8; lra]).
  pose (Wq0 := (hd (w0 8) log_q8)). pose (rq0 := (3177109032531911 / 281474976710656)).
  assert (Hq0 : app Wq0 rq0 (3177109032531911 / 281474976710656) 0) by (refine (eq_rect _ (fun z => app Wq0 z (3177109032531911 / 281474976710656) 0) (eq_rect _ (fun b => app Wq0 _ b 0) (const_ok Hw Wq0 (3177109032531911) 281474976710656 _ _ _) _ _) _ _); [vm_compute; reflexivity|reflexivity|vm_compute; reflexivity|cbn [Z.abs]; lra|unfold rq0; lra]).
  pose (Wqa := fadd Wq0 X). pose (rqa := rq0 + x).
  assert (Hqa : app Wqa rqa (35898 / 3125) (637677 / 500000000000000000000)) by (refine (add_b Hw _ _ _ _ _ _ _ _ _ _ Hq0 Hx _ _ _); [unfold rq0; apply Rabs_le; lra|rewrite ?u8; lra|rewrite ?u8; lra]).
  assert (Iqa : (3177109032531911 / 281474976710656) <= rqa <= (16167020139370211 / 1407374883553280)) by (change rqa with (rq0 + x); unfold rq0; lra).
  pose (Wq1 := (nth 1 log_q8 (w0 8))). pose (rq1 := (6365263102066739 / 140737488355328)).
  assert (Hq1 : app Wq1 rq1 (6365263102066739 / 140737488355328) 0) by (refine (eq_rect _ (fun z => app Wq1 z (6365263102066739 / 140737488355328) 0) (eq_rect _ (fun b => app Wq1 _ b 0) (const_ok Hw Wq1 (6365263102066739) 140737488355328 _ _ _) _ _) _ _); [vm_compute; reflexivity|reflexivity|vm_compute; reflexivity|cbn [Z.abs]; lra|unfold rq1; lra]).
  pose (Wmq1 := fmul Wqa X). pose (rmq1 := rqa * x).
  assert (Hmq1 : app Wmq1 rmq1 (35898 / 15625) (1020283 / 2000000000000000000000)) by (refine (mul_w Hw _ _ _ _ _ _ _ _ _ _ Hqa Hx _ _ _ _ _ _ _); rewrite ?u8; lra).
  assert (Iyq1 : (452279 / 10000) <= rmq1 + rq1 <= (237627 / 5000)) by (pose proof (iv_mul rqa x _ _ _ _ Iqa Ix) as (J1 & J2); unfold rq1; change rmq1 with (rqa * x); split; [eapply Rle_trans; [|apply Rplus_le_compat_r; exact J1]; repeat apply Rmin_case; lra|eapply Rle_trans; [apply Rplus_le_compat_r; exact J2|]; repeat apply Rmax_case; lra]).
  pose (Wyq1 := fadd Wmq1 Wq1). pose (ryq1 := rmq1 + rq1).
  assert (Hyq1 : app Wyq1 ryq1 (237627 / 5000) (5786521 / 1000000000000000000000)) by (refine (add_b Hw _ _ _ _ _ _ _ _ _ _ Hmq1 Hq1 _ _ _); [apply Rabs_le; lra|rewrite ?u8; lra|rewrite ?u8; lra]).
  pose (Wq2 := (nth 2 log_q8 (w0 8))). pose (rq2 := (5839728035675581 / 70368744177664)).
  assert (Hq2 : app Wq2 rq2 (5839728035675581 / 70368744177664) 0) by (refine (eq_rect _ (fun z => app Wq2 z (5839728035675581 / 70368744177664) 0) (eq_rect _ (fun b => app Wq2 _ b 0) (const_ok Hw Wq2 (5839728035675581) 70368744177664 _ _ _) _ _) _ _); [vm_compute; reflexivity|reflexivity|vm_compute; reflexivity|cbn [Z.abs]; lra|unfold rq2; lra]).
  pose (Wmq2 := fmul Wyq1 X). pose (rmq2 := ryq1 * x).
  assert (Hmq2 : app Wmq2 rmq2 (237627 / 25000) (2212581 / 1000000000000000000000)) by (refine (mul_w Hw _ _ _ _ _ _ _ _ _ _ Hyq1 Hx _ _ _ _ _ _ _); rewrite ?u8; lra).
  assert (Iyq2 : (6639 / 80) <= rmq2 + rq2 <= (924927 / 10000)) by (pose proof (iv_mul ryq1 x _ _ _ _ Iyq1 Ix) as (J1 & J2); unfold rq2; change rmq2 with (ryq1 * x); split; [eapply Rle_trans; [|apply Rplus_le_compat_r; exact J1]; repeat apply Rmin_case; lra|eapply Rle_trans; [apply Rplus_le_compat_r; exact J2|]; repeat apply Rmax_case; lra]).
  pose (Wyq2 := fadd Wmq2 Wq2). pose (ryq2 := rmq2 + rq2).
  assert (Hyq2 : app Wyq2 ryq2 (924927 / 10000) (624067 / 50000000000000000000)) by (refine (add_b Hw _ _ _ _ _ _ _ _ _ _ Hmq2 Hq2 _ _ _); [apply Rabs_le; lra|rewrite ?u8; lra|rewrite ?u8; lra]).
  pose (Wq3 := (nth 3 log_q8 (w0 8))). pose (rq3 := (5007051052723745 / 70368744177664)).
  assert (Hq3 : app Wq3 rq3 (5007051052723745 / 70368744177664) 0) by (refine (eq_rect _ (fun z => app Wq3 z (5007051052723745 / 70368744177664) 0) (eq_rect _ (fun b => app Wq3 _ b 0) (const_ok Hw Wq3 (5007051052723745) 70368744177664 _ _ _) _ _) _ _); [vm_compute; reflexivity|reflexivity|vm_compute; reflexivity|cbn [Z.abs]; lra|unfold rq3; lra]).
  pose (Wmq3 := fmul Wyq2 X). pose (rmq3 := ryq2 * x).
  assert (Hmq3 : app Wmq3 rmq3 (924927 / 50000) (4550019 / 1000000000000000000000)) by (refine (mul_w Hw _ _ _ _ _ _ _ _ _ _ Hyq2 Hx _ _ _ _ _ _ _); rewrite ?u8; lra).
  assert (Iyq3 : (88943 / 1250) <= rmq3 + rq3 <= (896531 / 10000)) by (pose proof (iv_mul ryq2 x _ _ _ _ Iyq2 Ix) as (J1 & J2); unfold rq3; change rmq3 with (ryq2 * x); split; [eapply Rle_trans; [|apply Rplus_le_compat_r; exact J1]; repeat apply Rmin_case; lra|eapply Rle_trans; [apply Rplus_le_compat_r; exact J2|]; repeat apply Rmax_case; lra]).
  pose (Wyq3 := fadd Wmq3 Wq3). pose (ryq3 := rmq3 + rq3).
  assert (Hyq3 : app Wyq3 ryq3 (896531 / 10000) (90647 / 6250000000000000000)) by (refine (add_b Hw _ _ _ _ _ _ _ _ _ _ Hmq3 Hq3 _ _ _); [apply Rabs_le; lra|rewrite ?u8; lra|rewrite ?u8; lra]).
  pose (Wq4 := (nth 4 log_q8 (w0 8))). pose (rq4 := (3254577219474137 / 140737488355328)).
  assert (Hq4 : app Wq4 rq4 (3254577219474137 / 140737488355328) 0) by (refine (eq_rect _ (fun z => app Wq4 z (3254577219474137 / 140737488355328) 0) (eq_rect _ (fun b => app Wq4 _ b 0) (const_ok Hw Wq4 (3254577219474137) 140737488355328 _ _ _) _ _) _ _); [vm_compute; reflexivity|reflexivity|vm_compute; reflexivity|cbn [Z.abs]; lra|unfold rq4; lra]).
  pose (Wmq4 := fmul Wyq3 X). pose (rmq4 := ryq3 * x).
  assert (Hmq4 : app Wmq4 rmq4 (896531 / 50000) (4891403 / 1000000000000000000000)) by (refine (mul_w Hw _ _ _ _ _ _ _ _ _ _ Hyq3 Hx _ _ _ _ _ _ _); rewrite ?u8; lra).
  assert (Iyq4 : (231251 / 10000) <= rmq4 + rq4 <= (205279 / 5000)) by (pose proof (iv_mul ryq3 x _ _ _ _ Iyq3 Ix) as (J1 & J2); unfold rq4; change rmq4 with (ryq3 * x); split; [eapply Rle_trans; [|apply Rplus_le_compat_r; exact J1]; repeat apply Rmin_case; lra|eapply Rle_trans; [apply Rplus_le_compat_r; exact J2|]; repeat apply Rmax_case; lra]).
  pose (Wyq4 := fadd Wmq4 Wq4). pose (ryq4 := rmq4 + rq4).
  assert (Hyq4 : app Wyq4 ryq4 (205279 / 5000) (9449513 / 1000000000000000000000)) by (refine (add_b Hw _ _ _ _ _ _ _ _ _ _ Hmq4 Hq4 _ _ _); [apply Rabs_le; lra|rewrite ?u8; lra|rewrite ?u8; lra]).
  pose (Wv := fdiv X Wyq4). pose (rv := x / ryq4).
  assert (Sv : sapp t 1 Wv rv (2162153 / 50000000) (2247119 / 100000000000000000000000)) by (refine (s_div Hw t (1 / 9671406556917033397649408) HT 1 _ _ _ _ _ _ _ _ (231251 / 10000) (110439 / 6250000000000000000000) _ _ Sx Hyq4 ltac:(lia) _ _ _ _ _ _ _ _ _); [change ryq4 with (rmq4 + rq4); rewrite Rabs_pos_eq; lra|split; lra|lra|lra|lra|lra|split; lra|lra|rewrite ?u8; lra]).
  pose (Wxx := fmul X X). pose (rxx := x * x).
  assert (Sxx : sapp t 2 Wxx rxx 1 (69389 / 625000000000000000000)) by (refine (s_mul Hw t (1 / 9671406556917033397649408) HT 1 1 2 _ _ _ _ _ _ _ _ _ _ Sx Sx eq_refl ltac:(lia) _ _ _ _ _ _ _); rewrite ?u8; lra).
  assert (Syp5 : sapp t 0 Wyp5 ryp5 (59571 / 5000) (1201319 / 500000000000000000000)) by (exact (sapp0 t _ _ _ _ Hyp5)).
  pose (Wxy := fmul Wxx Wyp5). pose (rxy := rxx * ryp5).
  assert (Sxy : sapp t 2 Wxy rxy (59571 / 5000) (5048123 / 1000000000000000000000)) by (refine (s_mul Hw t (1 / 9671406556917033397649408) HT 2 0 2 _ _ _ _ _ _ _ _ _ _ Sxx Syp5 eq_refl ltac:(lia) _ _ _ _ _ _ _); rewrite ?u8; lra).
  pose (Wr := fmul Wxy Wv). pose (rr := rxy * rv).
  assert (Sr : sapp t 3 Wr rr (1030413 / 2000000) (271611 / 500000000000000000000)) by (refine (s_mul Hw t (1 / 9671406556917033397649408) HT 2 1 3 _ _ _ _ _ _ _ _ _ _ Sxy Sv eq_refl ltac:(lia) _ _ _ _ _ _ _); rewrite ?u8; lra).
  exists rr. split; [exact Sr|]. replace rr with (x * x * ((((((469818574385595 / 4611686018427387904) * x + (4481036547991929 / 9007199254740992)) * x + (5298249872337169 / 1125899906842624)) * x + (4081083882632599 / 281474976710656)) * x + (5048779460560973 / 281474976710656)) * x + (1084859073158047 / 140737488355328)) * (x / ((((((3177109032531911 / 281474976710656) + x) * x + (6365263102066739 / 140737488355328)) * x + (5839728035675581 / 70368744177664)) * x + (5007051052723745 / 70368744177664)) * x + (3254577219474137 / 140737488355328)))); [|reflexivity]. eapply Rle_trans; [exact PD|]. apply Rmult_le_compat_l; lra.
Qed.
Lemma log_y_ok8_5 X t : log_in8 X t -> (1 / 5) <= real X <= (20711 / 50000) -> exists y, sapp t 3 (log_y8 X) y (273639 / 625000) (35159 / 62500000000000000000) /\ Rabs (y - (ln (1 + real X) - real X + real X * real X / 2)) <= (4931929 / 100000000000000000000000) * t.
Proof.
  intros (F & RX & HX & SC) Ix. set (Hw := fp8). pose proof (scale_tiny8 t SC) as HT. destruct SC as (T1 & T2). rewrite u8 in T1. pose proof (log_poly8 (real X) RX) as PD.
  pose proof (app_exact X (20711 / 50000) F ltac:(apply Rabs_le; lra)) as Hx. set (x := real X) in *.
  assert (Sx : sapp t 1 X x 1 0) by (split; [exact F|]; cbn [pow]; split; [lra|unfold x; rewrite Rminus_diag_eq, Rabs_R0 by reflexivity; lra]).
  pose (Wp0 := (nth 0 log_p8 (w0 8))). pose (rp0 := (469818574385595 / 4611686018427387904)).
  assert (Hp0 : app Wp0 rp0 (469818574385595 / 4611686018427387904) 0) by (refine (eq_rect _ (fun z => app Wp0 z (469818574385595 / 4611686018427387904) 0) (eq_rect _ (fun b => app Wp0 _ b 0) (const_ok Hw Wp0 (469818574385595) 4611686018427387904 _ _ _) _ _) _ _); [vm_compute; reflexivity|reflexivity|vm_compute; reflexivity|cbn [Z.abs]; lra|unfold rp0; lra]).
  assert (Ip0 : (469818574385595 / 4611686018427387904) <= rp0 <= (469818574385595 / 4611686018427387904)) by (unfold rp0; lra).
  pose (Wp1 := (nth 1 log_p8 (w0 8))). pose (rp1 := (4481036547991929 / 9007199254740992)).
  assert (Hp1 : app Wp1 rp1 (4481036547991929 / 9007199254740992) 0) by (refine (eq_rect _ (fun z => app Wp1 z (4481036547991929 / 9007199254740992) 0) (eq_rect _ (fun b => app Wp1 _ b 0) (const_ok Hw Wp1 (4481036547991929) 9007199254740992 _ _ _) _ _) _ _); [vm_compute; reflexivity|reflexivity|vm_compute; reflexivity|cbn [Z.abs]; lra|unfold rp1; lra]).
  pose (Wmp1 := fmul Wp0 X). pose (rmp1 := rp0 * x).
  assert (Hmp1 : app Wmp1 rmp1 (2109947 / 50000000000) (146407 / 31250000000000000000000000)) by (refine (mul_w Hw _ _ _ _ _ _ _ _ _ _ Hp0 Hx _ _ _ _ _ _ _); rewrite ?u8; lra).
  assert (Iyp1 : (99503 / 200000) <= rmp1 + rp1 <= (248769 / 500000)) by (pose proof (iv_mul rp0 x _ _ _ _ Ip0 Ix) as (J1 & J2); unfold rp1; change rmp1 with (rp0 * x); split; [eapply Rle_trans; [|apply Rplus_le_compat_r; exact J1]; repeat apply Rmin_case; lra|eapply Rle_trans; [apply Rplus_le_compat_r; exact J2|]; repeat apply Rmax_case; lra]).
  pose (Wyp1 := fadd Wmp1 Wp1). pose (ryp1 := rmp1 + rp1).
  assert (Hyp1 : app Wyp1 ryp1 (248769 / 500000) (22097 / 400000000000000000000)) by (refine (add_b Hw _ _ _ _ _ _ _ _ _ _ Hmp1 Hp1 _ _ _); [apply Rabs_le; lra|rewrite ?u8; lra|rewrite ?u8; lra]).
  pose (Wp2 := (nth 2 log_p8 (w0 8))). pose (rp2 := (5298249872337169 / 1125899906842624)).
  assert (Hp2 : app Wp2 rp2 (5298249872337169 / 1125899906842624) 0) by (refine (eq_rect _ (fun z => app Wp2 z (5298249872337169 / 1125899906842624) 0) (eq_rect _ (fun b => app Wp2 _ b 0) (const_ok Hw Wp2 (5298249872337169) 1125899906842624 _ _ _) _ _) _ _); [vm_compute; reflexivity|reflexivity|vm_compute; reflexivity|cbn [Z.abs]; lra|unfold rp2; lra]).
  pose (Wmp2 := fmul Wyp1 X). pose (rmp2 := ryp1 * x).
  assert (Hmp2 : app Wmp2 rmp2 (1030451 / 5000000) (1144079 / 25000000000000000000000)) by (refine (mul_w Hw _ _ _ _ _ _ _ _ _ _ Hyp1 Hx _ _ _ _ _ _ _); rewrite ?u8; lra).
  assert (Iyp2 : (480529 / 100000) <= rmp2 + rp2 <= (491189 / 100000)) by (pose proof (iv_mul ryp1 x _ _ _ _ Iyp1 Ix) as (J1 & J2); unfold rp2; change rmp2 with (ryp1 * x); split; [eapply Rle_trans; [|apply Rplus_le_compat_r; exact J1]; repeat apply Rmin_case; lra|eapply Rle_trans; [apply Rplus_le_compat_r; exact J2|]; repeat apply Rmax_case; lra]).
  pose (Wyp2 := fadd Wmp2 Wp2). pose (ryp2 := rmp2 + rp2).
  assert (Hyp2 : app Wyp2 ryp2 (491189 / 100000) (236437 / 400000000000000000000)) by (refine (add_b Hw _ _ _ _ _ _ _ _ _ _ Hmp2 Hp2 _ _ _); [apply Rabs_le; lra|rewrite ?u8; lra|rewrite ?u8; lra]).
  pose (Wp3 := (nth 3 log_p8 (w0 8))). pose (rp3 := (4081083882632599 / 281474976710656)).
  assert (Hp3 : app Wp3 rp3 (4081083882632599 / 281474976710656) 0) by (refine (eq_rect _ (fun z => app Wp3 z (4081083882632599 / 281474976710656) 0) (eq_rect _ (fun b => app Wp3 _ b 0) (const_ok Hw Wp3 (4081083882632599) 281474976710656 _ _ _) _ _) _ _); [vm_compute; reflexivity|reflexivity|vm_compute; reflexivity|cbn [Z.abs]; lra|unfold rp3; lra]).
  pose (Wmp3 := fmul Wyp2 X). pose (rmp3 := ryp2 * x).
  assert (Hmp3 : app Wmp3 rmp3 (508651 / 250000) (4707287 / 10000000000000000000000)) by (refine (mul_w Hw _ _ _ _ _ _ _ _ _ _ Hyp2 Hx _ _ _ _ _ _ _); rewrite ?u8; lra).
  assert (Iyp3 : (154599 / 10000) <= rmp3 + rp3 <= (20667 / 1250)) by (pose proof (iv_mul ryp2 x _ _ _ _ Iyp2 Ix) as (J1 & J2); unfold rp3; change rmp3 with (ryp2 * x); split; [eapply Rle_trans; [|apply Rplus_le_compat_r; exact J1]; repeat apply Rmin_case; lra|eapply Rle_trans; [apply Rplus_le_compat_r; exact J2|]; repeat apply Rmax_case; lra]).
  pose (Wyp3 := fadd Wmp3 Wp3). pose (ryp3 := rmp3 + rp3).
  assert (Hyp3 : app Wyp3 ryp3 (20667 / 1250) (288291 / 125000000000000000000)) by (refine (add_b Hw _ _ _ _ _ _ _ _ _ _ Hmp3 Hp3 _ _ _); [apply Rabs_le; lra|rewrite ?u8; lra|rewrite ?u8; lra]).
  pose (Wp4 := (nth 4 log_p8 (w0 8))). pose (rp4 := (5048779460560973 / 281474976710656)).
  assert (Hp4 : app Wp4 rp4 (5048779460560973 / 281474976710656) 0) by (refine (eq_rect _ (fun z => app Wp4 z (5048779460560973 / 281474976710656) 0) (eq_rect _ (fun b => app Wp4 _ b 0) (const_ok Hw Wp4 (5048779460560973) 281474976710656 _ _ _) _ _) _ _); [vm_compute; reflexivity|reflexivity|vm_compute; reflexivity|cbn [Z.abs]; lra|unfold rp4; lra]).
  pose (Wmp4 := fmul Wyp3 X). pose (rmp4 := ryp3 * x).
  assert (Hmp4 : app Wmp4 rmp4 (1712137 / 250000) (1715669 / 1000000000000000000000)) by (refine (mul_w Hw _ _ _ _ _ _ _ _ _ _ Hyp3 Hx _ _ _ _ _ _ _); rewrite ?u8; lra).
  assert (Iyp4 : (13143 / 625) <= rmp4 + rp4 <= (49571 / 2000)) by (pose proof (iv_mul ryp3 x _ _ _ _ Iyp3 Ix) as (J1 & J2); unfold rp4; change rmp4 with (ryp3 * x); split; [eapply Rle_trans; [|apply Rplus_le_compat_r; exact J1]; repeat apply Rmin_case; lra|eapply Rle_trans; [apply Rplus_le_compat_r; exact J2|]; repeat apply Rmax_case; lra]).
  pose (Wyp4 := fadd Wmp4 Wp4). pose (ryp4 := rmp4 + rp4).
  assert (Hyp4 : app Wyp4 ryp4 (49571 / 2000) (4467413 / 1000000000000000000000)) by (refine (add_b Hw _ _ _ _ _ _ _ _ _ _ Hmp4 Hp4 _ _ _); [apply Rabs_le; lra|rewrite ?u8; lra|rewrite ?u8; lra]).
  pose (Wp5 := (nth 5 log_p8 (w0 8))). pose (rp5 := (1084859073158047 / 140737488355328)).
  assert (Hp5 : app Wp5 rp5 (1084859073158047 / 140737488355328) 0) by (refine (eq_rect _ (fun z => app Wp5 z (1084859073158047 / 140737488355328) 0) (eq_rect _ (fun b => app Wp5 _ b 0) (const_ok Hw Wp5 (1084859073158047) 140737488355328 _ _ _) _ _) _ _); [vm_compute; reflexivity|reflexivity|vm_compute; reflexivity|cbn [Z.abs]; lra|unfold rp5; lra]).
  pose (Wmp5 := fmul Wyp4 X). pose (rmp5 := ryp4 * x).
  assert (Hmp5 : app Wmp5 rmp5 (205333 / 20000) (2990319 / 1000000000000000000000)) by (refine (mul_w Hw _ _ _ _ _ _ _ _ _ _ Hyp4 Hx _ _ _ _ _ _ _); rewrite ?u8; lra).
  assert (Iyp5 : (119141 / 10000) <= rmp5 + rp5 <= (179751 / 10000)) by (pose proof (iv_mul ryp4 x _ _ _ _ Iyp4 Ix) as (J1 & J2); unfold rp5; change rmp5 with (ryp4 * x); split; [eapply Rle_trans; [|apply Rplus_le_compat_r; exact J1]; repeat apply Rmin_case; lra|eapply Rle_trans; [apply Rplus_le_compat_r; exact J2|]; repeat apply Rmax_case; lra]).
  pose (Wyp5 := fadd Wmp5 Wp5). pose (ryp5 := rmp5 + rp5).
  assert (Hyp5 : app Wyp5 ryp5 (179751 / 10000) (1246489 / 250000000000000000000)) by (refine (add_b Hw _ _ _ _ _ _ _ _ _ _ Hmp5 Hp5 _ _ _); [apply Rabs_le; lra|rewrite ?u8; lra|rewrite ?u8; lra]).
  pose (Wq0 := (hd (w0 8) log_q8)). pose (rq0 := (3177109032531911 / 281474976710656)).
  assert (Hq0 : app Wq0 rq0 (3177109032531911 / 281474976710656) 0) by (refine (eq_rect _ (fun z => app Wq0 z (3177109032531911 / 281474976710656) 0) (eq_rect _ (fun b => app Wq0 _ b 0) (const_ok Hw Wq0 (3177109032531911) 281474976710656 _ _ _) _ _) _ _); [vm_compute; reflexivity|reflexivity|vm_compute; reflexivity|cbn [Z.abs]; lra|unfold rq0; lra]).
  pose (Wqa := fadd Wq0 X). pose (rqa := rq0 + x).
  assert (Hqa : app Wqa rqa (585079 / 50000) (1299137 / 1000000000000000000000)) by (refine (add_b Hw _ _ _ _ _ _ _ _ _ _ Hq0 Hx _ _ _); [unfold rq0; apply Rabs_le; lra|rewrite ?u8; lra|rewrite ?u8; lra]).
  assert (Iqa : (16167020139370211 / 1407374883553280) <= rqa <= (10292817491828121651 / 879609302220800000)) by (change rqa with (rq0 + x); unfold rq0; lra).
  pose (Wq1 := (nth 1 log_q8 (w0 8))). pose (rq1 := (6365263102066739 / 140737488355328)).
  assert (Hq1 : app Wq1 rq1 (6365263102066739 / 140737488355328) 0) by (refine (eq_rect _ (fun z => app Wq1 z (6365263102066739 / 140737488355328) 0) (eq_rect _ (fun b => app Wq1 _ b 0) (const_ok Hw Wq1 (6365263102066739) 140737488355328 _ _ _) _ _) _ _); [vm_compute; reflexivity|reflexivity|vm_compute; reflexivity|cbn [Z.abs]; lra|unfold rq1; lra]).
  pose (Wmq1 := fmul Wqa X). pose (rmq1 := rqa * x).
  assert (Hmq1 : app Wmq1 rmq1 (4847029 / 1000000) (1076257 / 1000000000000000000000)) by (refine (mul_w Hw _ _ _ _ _ _ _ _ _ _ Hqa Hx _ _ _ _ _ _ _); rewrite ?u8; lra).
  assert (Iyq1 : (475253 / 10000) <= rmq1 + rq1 <= (2003 / 40)) by (pose proof (iv_mul rqa x _ _ _ _ Iqa Ix) as (J1 & J2); unfold rq1; change rmq1 with (rqa * x); split; [eapply Rle_trans; [|apply Rplus_le_compat_r; exact J1]; repeat apply Rmin_case; lra|eapply Rle_trans; [apply Rplus_le_compat_r; exact J2|]; repeat apply Rmax_case; lra]).
  pose (Wyq1 := fadd Wmq1 Wq1). pose (ryq1 := rmq1 + rq1).
  assert (Hyq1 : app Wyq1 ryq1 (2003 / 40) (6635699 / 1000000000000000000000)) by (refine (add_b Hw _ _ _ _ _ _ _ _ _ _ Hmq1 Hq1 _ _ _); [apply Rabs_le; lra|rewrite ?u8; lra|rewrite ?u8; lra]).
  pose (Wq2 := (nth 2 log_q8 (w0 8))). pose (rq2 := (5839728035675581 / 70368744177664)).
  assert (Hq2 : app Wq2 rq2 (5839728035675581 / 70368744177664) 0) by (refine (eq_rect _ (fun z => app Wq2 z (5839728035675581 / 70368744177664) 0) (eq_rect _ (fun b => app Wq2 _ b 0) (const_ok Hw Wq2 (5839728035675581) 70368744177664 _ _ _) _ _) _ _); [vm_compute; reflexivity|reflexivity|vm_compute; reflexivity|cbn [Z.abs]; lra|unfold rq2; lra]).
  pose (Wmq2 := fmul Wyq1 X). pose (rmq2 := ryq1 * x).
  assert (Hmq2 : app Wmq2 rmq2 (2074207 / 100000) (315717 / 62500000000000000000)) by (refine (mul_w Hw _ _ _ _ _ _ _ _ _ _ Hyq1 Hx _ _ _ _ _ _ _); rewrite ?u8; lra).
  assert (Iyq2 : (36997 / 400) <= rmq2 + rq2 <= (10373 / 100)) by (pose proof (iv_mul ryq1 x _ _ _ _ Iyq1 Ix) as (J1 & J2); unfold rq2; change rmq2 with (ryq1 * x); split; [eapply Rle_trans; [|apply Rplus_le_compat_r; exact J1]; repeat apply Rmin_case; lra|eapply Rle_trans; [apply Rplus_le_compat_r; exact J2|]; repeat apply Rmax_case; lra]).
  pose (Wyq2 := fadd Wmq2 Wq2). pose (ryq2 := rmq2 + rq2).
  assert (Hyq2 : app Wyq2 ryq2 (10373 / 100) (828391 / 50000000000000000000)) by (refine (add_b Hw _ _ _ _ _ _ _ _ _ _ Hmq2 Hq2 _ _ _); [apply Rabs_le; lra|rewrite ?u8; lra|rewrite ?u8; lra]).
  pose (Wq3 := (nth 3 log_q8 (w0 8))). pose (rq3 := (5007051052723745 / 70368744177664)).
  assert (Hq3 : app Wq3 rq3 (5007051052723745 / 70368744177664) 0) by (refine (eq_rect _ (fun z => app Wq3 z (5007051052723745 / 70368744177664) 0) (eq_rect _ (fun b => app Wq3 _ b 0) (const_ok Hw Wq3 (5007051052723745) 70368744177664 _ _ _) _ _) _ _); [vm_compute; reflexivity|reflexivity|vm_compute; reflexivity|cbn [Z.abs]; lra|unfold rq3; lra]).
  pose (Wmq3 := fmul Wyq2 X). pose (rmq3 := ryq2 * x).
  assert (Hmq3 : app Wmq3 rmq3 (859341 / 20000) (1163303 / 100000000000000000000)) by (refine (mul_w Hw _ _ _ _ _ _ _ _ _ _ Hyq2 Hx _ _ _ _ _ _ _); rewrite ?u8; lra).
  assert (Iyq3 : (896529 / 10000) <= rmq3 + rq3 <= (57061 / 500)) by (pose proof (iv_mul ryq2 x _ _ _ _ Iyq2 Ix) as (J1 & J2); unfold rq3; change rmq3 with (ryq2 * x); split; [eapply Rle_trans; [|apply Rplus_le_compat_r; exact J1]; repeat apply Rmin_case; lra|eapply Rle_trans; [apply Rplus_le_compat_r; exact J2|]; repeat apply Rmax_case; lra]).
  pose (Wyq3 := fadd Wmq3 Wq3). pose (ryq3 := rmq3 + rq3).
  assert (Hyq3 : app Wyq3 ryq3 (57061 / 500) (303789 / 12500000000000000000)) by (refine (add_b Hw _ _ _ _ _ _ _ _ _ _ Hmq3 Hq3 _ _ _); [apply Rabs_le; lra|rewrite ?u8; lra|rewrite ?u8; lra]).
  pose (Wq4 := (nth 4 log_q8 (w0 8))). pose (rq4 := (3254577219474137 / 140737488355328)).
  assert (Hq4 : app Wq4 rq4 (3254577219474137 / 140737488355328) 0) by (refine (eq_rect _ (fun z => app Wq4 z (3254577219474137 / 140737488355328) 0) (eq_rect _ (fun b => app Wq4 _ b 0) (const_ok Hw Wq4 (3254577219474137) 140737488355328 _ _ _) _ _) _ _); [vm_compute; reflexivity|reflexivity|vm_compute; reflexivity|cbn [Z.abs]; lra|unfold rq4; lra]).
  pose (Wmq4 := fmul Wyq3 X). pose (rmq4 := ryq3 * x).
  assert (Hmq4 : app Wmq4 rmq4 (2363581 / 50000) (306301 / 20000000000000000000)) by (refine (mul_w Hw _ _ _ _ _ _ _ _ _ _ Hyq3 Hx _ _ _ _ _ _ _); rewrite ?u8; lra).
  assert (Iyq4 : (410557 / 10000) <= rmq4 + rq4 <= (43998 / 625)) by (pose proof (iv_mul ryq3 x _ _ _ _ Iyq3 Ix) as (J1 & J2); unfold rq4; change rmq4 with (ryq3 * x); split; [eapply Rle_trans; [|apply Rplus_le_compat_r; exact J1]; repeat apply Rmin_case; lra|eapply Rle_trans; [apply Rplus_le_compat_r; exact J2|]; repeat apply Rmax_case; lra]).
  pose (Wyq4 := fadd Wmq4 Wq4). pose (ryq4 := rmq4 + rq4).
  assert (Hyq4 : app Wyq4 ryq4 (43998 / 625) (2313067 / 100000000000000000000)) by (refine (add_b Hw _ _ _ _ _ _ _ _ _ _ Hmq4 Hq4 _ _ _); [apply Rabs_le; lra|rewrite ?u8; lra|rewrite ?u8; lra]).
  pose (Wv := fdiv X Wyq4). pose (rv := x / ryq4).
  assert (Sv : sapp t 1 Wv rv (608929 / 25000000) (328539 / 20000000000000000000000)) by (refine (s_div Hw t (1 / 9671406556917033397649408) HT 1 _ _ _ _ _ _ _ _ (410557 / 10000) (343069 / 25000000000000000000000) _ _ Sx Hyq4 ltac:(lia) _ _ _ _ _ _ _ _ _); [change ryq4 with (rmq4 + rq4); rewrite Rabs_pos_eq; lra|split; lra|lra|lra|lra|lra|split; lra|lra|rewrite ?u8; lra]).
  pose (Wxx := fmul X X). pose (rxx := x * x).
  assert (Sxx : sapp t 2 Wxx rxx 1 (69389 / 625000000000000000000)) by (refine (s_mul Hw t (1 / 9671406556917033397649408) HT 1 1 2 _ _ _ _ _ _ _ _ _ _ Sx Sx eq_refl ltac:(lia) _ _ _ _ _ _ _); rewrite ?u8; lra).
  assert (Syp5 : sapp t 0 Wyp5 ryp5 (179751 / 10000) (1246489 / 250000000000000000000)) by (exact (sapp0 t _ _ _ _ Hyp5)).
  pose (Wxy := fmul Wxx Wyp5). pose (rxy := rxx * ryp5).
  assert (Sxy : sapp t 2 Wxy rxy (179751 / 10000) (561077 / 62500000000000000000)) by (refine (s_mul Hw t (1 / 9671406556917033397649408) HT 2 0 2 _ _ _ _ _ _ _ _ _ _ Sxx Syp5 eq_refl ltac:(lia) _ _ _ _ _ _ _); rewrite ?u8; lra).
  pose (Wr := fmul Wxy Wv). pose (rr := rxy * rv).
  assert (Sr : sapp t 3 Wr rr (273639 / 625000) (35159 / 62500000000000000000)) by (refine (s_mul Hw t (1 / 9671406556917033397649408) HT 2 1 3 _ _ _ _ _ _ _ _ _ _ Sxy Sv eq_refl ltac:(lia) _ _ _ _ _ _ _); rewrite ?u8; lra).
  exists rr. split; [exact Sr|]. replace rr with (x * x * ((((((469818574385595 / 4611686018427387904) * x + (4481036547991929 / 9007199254740992)) * x + (5298249872337169 / 1125899906842624)) * x + (4081083882632599 / 281474976710656)) * x + (5048779460560973 / 281474976710656)) * x + (1084859073158047 / 140737488355328)) * (x / ((((((3177109032531911 / 281474976710656) + x) * x + (6365263102066739 / 140737488355328)) * x + (5839728035675581 / 70368744177664)) * x + (5007051052723745 / 70368744177664)) * x + (3254577219474137 / 140737488355328)))); [|reflexivity]. eapply Rle_trans; [exact PD|]. apply Rmult_le_compat_l; lra.
Qed.
Lemma log_y_ok8 X t : log_in8 X t -> exists y, sapp t 3 (log_y8 X) y (5641037 / 10000000) (1194591 / 1250000000000000000000) /\ Rabs (y - (ln (1 + real X) - real X + real X * real X / 2)) <= (4931929 / 100000000000000000000000) * t.
Proof.
  intros HI. pose proof HI as (F & RX & HX & SC). pose proof (scale_tiny8 t SC) as HT. destruct SC as (T1 & T2). rewrite u8 in T1. destruct (Rle_dec (real X) (- 1 / 4)) as [C0|C0]; [destruct (log_y_ok8_0 X t HI ltac:(lra)) as (y & SY & PD); exists y; split; [refine (s_low t (1 / 9671406556917033397649408) HT 3 0 _ _ _ _ 1 _ _ SY _ _ _ _ _); cbn [pow]; lra|exact PD]|]. destruct (Rle_dec (real X) (- 1 / 5)) as [C1|C1]; [destruct (log_y_ok8_1 X t HI ltac:(lra)) as (y & SY & PD); exists y; split; [refine (s_low t (1 / 9671406556917033397649408) HT 3 0 _ _ _ _ 1 _ _ SY _ _ _ _ _); cbn [pow]; lra|exact PD]|]. destruct (Rle_dec (real X) (- 13 / 100)) as [C2|C2]; [destruct (log_y_ok8_2 X t HI ltac:(lra)) as (y & SY & PD); exists y; split; [refine (s_low t (1 / 9671406556917033397649408) HT 3 0 _ _ _ _ 1 _ _ SY _ _ _ _ _); cbn [pow]; lra|exact PD]|]. destruct (Rle_dec (real X) 0) as [C3|C3]; [destruct (log_y_ok8_3 X t HI ltac:(lra)) as (y & SY & PD); exists y; split; [refine (s_low t (1 / 9671406556917033397649408) HT 3 0 _ _ _ _ 1 _ _ SY _ _ _ _ _); cbn [pow]; lra|exact PD]|]. destruct (Rle_dec (real X) (1 / 5)) as [C4|C4]; [destruct (log_y_ok8_4 X t HI ltac:(lra)) as (y & SY & PD); exists y; split; [refine (s_low t (1 / 9671406556917033397649408) HT 3 0 _ _ _ _ 1 _ _ SY _ _ _ _ _); cbn [pow]; lra|exact PD]|]. destruct (Rle_dec (real X) (20711 / 50000)) as [C5|C5]; [destruct (log_y_ok8_5 X t HI ltac:(lra)) as (y & SY & PD); exists y; split; [refine (s_low t (1 / 9671406556917033397649408) HT 3 0 _ _ _ _ 1 _ _ SY _ _ _ _ _); cbn [pow]; lra|exact PD]|]. lra.
Qed.
Lemma log_fin_e8 X Y t : log_in8 X t -> is_Finite Y = true -> real Y = real (log_y8 X) -> is_Finite (fsub Y (fmul (fmul X X) (half 8))) = true /\ Rabs (real X + real (fsub Y (fmul (fmul X X) (half 8))) - ln (1 + real X)) <= (2930191 / 10000000000000000000000) * t.
Proof.
  intros HI FY RY. destruct (log_y_ok8 X t HI) as (y & Sy & PD). destruct HI as (F & RX & HX & SC). set (Hw := fp8). pose proof (scale_tiny8 t SC) as HT. destruct SC as (T1 & T2). rewrite u8 in T1. destruct (ln1_abs (real X) RX) as (LN & LA).
  pose proof (app_exact X (20711 / 50000) F ltac:(lra)) as Hx. set (x := real X) in *. assert (Sx : sapp t 1 X x 1 0) by (split; [exact F|]; cbn [pow]; split; [lra|unfold x; rewrite Rminus_diag_eq, Rabs_R0 by reflexivity; lra]). pose proof (Rabs_pos x) as XP. assert (Sy' : sapp t 3 Y y (5641037 / 10000000) (1194591 / 1250000000000000000000)) by (destruct Sy as (_ & Q1 & Q2); split; [exact FY|]; rewrite RY; auto). clear Sy. rename Sy' into Sy.
  pose (Wxx := fmul X X). pose (rxx := x * x).
  assert (Sxx : sapp t 2 Wxx rxx 1 (69389 / 625000000000000000000)) by (refine (s_mul Hw t (1 / 9671406556917033397649408) HT 1 1 2 _ _ _ _ _ _ _ _ _ _ Sx Sx eq_refl ltac:(lia) _ _ _ _ _ _ _); rewrite ?u8; lra).
  pose (Wh := (half 8)). pose (rh := (1 / 2)).
  assert (Hh : app Wh rh (1 / 2) 0) by (refine (eq_rect _ (fun z => app Wh z (1 / 2) 0) (eq_rect _ (fun b => app Wh _ b 0) (const_ok Hw Wh (1) 2 _ _ _) _ _) _ _); [vm_compute; reflexivity|reflexivity|vm_compute; reflexivity|cbn [Z.abs]; lra|unfold rh; lra]).
  assert (Sh : sapp t 0 Wh rh (1 / 2) 0) by (exact (sapp0 t _ _ _ _ Hh)).
  pose (Wxh := fmul Wxx Wh). pose (rxh := rxx * rh).
  assert (Sxh : sapp t 2 Wxh rxh (1 / 2) (69389 / 625000000000000000000)) by (refine (s_mul Hw t (1 / 9671406556917033397649408) HT 2 0 2 _ _ _ _ _ _ _ _ _ _ Sxx Sh eq_refl ltac:(lia) _ _ _ _ _ _ _); rewrite ?u8; lra).
  assert (Sy2 : sapp t 2 Y y (2336631 / 10000000) (989647 / 2500000000000000000000)) by (refine (s_low t (1 / 9671406556917033397649408) HT 2 1 _ _ _ _ (20711 / 50000) _ _ Sy T2 _ _ _ _); cbn [pow]; lra).
  pose (Wz := fsub Y Wxh). pose (rz := y - rxh).
  assert (Sz : sapp t 2 Wz rz (7336631 / 10000000) (2941671 / 5000000000000000000000)) by (refine (s_sub Hw t (1 / 9671406556917033397649408) HT 2 _ _ _ _ _ _ _ _ _ _ Sy2 Sxh _ _ _ _ _ _ _); rewrite ?u8; lra).
  change (fsub Y (fmul (fmul X X) (half 8))) with Wz. assert (SL : sapp t 1 Wz rz (151949 / 500000) (1218499 / 5000000000000000000000)) by (refine (s_low t (1 / 9671406556917033397649408) HT 1 1 _ _ _ _ (20711 / 50000) _ _ Sz T2 _ _ _ _); cbn [pow]; lra). destruct SL as (FZ & _ & EZ). split; [exact FZ|]. cbn [pow] in EZ. rewrite Rmult_1_r in EZ.
  change rz with (y - x * x * (1 / 2)) in EZ. set (l := ln (1 + x)) in *. clearbody l. set (zz := real Wz) in *. clearbody zz. apply abs_le_inv in EZ, PD. apply Rabs_le. lra.
Qed.
Lemma inv_ln2_8 : (892984977797453331270606843 / 618970019642690137449562112) <= / ln 2 <= (1785969955594906662541213687 / 1237940039285380274899124224).
Proof. pose proof ln2_num as L. split; (apply (Rmult_le_reg_r (ln 2)); [lra|]; rewrite Rinv_l by lra; lra). Qed.
Definition log2_x8 (X : word 8) : word 8 := let x := fmul X (c_log2_e 8) in fadd x (fsub (fmul (log_y8 X) (c_log2_e 8)) (fmul (fmul X x) (half 8))).
Lemma log_fin_2_8 X t : log_in8 X t -> is_Finite (log2_x8 X) = true /\ Rabs (real (log2_x8 X) - ln (1 + real X) * / ln 2) <= (8692203 / 10000000000000000000000) * t.
Proof.
  intros HI. destruct (log_y_ok8 X t HI) as (y & Sy & PD). destruct HI as (F & RX & HX & SC). set (Hw := fp8). pose proof (scale_tiny8 t SC) as HT. destruct SC as (T1 & T2). rewrite u8 in T1. destruct (ln1_abs (real X) RX) as (LN & LA).
  pose proof (app_exact X (20711 / 50000) F ltac:(lra)) as Hx. set (x := real X) in *. assert (Sx : sapp t 1 X x 1 0) by (split; [exact F|]; cbn [pow]; split; [lra|unfold x; rewrite Rminus_diag_eq, Rabs_R0 by reflexivity; lra]). pose proof (Rabs_pos x) as XP.
  pose (Wc := (c_log2_e 8)). pose (rc := (3248660424278399 / 2251799813685248)).
  assert (Hc : app Wc rc (3248660424278399 / 2251799813685248) 0) by (refine (eq_rect _ (fun z => app Wc z (3248660424278399 / 2251799813685248) 0) (eq_rect _ (fun b => app Wc _ b 0) (const_ok Hw Wc (3248660424278399) 2251799813685248 _ _ _) _ _) _ _); [vm_compute; reflexivity|reflexivity|vm_compute; reflexivity|cbn [Z.abs]; lra|unfold rc; lra]).
  assert (Sc : sapp t 0 Wc rc (3248660424278399 / 2251799813685248) 0) by (exact (sapp0 t _ _ _ _ Hc)).
  pose (Wxc := fmul X Wc). pose (rxc := x * rc).
  assert (Sxc : sapp t 1 Wxc rxc (180337 / 125000) (800857 / 5000000000000000000000)) by (refine (s_mul Hw t (1 / 9671406556917033397649408) HT 1 0 1 _ _ _ _ _ _ _ _ _ _ Sx Sc eq_refl ltac:(lia) _ _ _ _ _ _ _); rewrite ?u8; lra).
  pose (Wyc := fmul (log_y8 X) Wc). pose (ryc := y * rc).
  assert (Syc : sapp t 3 Wyc ryc (8138297 / 10000000) (734549 / 500000000000000000000)) by (refine (s_mul Hw t (1 / 9671406556917033397649408) HT 3 0 3 _ _ _ _ _ _ _ _ _ _ Sy Sc eq_refl ltac:(lia) _ _ _ _ _ _ _); rewrite ?u8; lra).
  pose (Wqq := fmul X Wxc). pose (rqq := x * rxc).
  assert (Sqq : sapp t 2 Wqq rqq (180337 / 125000) (3203429 / 10000000000000000000000)) by (refine (s_mul Hw t (1 / 9671406556917033397649408) HT 1 1 2 _ _ _ _ _ _ _ _ _ _ Sx Sxc eq_refl ltac:(lia) _ _ _ _ _ _ _); rewrite ?u8; lra).
  pose (Wh := (half 8)). pose (rh := (1 / 2)).
  assert (Hh : app Wh rh (1 / 2) 0) by (refine (eq_rect _ (fun z => app Wh z (1 / 2) 0) (eq_rect _ (fun b => app Wh _ b 0) (const_ok Hw Wh (1) 2 _ _ _) _ _) _ _); [vm_compute; reflexivity|reflexivity|vm_compute; reflexivity|cbn [Z.abs]; lra|unfold rh; lra]).
  assert (Sh : sapp t 0 Wh rh (1 / 2) 0) by (exact (sapp0 t _ _ _ _ Hh)).
  pose (Wqh := fmul Wqq Wh). pose (rqh := rqq * rh).
  assert (Sqh : sapp t 2 Wqh rqh (180337 / 250000) (600643 / 2500000000000000000000)) by (refine (s_mul Hw t (1 / 9671406556917033397649408) HT 2 0 2 _ _ _ _ _ _ _ _ _ _ Sqq Sh eq_refl ltac:(lia) _ _ _ _ _ _ _); rewrite ?u8; lra).
  assert (Syd : sapp t 2 Wyc ryc (1685523 / 5000000) (3042649 / 5000000000000000000000)) by (refine (s_low t (1 / 9671406556917033397649408) HT 2 1 _ _ _ _ (20711 / 50000) _ _ Syc T2 _ _ _ _); cbn [pow]; lra).
  pose (Wz := fsub Wyc Wqh). pose (rz := ryc - rqh).
  assert (Sz : sapp t 2 Wz rz (1058453 / 1000000) (9662989 / 10000000000000000000000)) by (refine (s_sub Hw t (1 / 9671406556917033397649408) HT 2 _ _ _ _ _ _ _ _ _ _ Syd Sqh _ _ _ _ _ _ _); rewrite ?u8; lra).
  assert (Szl : sapp t 1 Wz rz (175373 / 400000) (1000651 / 2500000000000000000000)) by (refine (s_low t (1 / 9671406556917033397649408) HT 1 1 _ _ _ _ (20711 / 50000) _ _ Sz T2 _ _ _ _); cbn [pow]; lra).
  pose (Wr := fadd Wxc Wz). pose (rr := rxc + rz).
  assert (Sr : sapp t 1 Wr rr (1881129 / 1000000) (7692791 / 10000000000000000000000)) by (refine (s_add Hw t (1 / 9671406556917033397649408) HT 1 _ _ _ _ _ _ _ _ _ _ Sxc Szl _ _ _ _ _ _ _); rewrite ?u8; lra).
  change (log2_x8 X) with Wr. destruct Sr as (FR & _ & ER). split; [exact FR|]. cbn [pow] in ER. rewrite Rmult_1_r in ER. change rr with (x * (3248660424278399 / 2251799813685248) + (y * (3248660424278399 / 2251799813685248) - x * (x * (3248660424278399 / 2251799813685248)) * (1 / 2))) in ER.
  pose proof inv_ln2_8 as IL. set (c := / ln 2) in *. clearbody c. set (l := ln (1 + x)) in *. clearbody l. set (zz := real Wr) in *. clearbody zz.
  assert (LC : Rabs (l * ((3248660424278399 / 2251799813685248) - c)) <= (14143 / 10000) * t * (254441 / 12500000000000000000000)) by (apply prod_le; [lra|apply Rabs_le; lra]).
  apply abs_le_inv in ER, PD, LC. apply Rabs_le. lra.
Qed.
Definition loge_x8 (X EE : word 8) : word 8 := fadd X (fsub (fadd (log_y8 X) (fmul EE (c_ln2_small 8))) (fmul (fmul X X) (half 8))).
Lemma log_fin_n8 X EE t e : log_in8 X t -> is_Finite EE = true -> real EE = IZR e -> (1 <= Z.abs e <= 1100)%Z ->
  is_Finite (loge_x8 X EE) = true /\ Rabs (real (loge_x8 X EE) + IZR e * (355 / 512) - (ln (1 + real X) + IZR e * ln 2)) <= (822113 / 5000000000000000000000) * IZR (Z.abs e).
Proof.
  intros HI FE RE HE. destruct (log_y_ok8 X t HI) as (y & Sy & PD). destruct HI as (F & RX & HX & SC). set (Hw := fp8). pose proof (scale_tiny8 t SC) as HT. destruct SC as (T1 & T2). rewrite u8 in T1. destruct (ln1_abs (real X) RX) as (LN & LA).
  pose proof (app_exact X (20711 / 50000) F ltac:(lra)) as Hx. set (x := real X) in *. assert (Sx : sapp t 1 X x 1 0) by (split; [exact F|]; cbn [pow]; split; [lra|unfold x; rewrite Rminus_diag_eq, Rabs_R0 by reflexivity; lra]). pose proof (Rabs_pos x) as XP.
  assert (HA : 1 <= IZR (Z.abs e) <= 1100) by (split; apply IZR_le; lia). rewrite abs_IZR in *. set (A := Rabs (IZR e)) in *.
  pose (Wxx := fmul X X). pose (rxx := x * x).
  assert (Sxx : sapp t 2 Wxx rxx 1 (69389 / 625000000000000000000)) by (refine (s_mul Hw t (1 / 9671406556917033397649408) HT 1 1 2 _ _ _ _ _ _ _ _ _ _ Sx Sx eq_refl ltac:(lia) _ _ _ _ _ _ _); rewrite ?u8; lra).
  pose (Wh := (half 8)). pose (rh := (1 / 2)).
  assert (Hh : app Wh rh (1 / 2) 0) by (refine (eq_rect _ (fun z => app Wh z (1 / 2) 0) (eq_rect _ (fun b => app Wh _ b 0) (const_ok Hw Wh (1) 2 _ _ _) _ _) _ _); [vm_compute; reflexivity|reflexivity|vm_compute; reflexivity|cbn [Z.abs]; lra|unfold rh; lra]).
  assert (Sh : sapp t 0 Wh rh (1 / 2) 0) by (exact (sapp0 t _ _ _ _ Hh)).
  pose (Wxh := fmul Wxx Wh). pose (rxh := rxx * rh).
  assert (Sxh : sapp t 2 Wxh rxh (1 / 2) (69389 / 625000000000000000000)) by (refine (s_mul Hw t (1 / 9671406556917033397649408) HT 2 0 2 _ _ _ _ _ _ _ _ _ _ Sxx Sh eq_refl ltac:(lia) _ _ _ _ _ _ _); rewrite ?u8; lra).
  assert (Sy0 : sapp t 0 (log_y8 X) y (4009149 / 100000000) (271683 / 4000000000000000000000)) by (refine (s_low t (1 / 9671406556917033397649408) HT 0 3 _ _ _ _ (20711 / 50000) _ _ Sy T2 _ _ _ _); cbn [pow]; lra).
  assert (Sh0 : sapp t 0 Wxh rxh (8578911 / 100000000) (1904903 / 100000000000000000000000)) by (refine (s_low t (1 / 9671406556917033397649408) HT 0 2 _ _ _ _ (20711 / 50000) _ _ Sxh T2 _ _ _ _); cbn [pow]; lra).
  assert (Py : papp A (log_y8 X) y (4009149 / 100000000) (271683 / 4000000000000000000000)) by (apply papp_of; [lra|lra|lra|exact (app_of t _ _ _ _ Sy0)]). assert (Ph : papp A Wxh rxh (8578911 / 100000000) (1904903 / 100000000000000000000000)) by (apply papp_of; [lra|lra|lra|exact (app_of t _ _ _ _ Sh0)]). assert (Px : papp A X x (20711 / 50000) 0) by (apply papp_of; [lra|lra|lra|exact Hx]).
  destruct (const_ok Hw (c_ln2_small 8) (-978574132388245) 4611686018427387904 eq_refl eq_refl eq_refl) as (FC & _ & EC). assert (VC : real (c_ln2_small 8) = (- 978574132388245 / 4611686018427387904)) by (clear - EC; apply abs_le_inv in EC; lra).
  pose (WP := fmul EE (c_ln2_small 8)). assert (Pp : papp A WP (IZR e * (- 978574132388245 / 4611686018427387904)) (978574132388245 / 4611686018427387904) (294479 / 12500000000000000000000000)).
  { assert (AB : Rabs (IZR e * (- 978574132388245 / 4611686018427387904)) <= (978574132388245 / 4611686018427387904) * A) by (rewrite Rabs_mult; fold A; assert (Rabs (- 978574132388245 / 4611686018427387904) <= (978574132388245 / 4611686018427387904)) by (apply Rabs_le; lra); nra).
    pose proof B70_big. pose proof (eta_le Hw) as ET. destruct (fmul_real Hw EE (c_ln2_small 8) FE FC) as (G1 & G2); [rewrite RE, VC; lra|]. fold WP in G1, G2. rewrite RE, VC, u8 in G2. split; [exact G1|]. split; [exact AB|]. lra. }
  pose (W1 := fadd (log_y8 X) WP). assert (P1 : papp A W1 (y + IZR e * (- 978574132388245 / 4611686018427387904)) (4030369 / 100000000) (1810473 / 25000000000000000000000)).
  { refine (p_add Hw A _ _ _ _ _ _ _ _ _ _ ltac:(lra) Py Pp _ _ _); [|lra|rewrite u8; lra]. destruct Py as (_ & Q1 & _). destruct Pp as (_ & Q2 & _). eapply Rle_trans; [apply Rabs_triang|]. lra. }
  pose (W2 := fsub W1 Wxh). assert (P2 : papp A W2 (y + IZR e * (- 978574132388245 / 4611686018427387904) - rxh) (9851 / 78125) (1054671 / 10000000000000000000000)).
  { refine (p_sub Hw A _ _ _ _ _ _ _ _ _ _ ltac:(lra) P1 Ph _ _ _); [|lra|rewrite u8; lra]. destruct P1 as (_ & Q1 & _). destruct Ph as (_ & Q2 & _). unfold Rminus. eapply Rle_trans; [apply Rabs_triang|]. rewrite Rabs_Ropp. lra. }
  pose (W3 := fadd X W2). assert (P3 : papp A W3 (x + (y + IZR e * (- 978574132388245 / 4611686018427387904) - rxh)) (1734561 / 5000000) (1439821 / 10000000000000000000000)).
  { refine (p_add Hw A _ _ _ _ _ _ _ _ _ _ ltac:(lra) Px P2 _ _ _); [|lra|rewrite u8; lra]. destruct Pp as (_ & Q2 & _). change rxh with (x * x * (1 / 2)). set (l := ln (1 + x)) in *. clearbody l. set (ec := IZR e * (- 978574132388245 / 4611686018427387904)) in *. clearbody ec. clear - PD LA Q2 HA T1 T2. apply abs_le_inv in PD, LA, Q2. apply Rabs_le. lra. }
  change (loge_x8 X EE) with W3. destruct P3 as (F3 & _ & E3). split; [exact F3|]. change rxh with (x * x * (1 / 2)) in E3.
  assert (LD : Rabs (IZR e * ((355 / 512) + (- 978574132388245 / 4611686018427387904) - ln 2)) <= A * (286459 / 25000000000000000000000000)) by (apply prod_le; [apply Rle_refl|pose proof ln2_num; apply Rabs_le; lra]).
  set (l := ln (1 + x)) in *. clearbody l. set (ll := ln 2) in *. clearbody ll. set (ee := IZR e) in *. clearbody A. set (zz := real W3) in *. clearbody zz. clear - PD E3 LD HA T1 T2. apply abs_le_inv in PD, E3, LD. apply Rabs_le. lra.
Qed.
