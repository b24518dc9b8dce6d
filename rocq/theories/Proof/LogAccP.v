(** log, log2 and log10 of every finite positive number. *)
From Coq Require Import ZArith Reals List Bool Lia Lra Psatz.
From Verif.Spec Require Import FloatSpec RoundSpec AccuracySpec TransSpec.
From Verif.Model Require Import Word Fp FpArith Transcend.
From Verif.Proof Require Import WordP FpP FpArithP FpIntP Transcend3P RealErrP SeriesP PolyP ExpRealP RealOpsP ExpSerP ExpRedP ExpAccP FoldP LogRealP LogRedP LogOpsP LogSerP.
Import ListNotations.
Local Open Scope R_scope.
Lemma ln_pow2 e : ln (pow2 e) = IZR e * ln 2.
Proof. unfold pow2. apply ln_exp. Qed.
Lemma value_pos_inj {w} (Hw : fp_width w) (x y : word w) : fvalue x = fvalue y -> (0 < fvalue x)%Z -> x = y.
Proof.
  intros E P. apply (same_value Hw).
  - rewrite !(fabs_abs Hw), E. reflexivity.
  - pose proof (fabs_nonneg Hw x). pose proof (fabs_nonneg Hw y). rewrite (fvalue_abs Hw) in E, P. rewrite (fvalue_abs Hw y) in E. destruct (negative x), (negative y); lia || reflexivity.
Qed.

Section L4.
  Context (X XX EE : word 4) (e a : Z) (F : is_Finite X = true) (P0 : 0 < real X) (HR : log_reduce 4 X = (XX, EE)) (FX : is_Finite XX = true) (FE : is_Finite EE = true) (VE : fvalue EE = (e * one_units 4)%Z)
    (HE : (Z.abs e <= 1100)%Z) (RX : real XX = IZR a * uu (w := 4)) (B : - (2929 / 10000) <= real XX <= 41422 / 100000) (HX : real X = (1 + real XX) * pow2 e).
  Notation x := (real XX).
  Lemma ln_split4 : ln (real X) = ln (1 + x) + IZR e * ln 2.
  Proof using F P0 HR FX FE VE HE RX B HX. rewrite HX, ln_mult, ln_pow2; [reflexivity|lra|apply pow2_pos]. Qed.
  Lemma calc_4 b : log_calc 4 b X = log_finish b XX (fmul XX XX) (log_y4 XX) EE.
  Proof using F P0 HR FX FE VE HE RX B HX. rewrite (log_calc_reduced fp4 b X F P0), HR. cbn [fst snd]. exact (log_series_y4 b XX EE). Qed.
  Lemma scale_x4 : a <> 0%Z -> log_in4 XX (Rabs x).
  Proof using F P0 HR FX FE VE HE RX B HX.
    intros A. split; [exact FX|]. split; [exact B|]. split; [apply Rle_refl|]. split; [|apply Rabs_le; lra]. rewrite RX, Rabs_mult, <- abs_IZR. pose proof (uu_pos fp4) as U. rewrite (Rabs_pos_eq (uu (w := 4))) by lra. assert (1 <= IZR (Z.abs a)) by (apply IZR_le; lia). nra.
  Qed.
  Lemma scale_any4 : exists t, log_in4 XX t.
  Proof using F P0 HR FX FE VE HE RX B HX.
    destruct (Z.eq_dec a 0) as [A|A]; [|exists (Rabs x); now apply scale_x4]. exists (uu (w := 4)). assert (R0 : x = 0) by (rewrite RX, A; lra). split; [exact FX|]. split; [exact B|]. rewrite R0, Rabs_R0. pose proof (uu_pos fp4). split; [lra|]. split; [lra|]. rewrite u4. lra.
  Qed.
  Lemma large4 : is_Finite (fmul EE (c_ln2_large 4)) = true /\ fvalue (fmul EE (c_ln2_large 4)) = (e * 355 * 2 ^ 140)%Z.
  Proof using F P0 HR FX FE VE HE RX B HX. refine (mul_int_exact fp4 EE (c_ln2_large 4) e 355 140 FE _ VE _ _ _ _); [reflexivity|vm_compute; reflexivity|change (mant_bits 4 + 1)%Z with 24%Z; change (2 ^ 24)%Z with 16777216%Z; lia|lia|apply Z.leb_le; vm_compute; reflexivity]. Qed.
  Lemma large_real4 : real (fmul EE (c_ln2_large 4)) = IZR e * (355 / 512).
  Proof using F P0 HR FX FE VE HE RX B HX. destruct large4 as (_ & V). refine (scaled_real fp4 _ e 355 140 512 V _ _); [lia|vm_compute; reflexivity]. Qed.
  (** the natural logarithm *)
  Lemma base_e4 : e <> 0%Z \/ a <> 0%Z -> is_Finite (log_calc 4 BaseE X) = true /\ Rabs (real (log_calc 4 BaseE X) - ln (real X)) <= (2189277 / 10000000000000) * Rabs (ln (real X)) /\ (7 / 167772160) <= Rabs (ln (real X)) <= 2000.
  Proof using F P0 HR FX FE VE HE RX B HX.
    intros N. rewrite calc_4. change (log_finish BaseE XX (fmul XX XX) (log_y4 XX) EE) with (fadd (loge_x4 XX EE) (fmul EE (c_ln2_large 4))).
    rewrite ln_split4. destruct (ln1_abs x B) as (LN & LA). destruct large4 as (FL & VL). pose proof large_real4 as RL. pose proof ln2_num as L2. destruct (Z.eq_dec e 0) as [E0|E0].
    - assert (A : a <> 0%Z) by lia. pose proof (scale_x4 A) as HI. rewrite E0 in VE, VL, RL |- *. rewrite Rmult_0_l, Rplus_0_r.
      assert (X1 : (1 / 16777216) <= Rabs x) by (destruct HI as (_ & _ & _ & (S & _)); rewrite u4 in S; lra). assert (X2 : Rabs x <= (20711 / 50000)) by (apply Rabs_le; lra).
      destruct (mul_int_exact fp4 EE (c_ln2_small 4) 0 (fvalue (c_ln2_small 4)) 0 FE eq_refl VE) as (FS & VS); [now rewrite Z.mul_1_r|reflexivity|lia|vm_compute; discriminate|]. rewrite Z.mul_0_l in VS. cbn [Z.mul] in VS.
      assert (FY : is_Finite (log_y4 XX) = true) by (destruct (log_y_ok4 XX _ HI) as (y & (FY & _) & _); exact FY).
      destruct (add_zero fp4 (log_y4 XX) _ FY FS VS) as (FY' & RY').
      destruct (log_fin_e4 XX _ (Rabs x) HI FY' RY') as (FZ & EZ).
      destruct (final_add fp4 XX _ _ _ FX FZ EZ) as (F3 & E3); [lra|lra|].
      change (fadd XX (fsub (fadd (log_y4 XX) (fmul EE (c_ln2_small 4))) (fmul (fmul XX XX) (half 4)))) with (loge_x4 XX EE) in F3, E3.
      destruct (add_zero fp4 (loge_x4 XX EE) _ F3 FL VL) as (F4 & E4). split; [exact F4|]. rewrite E4. rewrite u4 in E3. split; [|lra].
      eapply Rle_trans; [exact E3|]. set (tt := Rabs x) in *. set (T := Rabs (ln (1 + x))) in *. clearbody tt T. clear - LN. lra.
    - destruct scale_any4 as (t & HI). assert (RE : real EE = IZR e) by (apply (real_int fp4); exact VE).
      destruct (log_fin_n4 XX EE t e HI FE RE ltac:(lia)) as (F3 & E3). assert (A1 : 1 <= IZR (Z.abs e) <= 1100) by (split; apply IZR_le; lia).
      assert (TL : (433 / 1250) * IZR (Z.abs e) <= Rabs (ln (1 + x) + IZR e * ln 2) <= 1000).
      { rewrite abs_IZR in *. split.
        - pose proof (Rabs_triang (ln (1 + x) + IZR e * ln 2) (- ln (1 + x))) as T. replace (ln (1 + x) + IZR e * ln 2 + - ln (1 + x)) with (IZR e * ln 2) in T by ring. rewrite Rabs_Ropp, Rabs_mult, (Rabs_pos_eq (ln 2)) in T by lra. assert (69314 / 100000 * Rabs (IZR e) <= Rabs (IZR e) * ln 2) by nra. lra.
        - eapply Rle_trans; [apply Rabs_triang|]. rewrite Rabs_mult, (Rabs_pos_eq (ln 2)) by lra. assert (Rabs (IZR e) * ln 2 <= 1100 * (7 / 10)) by (apply Rmult_le_compat; lra). lra. }
      destruct (final_add fp4 (loge_x4 XX EE) (fmul EE (c_ln2_large 4)) (ln (1 + x) + IZR e * ln 2) ((5518947 / 100000000000000) * IZR (Z.abs e)) F3 FL) as (F4 & E4); [rewrite RL; exact E3|lra|lra|]. rewrite u4 in E4. split; [exact F4|]. split; [|lra].
      eapply Rle_trans; [exact E4|]. clear - TL A1. set (T := Rabs (ln (1 + x) + IZR e * ln 2)) in *. set (A := IZR (Z.abs e)) in *. clearbody T A. lra.
  Qed.
  Lemma base_10_4 : e <> 0%Z \/ a <> 0%Z -> is_Finite (log_calc 4 Base10 X) = true /\ Rabs (real (log_calc 4 Base10 X) - ln (real X) / ln 10) <= / 2097152 * Rabs (ln (real X) / ln 10).
  Proof using F P0 HR FX FE VE HE RX B HX.
    intros N. destruct (base_e4 N) as (F1 & E1 & B1). assert (L : log_calc 4 Base10 X = fmul (log_calc 4 BaseE X) (c_log10_e 4)) by (rewrite !calc_4; reflexivity). rewrite L. clear L.
    assert (IL : (537630527988735440381982549 / 1237940039285380274899124224) <= / ln 10 <= (268815263994367720190991275 / 618970019642690137449562112)) by (pose proof ln10_num as L; split; (apply (Rmult_le_reg_r (ln 10)); [lra|]; rewrite Rinv_l by lra; lra)).
    destruct (const_ok fp4 (c_log10_e 4) 14572505 33554432 eq_refl eq_refl eq_refl) as (FC & _ & EC). assert (VC : real (c_log10_e 4) = (14572505 / 33554432)) by (clear - EC; apply abs_le_inv in EC; lra).
    unfold Rdiv. destruct (final_mul fp4 (log_calc 4 BaseE X) (c_log10_e 4) (ln (real X)) (1163157 / 50000000000000) (2189277 / 10000000000000) (/ ln 10) F1 FC E1) as (F2 & E2); [lra|lra|rewrite VC; lra|rewrite VC; apply Rabs_le; lra|lra|lra| |].
    - rewrite Rabs_mult, (Rabs_pos_eq (/ ln 10)), u4 by lra. pose proof (eta_le fp4) as ET. apply Rle_trans with (/ 1048576 * / 16777216 * ((7 / 167772160) * (43 / 100))); [lra|apply Rmult_le_compat_l; [lra|]; apply Rmult_le_compat; lra].
    - rewrite u4 in E2. split; [exact F2|]. eapply Rle_trans; [exact E2|]. apply Rmult_le_compat_r; [apply Rabs_pos|lra].
  Qed.
  Lemma base_2_4 : e <> 0%Z \/ a <> 0%Z -> is_Finite (log_calc 4 Base2 X) = true /\ Rabs (real (log_calc 4 Base2 X) - ln (real X) / ln 2) <= / 2097152 * Rabs (ln (real X) / ln 2).
  Proof using F P0 HR FX FE VE HE RX B HX.
    intros N. rewrite calc_4. change (log_finish Base2 XX (fmul XX XX) (log_y4 XX) EE) with (fadd (log2_x4 XX) EE). pose proof inv_ln2_4 as IL. pose proof ln2_num as L2. destruct (ln1_abs x B) as (LN & LA).
    assert (TE : ln (real X) / ln 2 = ln (1 + x) * / ln 2 + IZR e) by (rewrite ln_split4; field; lra). rewrite TE. destruct (Z.eq_dec e 0) as [E0|E0].
    - assert (A : a <> 0%Z) by lia. pose proof (scale_x4 A) as HI. rewrite E0 in VE |- *. rewrite Rplus_0_r. destruct (log_fin_2_4 XX (Rabs x) HI) as (F1 & E1). destruct (add_zero fp4 (log2_x4 XX) EE F1 FE VE) as (F2 & E2). split; [exact F2|]. rewrite E2. eapply Rle_trans; [exact E1|].
      rewrite Rabs_mult, (Rabs_pos_eq (/ ln 2)) by lra. assert ((7071 / 10000) * Rabs x * (892984977797453331270606843 / 618970019642690137449562112) <= Rabs (ln (1 + x)) * / ln 2) by (apply Rmult_le_compat; [pose proof (Rabs_pos x); lra|lra|lra|lra]). pose proof (Rabs_pos x). set (tt := Rabs x) in *. set (T := Rabs (ln (1 + x)) * / ln 2) in *. clearbody tt T. clear - H H0. lra.
    - destruct scale_any4 as (t & HI). assert (RE : real EE = IZR e) by (apply (real_int fp4); exact VE). destruct (log_fin_2_4 XX t HI) as (F1 & E1). destruct HI as (_ & _ & _ & (_ & T2)).
      assert (A1 : 1 <= IZR (Z.abs e) <= 1100) by (split; apply IZR_le; lia).
      assert (LB : Rabs (ln (1 + x) * / ln 2) <= 5003 / 10000) by (rewrite Rabs_mult, (Rabs_pos_eq (/ ln 2)) by lra; apply Rle_trans with ((3467 / 10000) * (1785969955594906662541213687 / 1237940039285380274899124224)); [apply Rmult_le_compat; [apply Rabs_pos|lra|lra|lra]|lra]).
      assert (TL : 4997 / 10000 <= Rabs (ln (1 + x) * / ln 2 + IZR e) <= 2000).
      { rewrite abs_IZR in A1. split; [|eapply Rle_trans; [apply Rabs_triang|lra]]. pose proof (Rabs_triang (ln (1 + x) * / ln 2 + IZR e) (- (ln (1 + x) * / ln 2))) as T. replace (ln (1 + x) * / ln 2 + IZR e + - (ln (1 + x) * / ln 2)) with (IZR e) in T by ring. rewrite Rabs_Ropp in T. lra. }
      destruct (final_add fp4 (log2_x4 XX) EE (ln (1 + x) * / ln 2 + IZR e) (300003 / 2000000000000) F1 FE) as (F2 & E2); [|lra|lra|].
      + rewrite RE. replace (real (log2_x4 XX) + IZR e - (ln (1 + x) * / ln 2 + IZR e)) with (real (log2_x4 XX) - ln (1 + x) * / ln 2) by ring. lra.
      + rewrite u4 in E2. split; [exact F2|]. eapply Rle_trans; [exact E2|]. set (T := Rabs _) in *. clearbody T. clear - TL. lra.
  Qed.
End L4.
Lemma log_ok4 (X : word 4) : is_Finite X = true -> 0 < real X ->
  accurate (log_calc 4 BaseE X) (ln (real X)) (/ 2097152 * Rabs (ln (real X))) /\ accurate (log_calc 4 Base10 X) (ln (real X) / ln 10) (/ 2097152 * Rabs (ln (real X) / ln 10)) /\
  accurate (log_calc 4 Base2 X) (ln (real X) / ln 2) (/ 2097152 * Rabs (ln (real X) / ln 2)).
Proof.
  intros F P0. destruct (log_reduced fp4 X F P0) as (XX & EE & e & a & HR & FX & FE & VE & HE & RX & B & HX).
  destruct (Z.eq_dec e 0) as [E0|E0]; [destruct (Z.eq_dec a 0) as [A0|A0]|].
  - assert (R1 : real X = 1) by (rewrite HX, RX, E0, A0; replace (pow2 0) with 1 by (unfold pow2; rewrite Rmult_0_l, exp_0; reflexivity); lra).
    assert (XE : X = one 4).
    { assert (VO : fvalue (one 4) = one_units 4) by (vm_compute; reflexivity). assert (V : fvalue X = fvalue (one 4)) by (rewrite VO; rewrite (real_eq fp4) in R1; pose proof (IUpos fp4) as IU; apply eq_IZR; apply (f_equal (fun r => r * IZR (one_units 4))) in R1; unfold Rdiv in R1; rewrite Rmult_assoc, Rinv_l in R1 by lra; lra).
      apply (value_pos_inj fp4); [exact V|rewrite V; vm_compute; reflexivity]. }
    assert (Z0 : real (w0 4) = 0) by (rewrite (real_eq fp4); change (fvalue (w0 4)) with 0%Z; unfold Rdiv; lra).
    rewrite R1, XE, !(log_one fp4), ln_1. unfold accurate. rewrite Z0. unfold Rdiv. rewrite !Rmult_0_l, Rminus_0_r, Rabs_R0, Rmult_0_r. repeat split; try reflexivity; lra.
  - assert (N : e <> 0%Z \/ a <> 0%Z) by (now right). destruct (base_e4 X XX EE e a F P0 HR FX FE VE HE RX B HX N) as (F1 & E1 & _). split; [split; [exact F1|]; eapply Rle_trans; [exact E1|]; apply Rmult_le_compat_r; [apply Rabs_pos|lra]|]. split; [exact (base_10_4 X XX EE e a F P0 HR FX FE VE HE RX B HX N)|exact (base_2_4 X XX EE e a F P0 HR FX FE VE HE RX B HX N)].
  - assert (N : e <> 0%Z \/ a <> 0%Z) by (now left). destruct (base_e4 X XX EE e a F P0 HR FX FE VE HE RX B HX N) as (F1 & E1 & _). split; [split; [exact F1|]; eapply Rle_trans; [exact E1|]; apply Rmult_le_compat_r; [apply Rabs_pos|lra]|]. split; [exact (base_10_4 X XX EE e a F P0 HR FX FE VE HE RX B HX N)|exact (base_2_4 X XX EE e a F P0 HR FX FE VE HE RX B HX N)].
Qed.
Section L8.
  Context (X XX EE : word 8) (e a : Z) (F : is_Finite X = true) (P0 : 0 < real X) (HR : log_reduce 8 X = (XX, EE)) (FX : is_Finite XX = true) (FE : is_Finite EE = true) (VE : fvalue EE = (e * one_units 8)%Z)
    (HE : (Z.abs e <= 1100)%Z) (RX : real XX = IZR a * uu (w := 8)) (B : - (2929 / 10000) <= real XX <= 41422 / 100000) (HX : real X = (1 + real XX) * pow2 e).
  Notation x := (real XX).
  Lemma ln_split8 : ln (real X) = ln (1 + x) + IZR e * ln 2.
  Proof using F P0 HR FX FE VE HE RX B HX. rewrite HX, ln_mult, ln_pow2; [reflexivity|lra|apply pow2_pos]. Qed.
  Lemma calc_8 b : log_calc 8 b X = log_finish b XX (fmul XX XX) (log_y8 XX) EE.
  Proof using F P0 HR FX FE VE HE RX B HX. rewrite (log_calc_reduced fp8 b X F P0), HR. cbn [fst snd]. exact (log_series_y8 b XX EE). Qed.
  Lemma scale_x8 : a <> 0%Z -> log_in8 XX (Rabs x).
  Proof using F P0 HR FX FE VE HE RX B HX.
    intros A. split; [exact FX|]. split; [exact B|]. split; [apply Rle_refl|]. split; [|apply Rabs_le; lra]. rewrite RX, Rabs_mult, <- abs_IZR. pose proof (uu_pos fp8) as U. rewrite (Rabs_pos_eq (uu (w := 8))) by lra. assert (1 <= IZR (Z.abs a)) by (apply IZR_le; lia). nra.
  Qed.
  Lemma scale_any8 : exists t, log_in8 XX t.
  Proof using F P0 HR FX FE VE HE RX B HX.
    destruct (Z.eq_dec a 0) as [A|A]; [|exists (Rabs x); now apply scale_x8]. exists (uu (w := 8)). assert (R0 : x = 0) by (rewrite RX, A; lra). split; [exact FX|]. split; [exact B|]. rewrite R0, Rabs_R0. pose proof (uu_pos fp8). split; [lra|]. split; [lra|]. rewrite u8. lra.
  Qed.
  Lemma large8 : is_Finite (fmul EE (c_ln2_large 8)) = true /\ fvalue (fmul EE (c_ln2_large 8)) = (e * 355 * 2 ^ 1065)%Z.
  Proof using F P0 HR FX FE VE HE RX B HX. refine (mul_int_exact fp8 EE (c_ln2_large 8) e 355 1065 FE _ VE _ _ _ _); [reflexivity|vm_compute; reflexivity|change (mant_bits 8 + 1)%Z with 53%Z; change (2 ^ 53)%Z with 9007199254740992%Z; lia|lia|apply Z.leb_le; vm_compute; reflexivity]. Qed.
  Lemma large_real8 : real (fmul EE (c_ln2_large 8)) = IZR e * (355 / 512).
  Proof using F P0 HR FX FE VE HE RX B HX. destruct large8 as (_ & V). refine (scaled_real fp8 _ e 355 1065 512 V _ _); [lia|vm_compute; reflexivity]. Qed.
  (** the natural logarithm *)
  Lemma base_e8 : e <> 0%Z \/ a <> 0%Z -> is_Finite (log_calc 8 BaseE X) = true /\ Rabs (real (log_calc 8 BaseE X) - ln (real X)) <= (2928417 / 5000000000000000000000) * Rabs (ln (real X)) /\ (7 / 90071992547409920) <= Rabs (ln (real X)) <= 2000.
  Proof using F P0 HR FX FE VE HE RX B HX.
    intros N. rewrite calc_8. change (log_finish BaseE XX (fmul XX XX) (log_y8 XX) EE) with (fadd (loge_x8 XX EE) (fmul EE (c_ln2_large 8))).
    rewrite ln_split8. destruct (ln1_abs x B) as (LN & LA). destruct large8 as (FL & VL). pose proof large_real8 as RL. pose proof ln2_num as L2. destruct (Z.eq_dec e 0) as [E0|E0].
    - assert (A : a <> 0%Z) by lia. pose proof (scale_x8 A) as HI. rewrite E0 in VE, VL, RL |- *. rewrite Rmult_0_l, Rplus_0_r.
      assert (X1 : (1 / 9007199254740992) <= Rabs x) by (destruct HI as (_ & _ & _ & (S & _)); rewrite u8 in S; lra). assert (X2 : Rabs x <= (20711 / 50000)) by (apply Rabs_le; lra).
      destruct (mul_int_exact fp8 EE (c_ln2_small 8) 0 (fvalue (c_ln2_small 8)) 0 FE eq_refl VE) as (FS & VS); [now rewrite Z.mul_1_r|reflexivity|lia|vm_compute; discriminate|]. rewrite Z.mul_0_l in VS. cbn [Z.mul] in VS.
      assert (FY : is_Finite (log_y8 XX) = true) by (destruct (log_y_ok8 XX _ HI) as (y & (FY & _) & _); exact FY).
      destruct (add_zero fp8 (log_y8 XX) _ FY FS VS) as (FY' & RY').
      destruct (log_fin_e8 XX _ (Rabs x) HI FY' RY') as (FZ & EZ).
      destruct (final_add fp8 XX _ _ _ FX FZ EZ) as (F3 & E3); [lra|lra|].
      change (fadd XX (fsub (fadd (log_y8 XX) (fmul EE (c_ln2_small 8))) (fmul (fmul XX XX) (half 8)))) with (loge_x8 XX EE) in F3, E3.
      destruct (add_zero fp8 (loge_x8 XX EE) _ F3 FL VL) as (F4 & E4). split; [exact F4|]. rewrite E4. rewrite u8 in E3. split; [|lra].
      eapply Rle_trans; [exact E3|]. set (tt := Rabs x) in *. set (T := Rabs (ln (1 + x))) in *. clearbody tt T. clear - LN. lra.
    - destruct scale_any8 as (t & HI). assert (RE : real EE = IZR e) by (apply (real_int fp8); exact VE).
      destruct (log_fin_n8 XX EE t e HI FE RE ltac:(lia)) as (F3 & E3). assert (A1 : 1 <= IZR (Z.abs e) <= 1100) by (split; apply IZR_le; lia).
      assert (TL : (433 / 1250) * IZR (Z.abs e) <= Rabs (ln (1 + x) + IZR e * ln 2) <= 1000).
      { rewrite abs_IZR in *. split.
        - pose proof (Rabs_triang (ln (1 + x) + IZR e * ln 2) (- ln (1 + x))) as T. replace (ln (1 + x) + IZR e * ln 2 + - ln (1 + x)) with (IZR e * ln 2) in T by ring. rewrite Rabs_Ropp, Rabs_mult, (Rabs_pos_eq (ln 2)) in T by lra. assert (69314 / 100000 * Rabs (IZR e) <= Rabs (IZR e) * ln 2) by nra. lra.
        - eapply Rle_trans; [apply Rabs_triang|]. rewrite Rabs_mult, (Rabs_pos_eq (ln 2)) by lra. assert (Rabs (IZR e) * ln 2 <= 1100 * (7 / 10)) by (apply Rmult_le_compat; lra). lra. }
      destruct (final_add fp8 (loge_x8 XX EE) (fmul EE (c_ln2_large 8)) (ln (1 + x) + IZR e * ln 2) ((822113 / 5000000000000000000000) * IZR (Z.abs e)) F3 FL) as (F4 & E4); [rewrite RL; exact E3|lra|lra|]. rewrite u8 in E4. split; [exact F4|]. split; [|lra].
      eapply Rle_trans; [exact E4|]. clear - TL A1. set (T := Rabs (ln (1 + x) + IZR e * ln 2)) in *. set (A := IZR (Z.abs e)) in *. clearbody T A. lra.
  Qed.
  Lemma base_10_8 : e <> 0%Z \/ a <> 0%Z -> is_Finite (log_calc 8 Base10 X) = true /\ Rabs (real (log_calc 8 Base10 X) - ln (real X) / ln 10) <= / 1125899906842624 * Rabs (ln (real X) / ln 10).
  Proof using F P0 HR FX FE VE HE RX B HX.
    intros N. destruct (base_e8 N) as (F1 & E1 & B1). assert (L : log_calc 8 Base10 X = fmul (log_calc 8 BaseE X) (c_log10_e 8)) by (rewrite !calc_8; reflexivity). rewrite L. clear L.
    assert (IL : (537630527988735440381982549 / 1237940039285380274899124224) <= / ln 10 <= (268815263994367720190991275 / 618970019642690137449562112)) by (pose proof ln10_num as L; split; (apply (Rmult_le_reg_r (ln 10)); [lra|]; rewrite Rinv_l by lra; lra)).
    destruct (const_ok fp8 (c_log10_e 8) 3911776933737095 9007199254740992 eq_refl eq_refl eq_refl) as (FC & _ & EC). assert (VC : real (c_log10_e 8) = (3911776933737095 / 9007199254740992)) by (clear - EC; apply abs_le_inv in EC; lra).
    unfold Rdiv. destruct (final_mul fp8 (log_calc 8 BaseE X) (c_log10_e 8) (ln (real X)) (101159 / 4000000000000000000000) (2928417 / 5000000000000000000000) (/ ln 10) F1 FC E1) as (F2 & E2); [lra|lra|rewrite VC; lra|rewrite VC; apply Rabs_le; lra|lra|lra| |].
    - rewrite Rabs_mult, (Rabs_pos_eq (/ ln 10)), u8 by lra. pose proof (eta_le fp8) as ET. apply Rle_trans with (/ 1048576 * / 9007199254740992 * ((7 / 90071992547409920) * (43 / 100))); [idtac|apply Rmult_le_compat_l; [lra|]; apply Rmult_le_compat; lra].
      unfold eta. apply Rle_trans with (/ 2582249878086908589655919172003011874329705792829223512830659356540647622016841194629645353280137831435903171972747493376); [apply Rinv_le_contravar; [lra|]; rewrite <- mult_IZR; apply IZR_le; apply Z.leb_le; vm_compute; reflexivity|lra].
    - rewrite u8 in E2. split; [exact F2|]. eapply Rle_trans; [exact E2|]. apply Rmult_le_compat_r; [apply Rabs_pos|lra].
  Qed.
  Lemma base_2_8 : e <> 0%Z \/ a <> 0%Z -> is_Finite (log_calc 8 Base2 X) = true /\ Rabs (real (log_calc 8 Base2 X) - ln (real X) / ln 2) <= / 1125899906842624 * Rabs (ln (real X) / ln 2).
  Proof using F P0 HR FX FE VE HE RX B HX.
    intros N. rewrite calc_8. change (log_finish Base2 XX (fmul XX XX) (log_y8 XX) EE) with (fadd (log2_x8 XX) EE). pose proof inv_ln2_8 as IL. pose proof ln2_num as L2. destruct (ln1_abs x B) as (LN & LA).
    assert (TE : ln (real X) / ln 2 = ln (1 + x) * / ln 2 + IZR e) by (rewrite ln_split8; field; lra). rewrite TE. destruct (Z.eq_dec e 0) as [E0|E0].
    - assert (A : a <> 0%Z) by lia. pose proof (scale_x8 A) as HI. rewrite E0 in VE |- *. rewrite Rplus_0_r. destruct (log_fin_2_8 XX (Rabs x) HI) as (F1 & E1). destruct (add_zero fp8 (log2_x8 XX) EE F1 FE VE) as (F2 & E2). split; [exact F2|]. rewrite E2. eapply Rle_trans; [exact E1|].
      rewrite Rabs_mult, (Rabs_pos_eq (/ ln 2)) by lra. assert ((7071 / 10000) * Rabs x * (892984977797453331270606843 / 618970019642690137449562112) <= Rabs (ln (1 + x)) * / ln 2) by (apply Rmult_le_compat; [pose proof (Rabs_pos x); lra|lra|lra|lra]). pose proof (Rabs_pos x). set (tt := Rabs x) in *. set (T := Rabs (ln (1 + x)) * / ln 2) in *. clearbody tt T. clear - H H0. lra.
    - destruct scale_any8 as (t & HI). assert (RE : real EE = IZR e) by (apply (real_int fp8); exact VE). destruct (log_fin_2_8 XX t HI) as (F1 & E1). destruct HI as (_ & _ & _ & (_ & T2)).
      assert (A1 : 1 <= IZR (Z.abs e) <= 1100) by (split; apply IZR_le; lia).
      assert (LB : Rabs (ln (1 + x) * / ln 2) <= 5003 / 10000) by (rewrite Rabs_mult, (Rabs_pos_eq (/ ln 2)) by lra; apply Rle_trans with ((3467 / 10000) * (1785969955594906662541213687 / 1237940039285380274899124224)); [apply Rmult_le_compat; [apply Rabs_pos|lra|lra|lra]|lra]).
      assert (TL : 4997 / 10000 <= Rabs (ln (1 + x) * / ln 2 + IZR e) <= 2000).
      { rewrite abs_IZR in A1. split; [|eapply Rle_trans; [apply Rabs_triang|lra]]. pose proof (Rabs_triang (ln (1 + x) * / ln 2 + IZR e) (- (ln (1 + x) * / ln 2))) as T. replace (ln (1 + x) * / ln 2 + IZR e + - (ln (1 + x) * / ln 2)) with (IZR e) in T by ring. rewrite Rabs_Ropp in T. lra. }
      destruct (final_add fp8 (log2_x8 XX) EE (ln (1 + x) * / ln 2 + IZR e) (720097 / 2000000000000000000000) F1 FE) as (F2 & E2); [|lra|lra|].
      + rewrite RE. replace (real (log2_x8 XX) + IZR e - (ln (1 + x) * / ln 2 + IZR e)) with (real (log2_x8 XX) - ln (1 + x) * / ln 2) by ring. lra.
      + rewrite u8 in E2. split; [exact F2|]. eapply Rle_trans; [exact E2|]. set (T := Rabs _) in *. clearbody T. clear - TL. lra.
  Qed.
End L8.
Lemma log_ok8 (X : word 8) : is_Finite X = true -> 0 < real X ->
  accurate (log_calc 8 BaseE X) (ln (real X)) (/ 1125899906842624 * Rabs (ln (real X))) /\ accurate (log_calc 8 Base10 X) (ln (real X) / ln 10) (/ 1125899906842624 * Rabs (ln (real X) / ln 10)) /\
  accurate (log_calc 8 Base2 X) (ln (real X) / ln 2) (/ 1125899906842624 * Rabs (ln (real X) / ln 2)).
Proof.
  intros F P0. destruct (log_reduced fp8 X F P0) as (XX & EE & e & a & HR & FX & FE & VE & HE & RX & B & HX).
  destruct (Z.eq_dec e 0) as [E0|E0]; [destruct (Z.eq_dec a 0) as [A0|A0]|].
  - assert (R1 : real X = 1) by (rewrite HX, RX, E0, A0; replace (pow2 0) with 1 by (unfold pow2; rewrite Rmult_0_l, exp_0; reflexivity); lra).
    assert (XE : X = one 8).
    { assert (VO : fvalue (one 8) = one_units 8) by (vm_compute; reflexivity). assert (V : fvalue X = fvalue (one 8)) by (rewrite VO; rewrite (real_eq fp8) in R1; pose proof (IUpos fp8) as IU; apply eq_IZR; apply (f_equal (fun r => r * IZR (one_units 8))) in R1; unfold Rdiv in R1; rewrite Rmult_assoc, Rinv_l in R1 by lra; lra).
      apply (value_pos_inj fp8); [exact V|rewrite V; vm_compute; reflexivity]. }
    assert (Z0 : real (w0 8) = 0) by (rewrite (real_eq fp8); change (fvalue (w0 8)) with 0%Z; unfold Rdiv; lra).
    rewrite R1, XE, !(log_one fp8), ln_1. unfold accurate. rewrite Z0. unfold Rdiv. rewrite !Rmult_0_l, Rminus_0_r, Rabs_R0, Rmult_0_r. repeat split; try reflexivity; lra.
  - assert (N : e <> 0%Z \/ a <> 0%Z) by (now right). destruct (base_e8 X XX EE e a F P0 HR FX FE VE HE RX B HX N) as (F1 & E1 & _). split; [split; [exact F1|]; eapply Rle_trans; [exact E1|]; apply Rmult_le_compat_r; [apply Rabs_pos|lra]|]. split; [exact (base_10_8 X XX EE e a F P0 HR FX FE VE HE RX B HX N)|exact (base_2_8 X XX EE e a F P0 HR FX FE VE HE RX B HX N)].
  - assert (N : e <> 0%Z \/ a <> 0%Z) by (now left). destruct (base_e8 X XX EE e a F P0 HR FX FE VE HE RX B HX N) as (F1 & E1 & _). split; [split; [exact F1|]; eapply Rle_trans; [exact E1|]; apply Rmult_le_compat_r; [apply Rabs_pos|lra]|]. split; [exact (base_10_8 X XX EE e a F P0 HR FX FE VE HE RX B HX N)|exact (base_2_8 X XX EE e a F P0 HR FX FE VE HE RX B HX N)].
Qed.
