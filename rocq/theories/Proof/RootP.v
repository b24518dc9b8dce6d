(** Square roots, reciprocals and reciprocal square roots of one value. *)
From Coq Require Import ZArith Reals List Bool Lia Lra Psatz.
From Verif.Spec Require Import FloatSpec RoundSpec AccuracySpec RootSpec.
From Verif.Model Require Import Word Fp FpArith Transcend ScalarMath Roots.
From Verif.Proof Require Import WordP FpP FpArithP FpIntP RealErrP SqrtP.
Local Open Scope Z_scope.

Section W.
  Context {w : nat} (Hw : fp_width w).
  Notation p := (mant_bits w).
  Notation U := (one_units w).
  Notation top := (top_exp w).

  (** the relative error of one rounding up to half of the largest power of two *)
  Lemma fround_rel neg n d : 0 <= n -> 0 < d -> n <= 2 ^ (top - 1) * d -> 2 ^ p * d <= n ->
    is_Finite (fround w neg n d) = true /\ negative (fround w neg n d) = neg /\ Z.abs (fabs_value (fround w neg n d) * d - n) * 2 ^ (p + 1) <= n.
  Proof using Hw.
    intros Hn Hd H LB. pose proof (below_inf Hw n d Hn Hd H) as B. pose proof (round_magnitude_bound Hw n d Hn Hd) as RB. pose proof (inf_bound Hw) as IB.
    unfold fround. rewrite (negative_with_sign Hw) by lia. split; [apply (finite_with_sign Hw); lia|]. split; [reflexivity|].
    rewrite (fabs_mval Hw), (magnitude_with_sign Hw) by lia. rewrite round_magnitude_rnd in *. assert (ER : Z.min (inf_magnitude w) (rnd p n d) = rnd p n d) by lia. rewrite ER.
    unfold rnd. set (x := n / d). pose proof (mant_pos Hw) as Hp. pose proof (pow_pos2 p ltac:(lia)) as PP. assert (X0 : 2 ^ p <= x) by (apply Z.div_le_lower_bound; lia).
    set (e := Z.max 0 (Z.log2 x - p)). assert (He : 0 <= e) by lia. pose proof (pow_pos2 e He) as PE.
    assert (DE : 0 < d * 2 ^ e) by nia. destruct (rne_cases n (d * 2 ^ e) DE) as [B' C]. set (q := n / (d * 2 ^ e)) in *.
    assert (QX : q = x / 2 ^ e) by (unfold q, x; now rewrite Z.div_div by lia). pose proof (Z.log2_spec x ltac:(lia)) as L.
    assert (LP : p <= Z.log2 x). { apply Z.log2_le_pow2; lia. }
    assert (EE : e = Z.log2 x - p) by lia.
    assert (QB : 2 ^ p <= q < 2 ^ (p + 1)).
    { rewrite QX. split; [apply Z.div_le_lower_bound; [lia|]; rewrite <- Z.pow_add_r by lia; now replace (e + p) with (Z.log2 x) by lia|].
      apply Z.div_lt_upper_bound; [lia|]. rewrite <- Z.pow_add_r by lia. now replace (e + (p + 1)) with (Z.succ (Z.log2 x)) by lia. }
    rewrite mval_ek by (try lia; destruct C as [(-> & _)|(-> & _)]; lia).
    assert (A : 2 * Z.abs (rne n (d * 2 ^ e) * (d * 2 ^ e) - n) <= d * 2 ^ e) by (destruct C as [(-> & C1 & _)|(-> & C1 & _)]; nia).
    rewrite Z.pow_add_r by lia. change (2 ^ 1) with 2.
    replace (rne n (d * 2 ^ e) * 2 ^ e * d) with (rne n (d * 2 ^ e) * (d * 2 ^ e)) by ring. set (t := Z.abs (rne n (d * 2 ^ e) * (d * 2 ^ e) - n)) in *.
    assert (2 * t * 2 ^ p <= d * 2 ^ e * 2 ^ p) by (apply Z.mul_le_mono_nonneg_r; lia). assert (2 ^ p * (d * 2 ^ e) <= q * (d * 2 ^ e)) by (apply Z.mul_le_mono_nonneg_r; lia). nia.
  Qed.

  Lemma nearest_R (y : word w) n d : 0 < d -> nearest y n d -> nearest_real y (IZR n / IZR d / IZR U).
  Proof using Hw.
    intros Hd (F & N). split; [exact F|]. intros z Fz. destruct (N z Fz) as (A & _). pose proof (IUpos Hw) as IU. apply IZR_lt in Hd.
    assert (G : forall v : word w, Rabs (real v - IZR n / IZR d / IZR U) = (IZR (Z.abs (fvalue v * d - n)) * (/ IZR d * / IZR U))%R).
    { intros v. rewrite (real_eq Hw). replace (IZR (fvalue v) / IZR U - IZR n / IZR d / IZR U)%R with (IZR (fvalue v * d - n) * (/ IZR d * / IZR U))%R by (rewrite minus_IZR, mult_IZR; field; lra).
      rewrite Rabs_mult, <- abs_IZR. f_equal. apply Rabs_pos_eq. apply Rmult_le_pos; left; now apply Rinv_0_lt_compat. }
    rewrite !G. apply Rmult_le_compat_r; [|now apply IZR_le]. apply Rmult_le_pos; left; now apply Rinv_0_lt_compat.
  Qed.

  (** large values are even *)
  Lemma large_even (x : word w) : is_Finite x = true -> 2 ^ (p + 1) <= Z.abs (fvalue x) -> Z.even (fvalue x) = true.
  Proof using Hw.
    intros F H. destruct (finite_repr Hw x F) as (k & e & K & E & V & _). rewrite <- (fabs_abs Hw), V in H.
    assert (E1 : 1 <= e). { destruct (Z.eq_dec e 0) as [->|]; [|lia]. change (2 ^ 0) with 1 in H. lia. }
    assert (EV : Z.even (fabs_value x) = true). { rewrite V, Z.even_mul, Z.even_pow by lia. apply orb_true_r. }
    rewrite (fvalue_abs Hw). destruct (negative x); [|now rewrite Z.mul_1_l]. rewrite Z.even_mul, EV. apply orb_true_r.
  Qed.

  (** the square root of V units *)
  Section Root.
    Context (V : Z) (Vp : 0 < V) (Vt : V < 2 ^ top).
    Let n := V * U.
    Let s := Z.sqrt n.
    Let m := 2 * s + (if s * s =? n then 0 else 1).
    Let y := fround w false m 2.
    Lemma root_bounds : 0 <= n /\ 2 ^ (p + 4) <= s /\ 2 * s <= m <= 2 * s + 1 /\ m <= 2 ^ (top - 1) * 2 /\ m <= 2 ^ (2 * unit_exp w - p).
    Proof using Hw Vp Vt.
      destruct (exps Hw) as (P & E & T & _). pose proof (Upos Hw) as UP. assert (N0 : 0 <= n) by (unfold n; nia). split; [exact N0|].
      assert (SB : s < 2 ^ (top - 1)).
      { unfold s. apply Z.sqrt_lt_square; [exact N0|apply Z.pow_nonneg; lia|]. rewrite <- Z.pow_add_r by lia. unfold n. rewrite (units_pow (w := w)).
        eapply Z.lt_le_trans; [apply Z.mul_lt_mono_pos_r; [apply pow_pos2; lia|exact Vt]|]. rewrite <- Z.pow_add_r by lia. apply Z.pow_le_mono_r; lia. }
      assert (SL : 2 ^ (p + 4) <= s).
      { unfold s. rewrite <- (Z.sqrt_square (2 ^ (p + 4))) by (apply Z.pow_nonneg; lia). apply Z.sqrt_le_mono. rewrite <- Z.pow_add_r by lia. unfold n.
        apply Z.le_trans with (1 * U); [|apply Z.mul_le_mono_nonneg_r; lia]. rewrite Z.mul_1_l, (units_pow (w := w)). apply Z.pow_le_mono_r; [lia|]. destruct Hw as [->| ->]; vm_compute; discriminate. }
      assert (SC : s < 2 ^ (2 * unit_exp w - p - 2)).
      { unfold s. apply Z.sqrt_lt_square; [exact N0|apply Z.pow_nonneg; lia|]. rewrite <- Z.pow_add_r by lia. unfold n. rewrite (units_pow (w := w)).
        eapply Z.lt_le_trans; [apply Z.mul_lt_mono_pos_r; [apply pow_pos2; lia|exact Vt]|]. rewrite <- Z.pow_add_r by lia. apply Z.pow_le_mono_r; [lia|]. destruct Hw as [->| ->]; vm_compute; discriminate. }
      assert (PC : 2 ^ (2 * unit_exp w - p) = 4 * 2 ^ (2 * unit_exp w - p - 2)) by (replace (2 * unit_exp w - p) with (2 + (2 * unit_exp w - p - 2)) at 1 by lia; rewrite Z.pow_add_r by lia; reflexivity).
      split; [exact SL|]. unfold m. destruct (s * s =? n); lia.
    Qed.
    Lemma root_real : sqrt (IZR V / IZR U) = (sqrt (IZR n) / IZR U)%R.
    Proof using Hw Vp.
      pose proof (IUpos Hw) as IU. assert (0 < IZR V)%R by (now apply IZR_lt). unfold n. rewrite mult_IZR. replace (IZR V / IZR U)%R with (IZR V * IZR U / (IZR U)²)%R by (unfold Rsqr; field; lra).
      rewrite sqrt_div_alt by (apply Rsqr_pos_lt; lra). rewrite sqrt_Rsqr by lra. reflexivity.
    Qed.
    Lemma root_nearest : nearest_real y (sqrt (IZR V / IZR U)).
    Proof using Hw Vp Vt.
      destruct root_bounds as (N0 & SL & MB & MT & MC). pose proof (mant_pos Hw) as Hp. pose proof (pow_pos2 (p + 1) ltac:(lia)) as P1.
      assert (PW : 2 ^ (p + 4) = 8 * 2 ^ (p + 1)) by (replace (p + 4) with (3 + (p + 1)) by lia; rewrite Z.pow_add_r by lia; reflexivity).
      assert (PW0 : 2 ^ (p + 1) = 2 * 2 ^ p) by (rewrite Z.pow_add_r by lia; change (2 ^ 1) with 2; lia).
      destruct (fround_rel false m 2 ltac:(lia) ltac:(lia) MT ltac:(lia)) as (F & NG & RE). fold y in F, NG, RE.
      assert (YV : fvalue y = fabs_value y) by (rewrite (fvalue_abs Hw), NG; lia). rewrite <- YV in RE.
      assert (RM : nearest y m 2). { replace m with ((if false then -1 else 1) * m) by lia. apply (fround_nearest Hw); [lia..|]. now apply (below_inf Hw); [lia..|]. }
      destruct RM as (_ & RM). split; [exact F|]. intros z Fz. destruct (RM z Fz) as (ND & _). rewrite root_real. pose proof (IUpos Hw) as IU.
      assert (G : forall v : word w, Rabs (real v - sqrt (IZR n) / IZR U) = (Rabs (IZR (fvalue v) - sqrt (IZR n)) * / IZR U)%R).
      { intros v. rewrite (real_eq Hw). replace (IZR (fvalue v) / IZR U - sqrt (IZR n) / IZR U)%R with ((IZR (fvalue v) - sqrt (IZR n)) * / IZR U)%R by (field; lra).
        rewrite Rabs_mult. f_equal. apply Rabs_pos_eq. left. now apply Rinv_0_lt_compat. }
      rewrite !G. apply Rmult_le_compat_r; [left; now apply Rinv_0_lt_compat|].
      set (a := fvalue y) in *. set (b := fvalue z) in *. pose proof (Z.sqrt_spec n N0) as (S1 & S2). fold s in S1, S2. assert (S0 : 0 <= s) by lia. assert (S0R : (0 <= IZR s)%R) by (now apply IZR_le).
      unfold m in *. destruct (Z.eqb_spec (s * s) n) as [E|E].
      - assert (ES : sqrt (IZR n) = IZR s) by (rewrite <- E, mult_IZR; now apply sqrt_square). rewrite ES, <- !minus_IZR, <- !abs_IZR. apply IZR_le. lia.
      - assert (L1 : (IZR s <= sqrt (IZR n))%R). { apply IZR_le in S1. rewrite mult_IZR in S1. rewrite <- (sqrt_square (IZR s)) by exact S0R. now apply sqrt_le_1_alt. }
        assert (L2 : (sqrt (IZR n) <= IZR (s + 1))%R). { rewrite plus_IZR. apply IZR_lt in S2. rewrite mult_IZR, succ_IZR in S2. rewrite <- (sqrt_square (IZR s + 1)) by lra. apply sqrt_le_1_alt. lra. }
        assert (NT : a + b <> 2 * s + 1).
        { intros T. assert (QA : 2 ^ (p + 1) <= Z.abs a) by nia. assert (QB : 2 ^ (p + 1) <= Z.abs b) by nia. apply (large_even y F) in QA. apply (large_even z Fz) in QB. fold a in QA. fold b in QB.
          apply (f_equal Z.even) in T. rewrite Z.even_add, QA, QB in T. rewrite Z.even_add, Z.even_mul in T. discriminate T. }
        set (r := sqrt (IZR n)) in *. rewrite plus_IZR in L2. destruct (Z.le_gt_cases a s) as [A|A], (Z.le_gt_cases b s) as [B|B].
        + assert (b <= a) by lia. apply IZR_le in A, B. apply IZR_le in H. rewrite !Rabs_left1 by lra. lra.
        + assert (H : 2 * s + 2 <= a + b) by lia. assert (B1 : s + 1 <= b) by lia. apply IZR_le in A, B1, H. rewrite !plus_IZR, mult_IZR in H. rewrite plus_IZR in B1. rewrite Rabs_left1, Rabs_pos_eq by lra. lra.
        + assert (H : a + b <= 2 * s) by lia. assert (A1 : s + 1 <= a) by lia. apply IZR_le in A1, B, H. rewrite !plus_IZR, mult_IZR in H. rewrite plus_IZR in A1. rewrite Rabs_pos_eq, Rabs_left1 by lra. lra.
        + assert (H : a <= b) by lia. assert (A1 : s + 1 <= a) by lia. assert (B1 : s + 1 <= b) by lia. apply IZR_le in A1, B1, H. rewrite plus_IZR in A1, B1. rewrite !Rabs_pos_eq by lra. lra.
    Qed.
    Lemma root_rel : (Rabs (real y - sqrt (IZR V / IZR U)) <= 2 * uu (w := w) * sqrt (IZR V / IZR U))%R /\ 0 < fvalue y /\ 2 ^ p <= fabs_value y <= 2 ^ (2 * unit_exp w - p).
    Proof using Hw Vp Vt.
      destruct root_bounds as (N0 & SL & MB & MT & MC). pose proof (mant_pos Hw) as Hp. pose proof (pow_pos2 (p + 1) ltac:(lia)) as P1.
      assert (PW : 2 ^ (p + 4) = 8 * 2 ^ (p + 1)) by (replace (p + 4) with (3 + (p + 1)) by lia; rewrite Z.pow_add_r by lia; reflexivity).
      assert (PW0 : 2 ^ (p + 1) = 2 * 2 ^ p) by (rewrite Z.pow_add_r by lia; change (2 ^ 1) with 2; lia).
      destruct (fround_rel false m 2 ltac:(lia) ltac:(lia) MT ltac:(lia)) as (F & NG & RE). fold y in F, NG, RE.
      assert (YV : fvalue y = fabs_value y) by (rewrite (fvalue_abs Hw), NG; lia). rewrite <- YV in RE. split; [|rewrite <- YV; assert (1 <= 2 ^ p) by lia; nia].
      rewrite root_real, (real_eq Hw). pose proof (IUpos Hw) as IU. assert (Q : (Rabs (IZR (fvalue y) - sqrt (IZR n)) <= 2 * uu (w := w) * sqrt (IZR n))%R).
      { pose proof (sqrt_sticky n N0) as ST. cbv zeta in ST. fold s in ST. fold m in ST. set (r := sqrt (IZR n)) in *.
        assert (SR : (IZR s <= r)%R). { unfold r. rewrite <- (sqrt_square (IZR s)) by (apply IZR_le; lia). apply sqrt_le_1_alt. rewrite <- mult_IZR. apply IZR_le. now apply Z.sqrt_spec. }
        apply IZR_le in RE. rewrite mult_IZR, abs_IZR, minus_IZR, mult_IZR in RE. assert (IP : (0 < IZR (2 ^ (p + 1)))%R) by (now apply IZR_lt).
        assert (SLR : (8 * IZR (2 ^ (p + 1)) <= IZR s)%R) by (rewrite <- mult_IZR; apply IZR_le; lia). unfold uu. destruct MB as (MB1 & MB2). apply IZR_le in MB2. rewrite plus_IZR, mult_IZR in MB2.
        assert (C : (IZR (2 ^ (p + 1)) * Rabs (IZR (fvalue y) - r) <= 2 * r)%R).
        { assert (P2 : (1 <= 2 ^ (p + 1))) by lia. apply IZR_le in P2. apply Rle_trans with (IZR (2 ^ (p + 1)) * (Rabs (IZR (fvalue y) * 2 - IZR m) / 2 + Rabs (IZR m / 2 - r)))%R; [apply Rmult_le_compat_l; [lra|]|].
          - replace (IZR (fvalue y) - r)%R with ((IZR (fvalue y) * 2 - IZR m) / 2 + (IZR m / 2 - r))%R by field. eapply Rle_trans; [apply Rabs_triang|]. unfold Rdiv at 1. rewrite Rabs_mult, (Rabs_pos_eq (/ 2)) by lra. lra.
          - rewrite Rmult_plus_distr_l. assert (IZR (2 ^ (p + 1)) * Rabs (IZR m / 2 - r) <= IZR (2 ^ (p + 1)) * (1 / 2))%R by (apply Rmult_le_compat_l; lra). lra. }
        apply (Rmult_le_reg_l (IZR (2 ^ (p + 1)))); [exact IP|]. replace (IZR (2 ^ (p + 1)) * (2 * / IZR (2 ^ (p + 1)) * r))%R with (2 * r)%R by (field; lra). exact C. }
      replace (IZR (fvalue y) / IZR U - sqrt (IZR n) / IZR U)%R with ((IZR (fvalue y) - sqrt (IZR n)) * / IZR U)%R by (field; lra). rewrite Rabs_mult, (Rabs_pos_eq (/ IZR U)) by (left; now apply Rinv_0_lt_compat).
      replace (2 * uu (w := w) * (sqrt (IZR n) / IZR U))%R with (2 * uu (w := w) * sqrt (IZR n) * / IZR U)%R by (field; lra). apply Rmult_le_compat_r; [left; now apply Rinv_0_lt_compat|exact Q].
    Qed.
  End Root.
End W.
