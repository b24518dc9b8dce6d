(** Floating-point operations as real operations with an error. *)
From Coq Require Import ZArith Reals List Bool Lia Lra Psatz.
From Verif.Spec Require Import FloatSpec RoundSpec AccuracySpec.
From Verif.Model Require Import Word Fp FpArith.
From Verif.Proof Require Import WordP FpP FpArithP FpIntP.
Import ListNotations.
Local Open Scope Z_scope.

Section W.
  Context {w : nat} (Hw : fp_width w).
  Notation p := (mant_bits w).
  Notation U := (one_units w).
  Lemma Upos : 0 < U. Proof. apply (one_units_pos Hw). Qed.
  Lemma real_eq (x : word w) : real x = (IZR (fvalue x) / IZR U)%R.
  Proof. unfold real. now rewrite (fone_units Hw). Qed.
  Lemma IUpos : (0 < IZR U)%R. Proof. apply IZR_lt, Upos. Qed.

  Lemma le_top n d : 0 < d -> n <= 2 ^ 70 * U * d -> n <= 2 ^ (top_exp w - 1) * d.
  Proof using Hw.
    intros Hd H. eapply Z.le_trans; [exact H|]. apply Z.mul_le_mono_nonneg_r; [lia|]. destruct (exps Hw) as (P & E & T & _). rewrite (units_pow (w := w)), <- Z.pow_add_r by lia.
    apply Z.pow_le_mono_r; lia.
  Qed.
  (** one rounding *)
  Lemma fround_err neg n d : 0 <= n -> 0 < d -> n <= 2 ^ 70 * U * d ->
    is_Finite (fround w neg n d) = true /\ negative (fround w neg n d) = neg /\
    (Z.abs (fabs_value (fround w neg n d) * d - n) * 2 ^ (p + 1) <= n \/ 2 * Z.abs (fabs_value (fround w neg n d) * d - n) <= d /\ (d = 1 -> fabs_value (fround w neg n d) = n)).
  Proof using Hw.
    intros Hn Hd H. pose proof (below_inf Hw n d Hn Hd (le_top n d Hd H)) as B. pose proof (round_magnitude_bound Hw n d Hn Hd) as RB. pose proof (inf_bound Hw) as IB.
    unfold fround. rewrite (negative_with_sign Hw) by lia. split; [apply (finite_with_sign Hw); lia|]. split; [reflexivity|].
    rewrite (fabs_mval Hw), (magnitude_with_sign Hw) by lia. rewrite round_magnitude_rnd in *. assert (ER : Z.min (inf_magnitude w) (rnd p n d) = rnd p n d) by lia. rewrite ER.
    unfold rnd. set (x := n / d). assert (X0 : 0 <= x) by (apply Z.div_pos; lia). pose proof (mant_pos Hw) as Hp.
    set (e := Z.max 0 (Z.log2 x - p)). assert (He : 0 <= e) by lia. pose proof (pow_pos2 e He) as PE. pose proof (pow_pos2 p ltac:(lia)) as PP.
    assert (DE : 0 < d * 2 ^ e) by nia. destruct (rne_cases n (d * 2 ^ e) DE) as [B' C]. set (q := n / (d * 2 ^ e)) in *.
    assert (QX : q = x / 2 ^ e) by (unfold q, x; now rewrite Z.div_div by lia).
    assert (XB : x < 2 ^ (p + 1 + e)).
    { destruct (Z.eq_dec x 0) as [->|]; [apply pow_pos2; lia|]. pose proof (Z.log2_spec x ltac:(lia)) as L. eapply Z.lt_le_trans; [apply L|]. apply Z.pow_le_mono_r; lia. }
    assert (QB : 0 <= q < 2 ^ (p + 1)).
    { rewrite QX. split; [apply Z.div_pos; lia|]. apply Z.div_lt_upper_bound; [lia|]. rewrite <- Z.pow_add_r by lia. now replace (e + (p + 1)) with (p + 1 + e) by lia. }
    assert (QL : e = 0 \/ 2 ^ p <= q).
    { destruct (Z.eq_dec e 0) as [|N]; [now left|right]. rewrite QX. apply Z.div_le_lower_bound; [lia|]. rewrite <- Z.pow_add_r by lia.
      assert (x <> 0) by (intros ->; unfold e in N; cbn in N; lia). pose proof (Z.log2_spec x ltac:(lia)) as L. eapply Z.le_trans; [|apply L]. apply Z.pow_le_mono_r; lia. }
    rewrite mval_ek by (try lia; destruct C as [(-> & _)|(-> & _)]; lia).
    assert (A : 2 * Z.abs (rne n (d * 2 ^ e) * (d * 2 ^ e) - n) <= d * 2 ^ e) by (destruct C as [(-> & C1 & _)|(-> & C1 & _)]; nia).
    destruct QL as [E0|Q].
    - right. clear - A E0 Hd. rewrite E0 in *. change (2 ^ 0) with 1 in *. rewrite !Z.mul_1_r in *. split; [lia|]. intros ->. rewrite <- (Z.mul_1_r n) at 1. now rewrite rne_exact by lia.
    - left. rewrite Z.pow_add_r by lia. change (2 ^ 1) with 2.
      replace (rne n (d * 2 ^ e) * 2 ^ e * d) with (rne n (d * 2 ^ e) * (d * 2 ^ e)) by ring. set (t := Z.abs (rne n (d * 2 ^ e) * (d * 2 ^ e) - n)) in *.
      assert (2 * t * 2 ^ p <= d * 2 ^ e * 2 ^ p) by (apply Z.mul_le_mono_nonneg_r; lia). assert (2 ^ p * (d * 2 ^ e) <= q * (d * 2 ^ e)) by (apply Z.mul_le_mono_nonneg_r; lia). nia.
  Qed.

  (** 2 ^ -24 or 2 ^ -53, and half of the smallest number *)
  Definition uu : R := (/ IZR (2 ^ (p + 1)))%R.
  Definition eta : R := (/ (2 * IZR U))%R.
  Lemma uu_pos : (0 < uu)%R.
  Proof using Hw. unfold uu. apply Rinv_0_lt_compat, IZR_lt, pow_pos2. pose proof (mant_pos Hw). lia. Qed.
  Lemma eta_pos : (0 < eta)%R.
  Proof using Hw. unfold eta. apply Rinv_0_lt_compat. pose proof IUpos. lra. Qed.

  (** the result is near r: the exact result n / d (in units) *)
  Lemma fround_real (neg : bool) n d : 0 <= n -> 0 < d -> n <= 2 ^ 70 * U * d ->
    let r := ((if neg then -1 else 1) * (IZR n / IZR d) / IZR U)%R in
    is_Finite (fround w neg n d) = true /\ (Rabs (real (fround w neg n d) - r) <= uu * Rabs r + eta)%R /\
    (d = 1 -> (Rabs (real (fround w neg n d) - r) <= uu * Rabs r)%R).
  Proof using Hw.
    intros Hn Hd H r. destruct (fround_err neg n d Hn Hd H) as (F & N & E). split; [exact F|]. set (y := fround w neg n d) in *.
    pose proof IUpos as IU. assert (ID : (0 < IZR d)%R) by (now apply IZR_lt). assert (IN : (0 <= IZR n)%R) by (now apply IZR_le).
    assert (PP : 0 < 2 ^ (p + 1)) by (apply pow_pos2; pose proof (mant_pos Hw); lia). assert (IP : (0 < IZR (2 ^ (p + 1)))%R) by (now apply IZR_lt).
    assert (RY : real y = ((if neg then -1 else 1) * IZR (fabs_value y) / IZR U)%R).
    { rewrite real_eq, (fvalue_abs Hw), N. destruct neg; rewrite mult_IZR; reflexivity. }
    assert (AR : Rabs r = (IZR n / IZR d / IZR U)%R).
    { unfold r. assert (0 <= IZR n / IZR d / IZR U)%R by (apply Rmult_le_pos; [apply Rmult_le_pos; [auto|left; now apply Rinv_0_lt_compat]|left; now apply Rinv_0_lt_compat]).
      destruct neg; [replace (-1 * (IZR n / IZR d) / IZR U)%R with (- (IZR n / IZR d / IZR U))%R by (unfold Rdiv; ring); rewrite Rabs_Ropp|replace (1 * (IZR n / IZR d) / IZR U)%R with (IZR n / IZR d / IZR U)%R by (unfold Rdiv; ring)]; now apply Rabs_pos_eq. }
    assert (AE : Rabs (real y - r) = (IZR (Z.abs (fabs_value y * d - n)) / IZR d / IZR U)%R).
    { rewrite RY. unfold r. replace ((if neg then -1 else 1) * IZR (fabs_value y) / IZR U - (if neg then -1 else 1) * (IZR n / IZR d) / IZR U)%R
        with ((if neg then -1 else 1) * ((IZR (fabs_value y * d - n) / IZR d / IZR U)))%R by (rewrite minus_IZR, mult_IZR; destruct neg; field; lra).
      rewrite Rabs_mult. replace (Rabs (if neg then -1 else 1)) with 1%R by (destruct neg; unfold Rabs; destruct (Rcase_abs _); lra).
      unfold Rdiv. rewrite !Rabs_mult, (Rabs_pos_eq (/ IZR d)), (Rabs_pos_eq (/ IZR U)) by (left; now apply Rinv_0_lt_compat). rewrite abs_IZR. ring. }
    assert (G : Z.abs (fabs_value y * d - n) * 2 ^ (p + 1) <= n -> (Rabs (real y - r) <= uu * Rabs r)%R).
    { intros G. rewrite AE, AR. apply IZR_le in G. rewrite mult_IZR in G. unfold uu.
      replace (IZR (Z.abs (fabs_value y * d - n)) / IZR d / IZR U)%R with ((IZR (Z.abs (fabs_value y * d - n)) * IZR (2 ^ (p + 1))) * (/ IZR (2 ^ (p + 1)) * / IZR d * / IZR U))%R by (field; lra).
      replace (/ IZR (2 ^ (p + 1)) * (IZR n / IZR d / IZR U))%R with (IZR n * (/ IZR (2 ^ (p + 1)) * / IZR d * / IZR U))%R by (field; lra).
      apply Rmult_le_compat_r; [|exact G]. left. repeat apply Rmult_lt_0_compat; now apply Rinv_0_lt_compat. }
    pose proof eta_pos as EP. pose proof uu_pos as UP. pose proof (Rabs_pos r) as RP. destruct E as [E|[E E1]].
    - specialize (G E). split; [|intros _; exact G]. lra.
    - split.
      + assert (X : (Rabs (real y - r) <= eta)%R); [|nra]. rewrite AE. apply IZR_le in E. rewrite mult_IZR in E. unfold eta.
        replace (/ (2 * IZR U))%R with (IZR d * (/ 2 * / IZR d * / IZR U))%R by (field; lra).
        replace (IZR (Z.abs (fabs_value y * d - n)) / IZR d / IZR U)%R with (2 * IZR (Z.abs (fabs_value y * d - n)) * (/ 2 * / IZR d * / IZR U))%R by (field; lra).
        apply Rmult_le_compat_r; [|exact E]. left. repeat apply Rmult_lt_0_compat; try lra; now apply Rinv_0_lt_compat.
      + intros D1. specialize (E1 D1). rewrite AE, E1, D1, Z.mul_1_r, Z.sub_diag. cbn [Z.abs]. unfold Rdiv. rewrite !Rmult_0_l. nra.
  Qed.
  (** the operations *)
  Definition B70 : R := IZR (2 ^ 70).
  Lemma real_abs (x : word w) : Rabs (real x) = (IZR (fabs_value x) / IZR U)%R.
  Proof using Hw.
    pose proof IUpos. rewrite real_eq. unfold Rdiv. rewrite Rabs_mult, (Rabs_pos_eq (/ IZR U)) by (left; now apply Rinv_0_lt_compat). now rewrite <- abs_IZR, (fabs_abs Hw).
  Qed.
  Lemma fadd_real (a b : word w) : is_Finite a = true -> is_Finite b = true -> (Rabs (real a + real b) <= B70)%R ->
    is_Finite (fadd a b) = true /\ (Rabs (real (fadd a b) - (real a + real b)) <= uu * Rabs (real a + real b))%R.
  Proof using Hw.
    intros Fa Fb H. pose proof IUpos as IU. unfold fadd, nan2, fadd_num. rewrite !(finite_not_nan Hw), !(finite_not_inf Hw) by auto.
    assert (RS : (real a + real b)%R = (IZR (fvalue a + fvalue b) / IZR U)%R) by (rewrite !real_eq, plus_IZR; field; lra).
    destruct (Z.eqb_spec (fvalue a + fvalue b) 0) as [E|E].
    - pose proof (inf_bound Hw). split; [apply (finite_with_sign Hw); lia|]. rewrite real_eq, (fvalue_with_sign Hw) by lia. rewrite mval_0 by (apply (mant_nonneg Hw)). rewrite RS, E.
      replace ((if negative a && negative b then -1 else 1) * 0)%Z with 0%Z by (destruct (negative a && negative b); reflexivity).
      unfold Rdiv. rewrite Rmult_0_l, Rminus_0_r, Rabs_R0. lra.
    - assert (HB : Z.abs (fvalue a + fvalue b) <= 2 ^ 70 * U * 1).
      { apply le_IZR. rewrite !mult_IZR, abs_IZR, Rmult_1_r. rewrite RS in H. unfold Rdiv in H. rewrite Rabs_mult, (Rabs_pos_eq (/ IZR U)) in H by (left; now apply Rinv_0_lt_compat).
        apply (Rmult_le_compat_r (IZR U)) in H; [|lra]. rewrite Rmult_assoc, Rinv_l, Rmult_1_r in H by lra. exact H. }
      destruct (fround_real (fvalue a + fvalue b <? 0) (Z.abs (fvalue a + fvalue b)) 1 ltac:(lia) ltac:(lia) HB) as (F & _ & G). split; [exact F|]. specialize (G eq_refl).
      replace (real a + real b)%R with ((if fvalue a + fvalue b <? 0 then -1 else 1) * (IZR (Z.abs (fvalue a + fvalue b)) / 1) / IZR U)%R; [exact G|].
      rewrite RS. unfold Rdiv. rewrite Rinv_1, Rmult_1_r. f_equal. destruct (Z.ltb_spec (fvalue a + fvalue b) 0); rewrite <- mult_IZR; f_equal; lia.
  Qed.
  Lemma real_fneg (x : word w) : real (fneg x) = (- real x)%R.
  Proof using Hw. pose proof IUpos. rewrite !real_eq. destruct (fneg_value Hw x) as (-> & _). rewrite opp_IZR. field. lra. Qed.
  Lemma fsub_real (a b : word w) : is_Finite a = true -> is_Finite b = true -> (Rabs (real a - real b) <= B70)%R ->
    is_Finite (fsub a b) = true /\ (Rabs (real (fsub a b) - (real a - real b)) <= uu * Rabs (real a - real b))%R.
  Proof using Hw.
    intros Fa Fb H. rewrite (fsub_fadd Hw) by (now apply (finite_not_nan Hw)). unfold Rminus at 2 3. rewrite <- real_fneg. apply fadd_real; auto.
    - destruct (fneg_value Hw b) as (_ & -> & _). exact Fb.
    - now rewrite real_fneg.
  Qed.
  Lemma sign_prod (a b : word w) x : (if xorb (negative a) (negative b) then -1 else 1) * (x * 1) = (if negative a then -1 else 1) * (if negative b then -1 else 1) * x.
  Proof. destruct (negative a), (negative b); cbn [xorb]; lia. Qed.
  Lemma real_sign (a : word w) : real a = ((if negative a then -1 else 1) * Rabs (real a))%R.
  Proof using Hw. pose proof IUpos. rewrite real_abs, real_eq, (fvalue_abs Hw). destruct (negative a); rewrite mult_IZR; field; lra. Qed.
  Lemma fmul_real (a b : word w) : is_Finite a = true -> is_Finite b = true -> (Rabs (real a * real b) <= B70)%R ->
    is_Finite (fmul a b) = true /\ (Rabs (real (fmul a b) - real a * real b) <= uu * Rabs (real a * real b) + eta)%R.
  Proof using Hw.
    intros Fa Fb H. pose proof IUpos as IU. unfold fmul, nan2. rewrite !(finite_not_nan Hw), !(finite_not_inf Hw) by auto. cbn [orb].
    assert (HB : fabs_value a * fabs_value b <= 2 ^ 70 * U * U).
    { apply le_IZR. rewrite !mult_IZR. rewrite Rabs_mult, !real_abs in H. fold B70.
      replace (IZR (fabs_value a) * IZR (fabs_value b))%R with (IZR (fabs_value a) / IZR U * (IZR (fabs_value b) / IZR U) * (IZR U * IZR U))%R by (field; lra).
      rewrite (Rmult_assoc B70). apply Rmult_le_compat_r; [nra|exact H]. }
    pose proof (fabs_nonneg Hw a). pose proof (fabs_nonneg Hw b).
    destruct (fround_real (xorb (negative a) (negative b)) (fabs_value a * fabs_value b) U ltac:(nia) Upos HB) as (F & G & _). split; [exact F|].
    replace (real a * real b)%R with ((if xorb (negative a) (negative b) then -1 else 1) * (IZR (fabs_value a * fabs_value b) / IZR U) / IZR U)%R; [exact G|].
    rewrite (real_sign a), (real_sign b), !real_abs, mult_IZR. destruct (negative a), (negative b); cbn [xorb]; field; lra.
  Qed.
  Lemma fdiv_real (a b : word w) : is_Finite a = true -> is_Finite b = true -> fvalue b <> 0 -> (Rabs (real a / real b) <= B70)%R ->
    is_Finite (fdiv a b) = true /\ (Rabs (real (fdiv a b) - real a / real b) <= uu * Rabs (real a / real b) + eta)%R.
  Proof using Hw.
    intros Fa Fb NZ H. pose proof IUpos as IU. assert (BZ : fabs_value b <> 0) by (rewrite (fvalue_abs Hw) in NZ; destruct (negative b); lia). pose proof (fabs_nonneg Hw b).
    unfold fdiv, nan2. rewrite !(finite_not_nan Hw), !(finite_not_inf Hw), (is_zero_value Hw) by auto. destruct (Z.eqb_spec (fabs_value b) 0); [contradiction|].
    assert (IB : (0 < IZR (fabs_value b))%R) by (apply IZR_lt; lia). assert (SB : (real b <> 0)%R) by (intros E; apply NZ; rewrite real_eq in E; apply eq_IZR; apply (Rmult_eq_compat_r (IZR U)) in E; unfold Rdiv in E; rewrite Rmult_assoc, Rinv_l, Rmult_1_r, Rmult_0_l in E by lra; exact E).
    assert (AB : Rabs (real a / real b) = (IZR (fabs_value a) / IZR (fabs_value b))%R).
    { unfold Rdiv. rewrite Rabs_mult, Rabs_inv, !real_abs. field. split; lra. }
    assert (HB : fabs_value a * one_units w <= 2 ^ 70 * U * fabs_value b).
    { apply le_IZR. rewrite !mult_IZR. rewrite AB in H. fold B70. apply (Rmult_le_compat_r (IZR U * IZR (fabs_value b))) in H; [|nra].
      replace (IZR (fabs_value a) / IZR (fabs_value b) * (IZR U * IZR (fabs_value b)))%R with (IZR (fabs_value a) * IZR U)%R in H by (field; lra). lra. }
    pose proof (fabs_nonneg Hw a). pose proof Upos.
    destruct (fround_real (xorb (negative a) (negative b)) (fabs_value a * one_units w) (fabs_value b) ltac:(nia) ltac:(lia) HB) as (F & G & _). split; [exact F|].
    replace (real a / real b)%R with ((if xorb (negative a) (negative b) then -1 else 1) * (IZR (fabs_value a * one_units w) / IZR (fabs_value b)) / IZR U)%R; [exact G|].
    rewrite mult_IZR. rewrite (real_sign a), (real_sign b), !real_abs. destruct (negative a), (negative b); cbn [xorb]; field; lra.
  Qed.

  (** * approximations: X stands for the real number x, |x| <= B, with an error of at most E *)
  Definition app (X : word w) (x B E : R) : Prop := is_Finite X = true /\ (Rabs x <= B)%R /\ (Rabs (real X - x) <= E)%R.
End W.
Local Open Scope R_scope.
Section A.
  Context {w : nat} (Hw : fp_width w).
  Notation u := (@uu w). Notation et := (@eta w). Notation app := (@app w).
  Lemma app_weak X x B E B' E' : app X x B E -> B <= B' -> E <= E' -> app X x B' E'.
  Proof. intros (F & H1 & H2) HB HE. split; [exact F|]. split; lra. Qed.
  Lemma app_exact X B : is_Finite X = true -> Rabs (real X) <= B -> app X (real X) B 0.
  Proof. intros F H. split; [exact F|]. split; [exact H|]. unfold Rminus. rewrite Rplus_opp_r, Rabs_R0. lra. Qed.
  Lemma round_bound r x B E v y : 0 <= u -> 0 <= et -> Rabs x <= B -> Rabs (r - x) <= E -> Rabs (y - r) <= u * Rabs r + v -> Rabs (y - x) <= E + u * (B + E) + v.
  Proof.
    intros U0 E0 H1 H2 H3. assert (Rabs r <= B + E) by (replace r with (x + (r - x)) by ring; eapply Rle_trans; [apply Rabs_triang|lra]).
    replace (y - x) with ((y - r) + (r - x)) by ring. eapply Rle_trans; [apply Rabs_triang|]. assert (u * Rabs r <= u * (B + E)) by (apply Rmult_le_compat_l; lra). lra.
  Qed.
  Lemma app_add X x B E Y y C D : app X x B E -> app Y y C D -> B + C + (E + D) <= B70 ->
    app (fadd X Y) (x + y) (B + C) (E + D + u * (B + C + (E + D))).
  Proof using Hw.
    intros (F1 & H1 & H2) (F2 & H3 & H4) HB. pose proof (uu_pos Hw) as U0. pose proof (eta_pos Hw) as E0.
    assert (S1 : Rabs (x + y) <= B + C) by (eapply Rle_trans; [apply Rabs_triang|lra]).
    assert (S2 : Rabs (real X + real Y - (x + y)) <= E + D) by (replace (real X + real Y - (x + y)) with ((real X - x) + (real Y - y)) by ring; eapply Rle_trans; [apply Rabs_triang|lra]).
    destruct (fadd_real Hw X Y F1 F2) as (F & G).
    { replace (real X + real Y) with ((x + y) + (real X + real Y - (x + y))) by ring. eapply Rle_trans; [apply Rabs_triang|lra]. }
    split; [exact F|]. split; [exact S1|]. replace (E + D + u * (B + C + (E + D))) with (E + D + u * (B + C + (E + D)) + 0) by ring.
    apply (round_bound (real X + real Y)); auto; lra.
  Qed.
  Lemma app_sub X x B E Y y C D : app X x B E -> app Y y C D -> B + C + (E + D) <= B70 ->
    app (fsub X Y) (x - y) (B + C) (E + D + u * (B + C + (E + D))).
  Proof using Hw.
    intros (F1 & H1 & H2) (F2 & H3 & H4) HB. pose proof (uu_pos Hw) as U0. pose proof (eta_pos Hw) as E0.
    assert (S1 : Rabs (x - y) <= B + C) by (unfold Rminus; eapply Rle_trans; [apply Rabs_triang|rewrite Rabs_Ropp; lra]).
    assert (S2 : Rabs (real X - real Y - (x - y)) <= E + D) by (replace (real X - real Y - (x - y)) with ((real X - x) - (real Y - y)) by ring; unfold Rminus at 1; eapply Rle_trans; [apply Rabs_triang|rewrite Rabs_Ropp; lra]).
    destruct (fsub_real Hw X Y F1 F2) as (F & G).
    { replace (real X - real Y) with ((x - y) + (real X - real Y - (x - y))) by ring. eapply Rle_trans; [apply Rabs_triang|lra]. }
    split; [exact F|]. split; [exact S1|]. replace (E + D + u * (B + C + (E + D))) with (E + D + u * (B + C + (E + D)) + 0) by ring.
    apply (round_bound (real X - real Y)); auto; lra.
  Qed.
  (** with a better bound of the exact result *)
  Lemma app_bound X x B E B' : app X x B E -> Rabs x <= B' -> app X x B' E.
  Proof. intros (F & _ & H) HB. now repeat split. Qed.
  Lemma app_mul X x B E Y y C D : app X x B E -> app Y y C D -> 0 <= B -> 0 <= C -> 0 <= E -> 0 <= D -> B * C + (E * C + B * D + E * D) <= B70 ->
    app (fmul X Y) (x * y) (B * C) ((E * C + B * D + E * D) + u * (B * C + (E * C + B * D + E * D)) + et).
  Proof using Hw.
    intros (F1 & H1 & H2) (F2 & H3 & H4) B0 C0 E0' D0 HB. pose proof (uu_pos Hw) as U0. pose proof (eta_pos Hw) as E0.
    assert (S1 : Rabs (x * y) <= B * C) by (rewrite Rabs_mult; apply Rmult_le_compat; auto using Rabs_pos).
    assert (S2 : Rabs (real X * real Y - x * y) <= E * C + B * D + E * D).
    { replace (real X * real Y - x * y) with ((real X - x) * y + x * (real Y - y) + (real X - x) * (real Y - y)) by ring.
      eapply Rle_trans; [apply Rabs_triang|]. eapply Rle_trans; [apply Rplus_le_compat_r, Rabs_triang|]. rewrite !Rabs_mult.
      repeat apply Rplus_le_compat; apply Rmult_le_compat; auto using Rabs_pos. }
    destruct (fmul_real Hw X Y F1 F2) as (F & G).
    { replace (real X * real Y) with (x * y + (real X * real Y - x * y)) by ring. eapply Rle_trans; [apply Rabs_triang|lra]. }
    split; [exact F|]. split; [exact S1|]. apply (round_bound (real X * real Y)); auto; lra.
  Qed.
End A.
