(** Error bounds that shrink with the argument: X stands for x with |x| <= B t^n and an error of at most E t^n. *)
From Coq Require Import ZArith Reals List Bool Lia Lra Psatz.
From Verif.Spec Require Import FloatSpec RoundSpec AccuracySpec.
From Verif.Model Require Import Word Fp FpArith Transcend.
From Verif.Proof Require Import WordP FpP FpArithP FpIntP RealErrP SeriesP ExpRealP RealOpsP.
Local Open Scope R_scope.

Section S.
  Context {w : nat} (Hw : fp_width w) (t H : R).
  Notation u := (@uu w). Notation et := (@eta w).
  Definition sapp (n : nat) (X : word w) (x B E : R) : Prop := is_Finite X = true /\ Rabs x <= B * t ^ n /\ Rabs (real X - x) <= E * t ^ n.
  Definition tiny : Prop := 0 < t <= 1 /\ forall n, (n <= 4)%nat -> et <= H * t ^ n.
  Lemma tiny_of : 0 < t <= 1 -> 0 <= H -> et <= H * t ^ 4 -> tiny.
  Proof using. intros T H0 E. split; [exact T|]. intros n N. eapply Rle_trans; [exact E|]. apply Rmult_le_compat_l; [exact H0|]. replace 4%nat with (n + (4 - n))%nat by lia. rewrite pow_add. rewrite <- (Rmult_1_r (t ^ n)) at 2. apply Rmult_le_compat_l; [apply pow_le; lra|]. rewrite <- (pow1 (4 - n)). apply pow_incr. lra. Qed.
  Context (HT : tiny).
  Lemma tn n : 0 < t ^ n <= 1.
  Proof using HT. destruct HT as (T & _). split; [apply pow_lt; lra|]. rewrite <- (pow1 n). apply pow_incr. lra. Qed.
  Lemma sapp0 X x B E : app X x B E -> sapp 0 X x B E.
  Proof using. intros (A & B0 & C). split; [exact A|]. simpl. rewrite !Rmult_1_r. auto. Qed.
  Lemma s_low n m X x B E T B' E' : sapp (n + m) X x B E -> t <= T -> 0 <= B -> 0 <= E -> B * T ^ m <= B' -> E * T ^ m <= E' -> sapp n X x B' E'.
  Proof using HT.
    intros (A & B1 & E1) HTT B0 E0 HB HE. rewrite pow_add in *. pose proof (tn n). pose proof (tn m) as TM. destruct HT as (T0 & _). assert (P : t ^ m <= T ^ m) by (apply pow_incr; lra). split; [exact A|]. split.
    - eapply Rle_trans; [exact B1|]. replace (B * (t ^ n * t ^ m)) with (B * t ^ m * t ^ n) by ring. apply Rmult_le_compat_r; [lra|]. eapply Rle_trans; [|exact HB]. apply Rmult_le_compat_l; lra.
    - eapply Rle_trans; [exact E1|]. replace (E * (t ^ n * t ^ m)) with (E * t ^ m * t ^ n) by ring. apply Rmult_le_compat_r; [lra|]. eapply Rle_trans; [|exact HE]. apply Rmult_le_compat_l; lra.
  Qed.
  Lemma s_mul n m k X x B E Y y C D B' E' : sapp n X x B E -> sapp m Y y C D -> k = (n + m)%nat -> (k <= 4)%nat -> 0 <= B -> 0 <= C -> 0 <= E -> 0 <= D -> B * C <= B' -> B * C + (E * C + B * D + E * D) <= 1000000000000 ->
    (E * C + B * D + E * D) + u * (B * C + (E * C + B * D + E * D)) + H <= E' -> sapp k (fmul X Y) (x * y) B' E'.
  Proof using Hw HT.
    intros H1 H2 -> K B0 C0 E0 D0 HB HL HE. pose proof (tn n) as N. pose proof (tn m) as M. pose proof (uu_pos Hw). pose proof B70_big. destruct HT as (_ & HET). specialize (HET _ K). rewrite pow_add in HET. unfold sapp in H1, H2.
    set (s := t ^ n) in *. set (s' := t ^ m) in *. assert (S : 0 < s * s' <= 1) by nra. set (e0 := E * C + B * D + E * D) in *. assert (P0 : 0 <= e0) by (unfold e0; repeat apply Rplus_le_le_0_compat; now apply Rmult_le_pos). assert (P1 : 0 <= B * C) by (now apply Rmult_le_pos).
    destruct (app_mul Hw X x (B * s) (E * s) Y y (C * s') (D * s') H1 H2) as (F & G1 & G2).
    { apply Rmult_le_pos; lra. } { apply Rmult_le_pos; lra. } { apply Rmult_le_pos; lra. } { apply Rmult_le_pos; lra. }
    { replace (B * s * (C * s') + (E * s * (C * s') + B * s * (D * s') + E * s * (D * s'))) with ((B * C + e0) * (s * s')) by (unfold e0; ring). nra. }
    unfold sapp. rewrite pow_add. fold s s'. split; [exact F|]. split; [eapply Rle_trans; [exact G1|]; replace (B * s * (C * s')) with (B * C * (s * s')) by ring; apply Rmult_le_compat_r; lra|].
    eapply Rle_trans; [exact G2|]. eapply Rle_trans; [|apply Rmult_le_compat_r; [lra|exact HE]].
    replace (E * s * (C * s') + B * s * (D * s') + E * s * (D * s') + u * (B * s * (C * s') + (E * s * (C * s') + B * s * (D * s') + E * s * (D * s'))) + et) with ((e0 + u * (B * C + e0)) * (s * s') + et) by (unfold e0; ring). lra.
  Qed.
  Lemma s_add n X x B E Y y C D B' E' : sapp n X x B E -> sapp n Y y C D -> 0 <= B -> 0 <= C -> 0 <= E -> 0 <= D -> B + C <= B' -> B + C + (E + D) <= 1000000000000 -> E + D + u * (B' + (E + D)) <= E' -> sapp n (fadd X Y) (x + y) B' E'.
  Proof using Hw HT.
    intros (F1 & A1 & A2) (F2 & C1 & C2) B0 C0 E0 D0 HB HL HE. pose proof (tn n) as N. pose proof (uu_pos Hw) as U. pose proof (eta_pos Hw). pose proof B70_big. unfold sapp. set (s := t ^ n) in *.
    assert (S1 : Rabs (x + y) <= B' * s) by (eapply Rle_trans; [apply Rabs_triang|]; assert ((B + C) * s <= B' * s) by (apply Rmult_le_compat_r; lra); lra).
    assert (S2 : Rabs (real X + real Y - (x + y)) <= (E + D) * s) by (replace (real X + real Y - (x + y)) with ((real X - x) + (real Y - y)) by ring; eapply Rle_trans; [apply Rabs_triang|lra]).
    assert (S3 : Rabs (real X + real Y) <= B70).
    { replace (real X + real Y) with (x + (y + (real X + real Y - (x + y)))) by ring. eapply Rle_trans; [apply Rabs_triang|]. assert (Rabs (y + (real X + real Y - (x + y))) <= C * s + (E + D) * s) by (eapply Rle_trans; [apply Rabs_triang|lra]). nra. }
    destruct (fadd_real Hw X Y F1 F2 S3) as (F & G). split; [exact F|]. split; [exact S1|]. eapply Rle_trans; [apply (round_bound (w := w) (real X + real Y) (x + y) (B' * s) ((E + D) * s) 0); auto; lra|].
    replace ((E + D) * s + u * (B' * s + (E + D) * s) + 0) with ((E + D + u * (B' + (E + D))) * s) by ring. apply Rmult_le_compat_r; lra.
  Qed.
  Lemma s_sub n X x B E Y y C D B' E' : sapp n X x B E -> sapp n Y y C D -> 0 <= B -> 0 <= C -> 0 <= E -> 0 <= D -> B + C <= B' -> B + C + (E + D) <= 1000000000000 -> E + D + u * (B' + (E + D)) <= E' -> sapp n (fsub X Y) (x - y) B' E'.
  Proof using Hw HT.
    intros (F1 & A1 & A2) (F2 & C1 & C2) B0 C0 E0 D0 HB HL HE. pose proof (tn n) as N. pose proof (uu_pos Hw) as U. pose proof (eta_pos Hw). pose proof B70_big. unfold sapp. set (s := t ^ n) in *.
    assert (S1 : Rabs (x - y) <= B' * s) by (unfold Rminus; eapply Rle_trans; [apply Rabs_triang|]; rewrite Rabs_Ropp; assert ((B + C) * s <= B' * s) by (apply Rmult_le_compat_r; lra); lra).
    assert (S2 : Rabs (real X - real Y - (x - y)) <= (E + D) * s) by (replace (real X - real Y - (x - y)) with ((real X - x) + - (real Y - y)) by ring; eapply Rle_trans; [apply Rabs_triang|rewrite Rabs_Ropp; lra]).
    assert (S3 : Rabs (real X - real Y) <= B70).
    { replace (real X - real Y) with (x + (- y + (real X - real Y - (x - y)))) by ring. eapply Rle_trans; [apply Rabs_triang|]. assert (Rabs (- y + (real X - real Y - (x - y))) <= C * s + (E + D) * s) by (eapply Rle_trans; [apply Rabs_triang|]; rewrite Rabs_Ropp; lra). nra. }
    destruct (fsub_real Hw X Y F1 F2 S3) as (F & G). split; [exact F|]. split; [exact S1|]. eapply Rle_trans; [apply (round_bound (w := w) (real X - real Y) (x - y) (B' * s) ((E + D) * s) 0); auto; lra|].
    replace ((E + D) * s + u * (B' * s + (E + D) * s) + 0) with ((E + D + u * (B' + (E + D))) * s) by ring. apply Rmult_le_compat_r; lra.
  Qed.
  Lemma s_div n X x B E Y y C D m e B' E' : sapp n X x B E -> app Y y C D -> (n <= 4)%nat -> m <= Rabs y -> 0 <= D < m -> 0 <= E -> 0 <= B -> B <= B' * m -> B' <= 1000 -> 0 <= e <= 1000 -> E + B' * D <= e * (m - D) ->
    e + u * (B' + e) + H <= E' -> sapp n (fdiv X Y) (x / y) B' E'.
  Proof using Hw HT.
    intros (F1 & H1 & H2) (F2 & H3 & H4) K HM (D0 & DM) E0 B00 HBm B1 (e0 & e1) He HE. pose proof (tn n) as N. pose proof (uu_pos Hw) as U0. pose proof (eta_pos Hw) as P0. pose proof B70_big. destruct HT as (_ & HET). specialize (HET _ K). unfold sapp. set (s := t ^ n) in *.
    assert (B0 : 0 <= B') by nra.
    assert (Y1 : m - D <= Rabs (real Y)) by (pose proof (Rabs_triang (real Y) (y - real Y)) as T'; replace (real Y + (y - real Y)) with y in T' by ring; rewrite (Rabs_minus_sym y) in T'; lra).
    assert (YN : real Y <> 0) by (intros Z0; rewrite Z0, Rabs_R0 in Y1; lra). assert (yN : y <> 0) by (intros Z0; rewrite Z0, Rabs_R0 in HM; lra).
    assert (HB : Rabs (x / y) <= B' * s).
    { unfold Rdiv. rewrite Rabs_mult, Rabs_inv. apply (Rmult_le_reg_r (Rabs y)); [lra|]. rewrite Rmult_assoc, Rinv_l, Rmult_1_r by lra. eapply Rle_trans; [exact H1|]. apply Rle_trans with (B' * s * m); [nra|]. apply Rmult_le_compat_l; [apply Rmult_le_pos; lra|exact HM]. }
    assert (S2 : Rabs (real X / real Y - x / y) <= e * s).
    { replace (real X / real Y - x / y) with (((real X - x) - x / y * (real Y - y)) * / real Y) by (field; auto). rewrite Rabs_mult, Rabs_inv.
      assert (NN : Rabs (real X - x - x / y * (real Y - y)) <= (E + B' * D) * s).
      { unfold Rminus at 1. eapply Rle_trans; [apply Rabs_triang|]. rewrite Rabs_Ropp, Rabs_mult. replace ((E + B' * D) * s) with (E * s + B' * s * D) by ring. apply Rplus_le_compat; [exact H2|]. apply Rmult_le_compat; auto using Rabs_pos. }
      apply (Rmult_le_reg_r (Rabs (real Y))); [lra|]. rewrite Rmult_assoc, Rinv_l, Rmult_1_r by lra. eapply Rle_trans; [exact NN|]. apply Rle_trans with (e * (m - D) * s); [apply Rmult_le_compat_r; lra|]. replace (e * (m - D) * s) with (e * s * (m - D)) by ring. apply Rmult_le_compat_l; [apply Rmult_le_pos; lra|exact Y1]. }
    destruct (fdiv_real Hw X Y F1 F2 (real_nonzero Hw Y YN)) as (F & G).
    { replace (real X / real Y) with (x / y + (real X / real Y - x / y)) by ring. eapply Rle_trans; [apply Rabs_triang|]. nra. }
    split; [exact F|]. split; [exact HB|]. eapply Rle_trans; [apply (round_bound (w := w) (real X / real Y) (x / y) (B' * s) (e * s) (eta (w := w))); auto; lra|].
    eapply Rle_trans; [|apply Rmult_le_compat_r; [lra|exact HE]]. lra.
  Qed.
End S.
Section F.
  Context {w : nat} (Hw : fp_width w).
  Lemma final_add (a b : word w) T d : is_Finite a = true -> is_Finite b = true -> Rabs (real a + real b - T) <= d -> Rabs T <= 2000 -> d <= 1 ->
    is_Finite (fadd a b) = true /\ Rabs (real (fadd a b) - T) <= d + uu (w := w) * (Rabs T + d).
  Proof using Hw.
    intros Fa Fb Hd HT D1. pose proof B70_big. pose proof (uu_pos Hw) as U. pose proof (eta_pos Hw).
    destruct (fadd_real Hw a b Fa Fb) as (F & G); [replace (real a + real b) with (T + (real a + real b - T)) by ring; eapply Rle_trans; [apply Rabs_triang|lra]|].
    split; [exact F|]. eapply Rle_trans; [apply (round_bound (w := w) (real a + real b) T (Rabs T) d 0); auto; lra|lra].
  Qed.
  Lemma add_zero (a z : word w) : is_Finite a = true -> is_Finite z = true -> fvalue z = 0%Z -> is_Finite (fadd a z) = true /\ real (fadd a z) = real a.
  Proof using Hw.
    intros Fa Fz V. destruct (fadd_repr Hw a z Fa Fz) as (F & E & _); [rewrite V, Z.add_0_r, <- (fabs_abs Hw); now apply finite_repr|]. split; [exact F|]. rewrite !(real_eq Hw), E, V, Z.add_0_r. reflexivity.
  Qed.
  (** a product with a constant *)
  Lemma final_mul (a c : word w) T r e L : is_Finite a = true -> is_Finite c = true -> Rabs (real a - T) <= e * Rabs T -> Rabs T <= 2000 -> 0 <= e <= 1 / 8 -> 0 < real c <= 2 -> Rabs (real c - L) <= r * L -> 0 <= r <= 1 / 8 -> 0 < L ->
    eta (w := w) <= / 1048576 * uu (w := w) * Rabs (T * L) ->
    is_Finite (fmul a c) = true /\ Rabs (real (fmul a c) - T * L) <= (e + r + e * r + uu (w := w) * ((1 + e) * (1 + r) + / 1048576)) * Rabs (T * L).
  Proof using Hw.
    intros Fa Fc Ha HT He Hc Hr Hr' HL HET. pose proof B70_big. pose proof (uu_pos Hw) as U.
    assert (RA : Rabs (real a) <= (1 + e) * Rabs T) by (replace (real a) with (T + (real a - T)) by ring; eapply Rle_trans; [apply Rabs_triang|lra]). pose proof (Rabs_pos T) as T0.
    destruct (fmul_real Hw a c Fa Fc) as (F & G); [rewrite Rabs_mult, (Rabs_pos_eq (real c)) by lra; apply Rle_trans with (3000 * 2); [apply Rmult_le_compat; [apply Rabs_pos|lra|nra|lra]|lra]|]. split; [exact F|].
    assert (D : Rabs (real a * real c - T * L) <= (e + r + e * r) * Rabs (T * L)).
    { replace (real a * real c - T * L) with ((real a - T) * L + T * (real c - L) + (real a - T) * (real c - L)) by ring. rewrite Rabs_mult, (Rabs_pos_eq L) by lra.
      eapply Rle_trans; [apply Rabs_triang|]. eapply Rle_trans; [apply Rplus_le_compat_r, Rabs_triang|]. rewrite !Rabs_mult, (Rabs_pos_eq L) by lra.
      assert (Rabs (real a - T) * L <= e * Rabs T * L) by (apply Rmult_le_compat_r; lra). assert (Rabs T * Rabs (real c - L) <= Rabs T * (r * L)) by (apply Rmult_le_compat_l; lra).
      assert (Rabs (real a - T) * Rabs (real c - L) <= e * Rabs T * (r * L)) by (apply Rmult_le_compat; auto using Rabs_pos). lra. }
    assert (B : Rabs (real a * real c) <= (1 + e) * (1 + r) * Rabs (T * L)) by (replace (real a * real c) with (T * L + (real a * real c - T * L)) by ring; eapply Rle_trans; [apply Rabs_triang|]; lra).
    replace (real (fmul a c) - T * L) with ((real (fmul a c) - real a * real c) + (real a * real c - T * L)) by ring. eapply Rle_trans; [apply Rabs_triang|].
    assert (uu (w := w) * Rabs (real a * real c) <= uu (w := w) * ((1 + e) * (1 + r) * Rabs (T * L))) by (apply Rmult_le_compat_l; lra). lra.
  Qed.
End F.
(** ln (1 + x) *)
Lemma ln_le_sub y : 0 < y -> ln y <= y - 1.
Proof. intros Y. pose proof (exp_ineq1_le (ln y)) as E. rewrite exp_ln in E by exact Y. lra. Qed.
Lemma ln1_bounds x : -1 < x -> x / (1 + x) <= ln (1 + x) <= x.
Proof.
  intros X. split; [|pose proof (ln_le_sub (1 + x) ltac:(lra)); lra]. pose proof (ln_le_sub (/ (1 + x)) ltac:(apply Rinv_0_lt_compat; lra)) as L. rewrite ln_Rinv in L by lra. replace (x / (1 + x)) with (- (/ (1 + x) - 1)) by (field; lra). lra.
Qed.
Lemma ln1_abs x : - (2929 / 10000) <= x <= 41422 / 100000 -> 7071 / 10000 * Rabs x <= Rabs (ln (1 + x)) <= 14143 / 10000 * Rabs x /\ Rabs (ln (1 + x)) <= 3467 / 10000.
Proof.
  intros X. destruct (ln1_bounds x ltac:(lra)) as (L & U). assert (I : 7071 / 10000 <= / (1 + x) <= 14143 / 10000).
  { split; [apply (Rmult_le_reg_r (1 + x)); [lra|]; rewrite Rinv_l by lra; lra|apply (Rmult_le_reg_r (1 + x)); [lra|]; rewrite Rinv_l by lra; lra]. }
  unfold Rdiv in L. split.
  - destruct (Rle_dec 0 x) as [P|N].
    + rewrite (Rabs_pos_eq x), (Rabs_pos_eq (ln _)) by nra. split; nra.
    + rewrite (Rabs_left1 x), (Rabs_left1 (ln _)) by lra. split; nra.
  - assert (S : 2 * ln (1 + x) = ln ((1 + x) * (1 + x))) by (rewrite ln_mult by lra; ring). assert (L2 : 69314 / 100000 <= ln 2 <= 69315 / 100000) by (pose proof ln2_bounds as B; unfold l2 in B; change (IZR (2 ^ 100)) with 1267650600228229401496703205376 in B; change (878668439483319573618263538048 + 1)%Z with 878668439483319573618263538049%Z in B; lra).
    assert (Q : 49999 / 100000 <= (1 + x) * (1 + x) <= 200003 / 100000) by nra. set (y := (1 + x) * (1 + x)) in *.
    assert (U1 : ln y <= ln 2 + 1 / 10000) by (replace y with (2 * (y / 2)) by field; rewrite ln_mult by lra; pose proof (ln_le_sub (y / 2) ltac:(lra)); lra).
    assert (U2 : - ln 2 - 1 / 10000 <= ln y).
    { destruct (ln1_bounds (2 * y - 1) ltac:(lra)) as (G & _). replace (1 + (2 * y - 1)) with (2 * y) in G by ring. rewrite ln_mult in G by lra. assert (- (1 / 10000) <= (2 * y - 1) / (2 * y)); [|lra]. apply (Rmult_le_reg_r (2 * y)); [lra|]. unfold Rdiv. rewrite Rmult_assoc, Rinv_l by lra. lra. }
    apply Rabs_le. lra.
Qed.
