(** atan: its series, the reduction of the argument, and the last steps of the computation. *)
From Coq Require Import ZArith Reals List Bool Lia Lra Psatz.
From Verif.Spec Require Import FloatSpec RoundSpec AccuracySpec.
From Verif.Model Require Import Word Fp FpArith Transcend.
From Verif.Proof Require Import WordP FpP FpArithP FpIntP RealErrP SeriesP PolyP ExpRealP RealOpsP LogRealP LogOpsP.
From Coq Require Import Ratan.
Import ListNotations.
Local Open Scope R_scope.
(** 1 - z/3 + z^2/5 - ... *)
Fixpoint ta (n : nat) (z : R) : R := match n with O => 1 | S m => ta m z + (- z) ^ n / IZR (2 * Z.of_nat n + 1) end.
Lemma alt_pow n z : (- z) ^ n = (-1) ^ n * z ^ n.
Proof. replace (- z) with (-1 * z) by ring. apply Rpow_mult_distr. Qed.
Lemma ta_der n x : derivable_pt_lim (fun x => x * ta n (x * x)) x ((1 - (- (x * x)) ^ S n) / (1 + x * x)).
Proof.
  assert (D0 : 1 + x * x <> 0) by nra. induction n as [|n IH].
  - cbn [ta]. replace ((1 - (- (x * x)) ^ 1) / (1 + x * x)) with 1 by (simpl; field; exact D0). apply (derivable_pt_lim_ext id); [intros; unfold id; ring|apply derivable_pt_lim_id].
  - apply (derivable_pt_lim_ext (fun x => x * ta n (x * x) + (-1) ^ S n * / IZR (2 * Z.of_nat (S n) + 1) * x ^ (2 * S n + 1))).
    { intros y. cbn [ta]. rewrite alt_pow, Rmult_plus_distr_l. f_equal. unfold Rdiv. generalize (S n) as N. intros N. replace (2 * N + 1)%nat with (N + N + 1)%nat by lia. rewrite !pow_add, pow_1, Rpow_mult_distr. ring. }
    set (N := S n) in *. replace ((1 - (- (x * x)) ^ S N) / (1 + x * x)) with ((1 - (- (x * x)) ^ N) / (1 + x * x) + (-1) ^ N * / IZR (2 * Z.of_nat N + 1) * (INR (2 * N + 1) * x ^ pred (2 * N + 1))).
    { apply (derivable_pt_lim_plus (fun x => x * ta n (x * x)) (fun x => (-1) ^ N * / IZR (2 * Z.of_nat N + 1) * x ^ (2 * N + 1))); [exact IH|]. apply (derivable_pt_lim_scal (fun x => x ^ (2 * N + 1))). apply derivable_pt_lim_pow. }
    replace (INR (2 * N + 1)) with (IZR (2 * Z.of_nat N + 1)) by (rewrite INR_IZR_INZ; f_equal; lia). assert (ND : IZR (2 * Z.of_nat N + 1) <> 0) by (apply not_0_IZR; lia).
    replace (pred (2 * N + 1)) with (N + N)%nat by lia. rewrite pow_add. cbn [pow]. rewrite alt_pow, Rpow_mult_distr. set (p := x ^ N). set (s := (-1) ^ N). field. split; assumption.
Qed.
Lemma atan_ta n x b : Rabs x <= b -> Rabs (atan x - x * ta n (x * x)) <= (b * b) ^ S n * Rabs x.
Proof.
  intros X. assert (B0 : 0 <= b) by (pose proof (Rabs_pos x); lra).
  pose proof (mvt_bound (fun x => atan x - x * ta n (x * x)) (fun x => / (1 + x ^ 2) - (1 - (- (x * x)) ^ S n) / (1 + x * x)) (- b) b ((b * b) ^ S n)) as M.
  assert (Q : forall x, - b <= x <= b -> x * x <= b * b) by (intros; nra).
  assert (M1 : forall x, - b <= x <= b -> derivable_pt_lim (fun x => atan x - x * ta n (x * x)) x (/ (1 + x ^ 2) - (1 - (- (x * x)) ^ S n) / (1 + x * x))).
  { intros y Hy. apply (derivable_pt_lim_minus atan (fun x => x * ta n (x * x))); [apply derivable_pt_lim_atan|apply ta_der]. }
  assert (M2 : forall x, - b <= x <= b -> Rabs (/ (1 + x ^ 2) - (1 - (- (x * x)) ^ S n) / (1 + x * x)) <= (b * b) ^ S n).
  { intros y Hy. specialize (Q y Hy). assert (P : 0 <= y * y) by nra. replace (/ (1 + y ^ 2) - (1 - (- (y * y)) ^ S n) / (1 + y * y)) with ((- (y * y)) ^ S n * / (1 + y * y)) by (simpl (y ^ 2); rewrite Rmult_1_r; field; nra).
    rewrite Rabs_mult, <- RPow_abs, Rabs_Ropp, (Rabs_pos_eq (y * y)), Rabs_pos_eq by (try (left; apply Rinv_0_lt_compat); nra). assert (I : / (1 + y * y) <= 1) by (rewrite <- Rinv_1; apply Rinv_le_contravar; lra). assert (I0 : 0 < / (1 + y * y)) by (apply Rinv_0_lt_compat; lra).
    assert (W : (y * y) ^ S n <= (b * b) ^ S n) by (apply pow_incr; lra). assert (0 <= (y * y) ^ S n) by (apply pow_le; lra). nra. }
  specialize (M M1 M2 0 x). apply abs_le_inv in X. specialize (M ltac:(lra) ltac:(lra)). cbv beta in M. rewrite atan_0, Rmult_0_l, !Rminus_0_r in M. exact M.
Qed.
Lemma atan_abs_le x : Rabs (atan x) <= Rabs x.
Proof.
  pose proof (mvt_bound atan (fun x => / (1 + x ^ 2)) (- Rabs x) (Rabs x) 1) as M. pose proof (Rabs_pos x). specialize (M (fun y _ => derivable_pt_lim_atan y)).
  assert (M2 : forall y, - Rabs x <= y <= Rabs x -> Rabs (/ (1 + y ^ 2)) <= 1) by (intros y _; assert (1 <= 1 + y ^ 2) by (simpl; nra); rewrite Rabs_pos_eq by (left; apply Rinv_0_lt_compat; lra); rewrite <- Rinv_1; apply Rinv_le_contravar; lra).
  specialize (M M2 0 x ltac:(lra) ltac:(pose proof (Rle_abs x); pose proof (Rle_abs (- x)); rewrite Rabs_Ropp in *; lra)). rewrite atan_0, !Rminus_0_r in M. lra.
Qed.
Lemma atan_lip x y : Rabs (atan x - atan y) <= Rabs (x - y).
Proof.
  assert (K : forall m, Rabs x <= m -> Rabs y <= m -> Rabs (atan x - atan y) <= 1 * Rabs (x - y)); [|specialize (K (Rmax (Rabs x) (Rabs y)) (Rmax_l _ _) (Rmax_r _ _)); lra].
  intros m X Y. apply abs_le_inv in X, Y. apply (mvt_bound atan (fun x => / (1 + x ^ 2)) (- m) m 1); [intros; apply derivable_pt_lim_atan| |lra|lra].
  intros z _. assert (1 <= 1 + z ^ 2) by (simpl; nra). rewrite Rabs_pos_eq by (left; apply Rinv_0_lt_compat; lra). rewrite <- Rinv_1. apply Rinv_le_contravar; lra.
Qed.
(** |atan x| is between |x| / (1 + b^2) and |x|, and atan x - x is at most b^2 |x| in absolute value *)
Lemma atan_low x b : Rabs x <= b -> Rabs x / (1 + b * b) <= Rabs (atan x) /\ Rabs (atan x - x) <= b * b / 3 * Rabs x + b * b * (b * b) * Rabs x.
Proof.
  intros X. pose proof (Rabs_pos x) as P. split.
  - assert (Q : forall z, 0 <= z <= b -> z / (1 + b * b) <= atan z).
    { intros z Z. destruct (Req_dec z 0) as [->|NZ]; [rewrite atan_0; unfold Rdiv; lra|]. destruct (MVT_cor2 atan (fun x => / (1 + x ^ 2)) 0 z ltac:(lra) (fun c _ => derivable_pt_lim_atan c)) as (c & E & C). rewrite atan_0, !Rminus_0_r in E. rewrite E. unfold Rdiv. rewrite Rmult_comm. apply Rmult_le_compat_r; [lra|]. apply Rinv_le_contravar; simpl; nra. }
    unfold Rabs at 2. destruct (Rcase_abs (atan x)) as [N|N].
    + assert (x < 0) by (destruct (Rle_lt_dec 0 x) as [L|L]; [|exact L]; destruct (Req_dec x 0) as [E|E]; [rewrite E, atan_0 in N; lra|]; pose proof (atan_increasing 0 x ltac:(lra)); rewrite atan_0 in *; lra). rewrite Rabs_left in * by lra. rewrite <- atan_opp. apply Q. lra.
    + assert (0 <= x) by (destruct (Rle_lt_dec 0 x) as [L|L]; [exact L|]; pose proof (atan_increasing x 0 L); rewrite atan_0 in *; lra). rewrite Rabs_pos_eq in * by lra. apply Q. lra.
  - pose proof (atan_ta 1 x b X) as T. cbn [ta pow] in T. change (IZR (2 * Z.of_nat 1 + 1)) with 3 in T. replace (atan x - x) with ((atan x - x * (1 + - (x * x) * 1 / 3)) + - (x * x / 3) * x) by field. eapply Rle_trans; [apply Rabs_triang|]. rewrite Rabs_mult, Rabs_Ropp. rewrite (Rabs_pos_eq (x * x / 3)) by nra.
    assert (x * x <= b * b) by (apply abs_le_inv in X; nra). assert (x * x / 3 * Rabs x <= b * b / 3 * Rabs x) by (apply Rmult_le_compat_r; lra). lra.
Qed.
(** the reductions *)
Lemma atan_mid x : 0 < x -> atan x = PI / 4 + atan ((x - 1) / (x + 1)).
Proof.
  intros X. pose proof PI_RGT_0. pose proof (atan_bound x) as B. pose proof (atan_increasing 0 x X) as I. rewrite atan_0 in I. rewrite <- atan_1. replace ((x - 1) / (x + 1)) with (atan_sub x 1) by (unfold atan_sub; f_equal; ring).
  apply atan_sub_correct; [lra|rewrite atan_1; lra|apply atan_bound].
Qed.
Lemma atan_large x : 0 < x -> atan x = PI / 2 + atan (-1 / x).
Proof. intros X. replace (-1 / x) with (- (/ x)) by (field; lra). rewrite atan_opp, atan_inv by exact X. lra. Qed.
(** z A z / B z against -z/3 + z^2/5 - ... *)
Definition at_num (A B S : list Z) (L : Z) : list Z := padd (pscale L (pmul [0%Z; 1%Z] A)) (pscale (-1) (pmul B S)).
Definition at_diff (A B S : list Z) (L cn cd sg : Z) : list Z := padd (pscale (cn * L) B) (pscale (sg * cd) (at_num A B S L)).
Lemma atan_rat A B S L n cn cd s h N z : (0 < L)%Z -> (0 < cd)%Z -> (0 < h)%Z -> (0 <= s)%Z -> (0 < N)%nat -> (forall z, 1 + pe S z / IZR L = ta n z) ->
  ppos (at_diff A B S L cn cd 1) s 0 h N = true -> ppos (at_diff A B S L cn cd (-1)) s 0 h N = true -> 0 <= z * IZR (2 ^ s) <= IZR (2 * h * Z.of_nat N) -> 0 < pe B z ->
  Rabs (z * (pe A z / pe B z) - (ta n z - 1)) <= IZR cn / IZR cd.
Proof.
  intros HL Hcd Hh Hs HN HS P1 P2 HR PB. pose proof (ppos_ok _ s h Hs Hh N 0 P1 HN z HR) as Q1. pose proof (ppos_ok _ s h Hs Hh N 0 P2 HN z HR) as Q2. clear P1 P2 HR.
  unfold at_diff, at_num in Q1, Q2. rewrite !pe_add, !pe_scale, !pe_add, !pe_scale, !pe_mul in Q1, Q2. cbn [pe] in Q1, Q2. rewrite <- HS. apply IZR_lt in HL, Hcd. rewrite !mult_IZR in *. set (a := pe A z) in *. set (b := pe B z) in *. set (t := pe S z) in *. set (l := IZR L) in *. clearbody a b t l.
  assert (K : 0 < l * b) by (now apply Rmult_lt_0_compat). replace (z * (a / b) - (1 + t / l - 1)) with ((l * (z * a) - b * t) / (l * b)) by (field; lra).
  assert (D : Rabs (l * (z * a) - b * t) <= IZR cn / IZR cd * (l * b)).
  { apply Rabs_le. split; apply (Rmult_le_reg_r (IZR cd)); auto; unfold Rdiv; field_simplify; try lra. }
  unfold Rdiv at 1. rewrite Rabs_mult, Rabs_inv, (Rabs_pos_eq (l * b)) by lra. apply (Rmult_le_reg_r (l * b)); [exact K|]. rewrite Rmult_assoc, Rinv_l, Rmult_1_r by lra. exact D.
Qed.
(** x + tau x, as computed *)
Lemma atan_fin {w} (Hw : fp_width w) (M X T : word w) tau B E kap ec : is_Finite T = true -> is_Finite X = true -> Rabs tau <= B -> Rabs (real T - tau) <= E -> Rabs (real X) <= 1 -> 0 <= B <= 1 -> 0 <= E <= 1 / 8 -> 0 <= kap <= 1 / 8 ->
  Rabs (real X * tau + real X - atan (real X)) <= kap * Rabs (real X) -> (Rabs (real T * real X) <= B70 -> is_Finite M = true /\ Rabs (real M - real T * real X) <= uu (w := w) * Rabs (real T * real X) + eta (w := w)) ->
  E + uu (w := w) * (B + E) + kap <= ec -> is_Finite (fadd M X) = true /\ Rabs (real (fadd M X) - atan (real X)) <= (ec * Rabs (real X) + eta (w := w)) + uu (w := w) * (Rabs (real X) + (ec * Rabs (real X) + eta (w := w))).
Proof.
  intros FT FX BT ET X1 B0 E0 K0 AP HM EC. pose proof (uu_pos Hw) as U. pose proof (eta_pos Hw) as P. pose proof B70_big. pose proof (eta_le Hw) as EL. set (x := real X) in *. pose proof (Rabs_pos x) as XP.
  assert (TA : Rabs (real T) <= B + E) by (replace (real T) with (tau + (real T - tau)) by ring; eapply Rle_trans; [apply Rabs_triang|lra]).
  destruct HM as (FM & EM); [rewrite Rabs_mult; pose proof (Rabs_pos (real T)); nra|].
  assert (UL : uu (w := w) <= / 16777216) by (destruct Hw as [->| ->]; [rewrite u4|rewrite u8]; lra).
  assert (D : Rabs (real M + x - atan x) <= (E + uu (w := w) * (B + E) + kap) * Rabs x + eta (w := w)).
  { replace (real M + x - atan x) with ((real M - real T * x) + ((real T - tau) * x + (x * tau + x - atan x))) by ring. eapply Rle_trans; [apply Rabs_triang|]. pose proof (Rabs_triang ((real T - tau) * x) (x * tau + x - atan x)) as T2. rewrite (Rabs_mult (real T - tau)) in T2. rewrite Rabs_mult in EM.
    assert (Rabs (real T - tau) * Rabs x <= E * Rabs x) by (apply Rmult_le_compat_r; lra). assert (uu (w := w) * (Rabs (real T) * Rabs x) <= uu (w := w) * ((B + E) * Rabs x)) by (apply Rmult_le_compat_l; [lra|]; apply Rmult_le_compat_r; lra). lra. }
  assert (ECX : (E + uu (w := w) * (B + E) + kap) * Rabs x <= ec * Rabs x) by (apply Rmult_le_compat_r; lra).
  pose proof (atan_abs_le x) as AL.
  assert (SM : (E + uu (w := w) * (B + E) + kap) * Rabs x + eta (w := w) <= 1) by (assert (uu (w := w) * (B + E) <= / 16777216 * 2) by (apply Rmult_le_compat; lra); assert ((E + uu (w := w) * (B + E) + kap) * Rabs x <= 1 / 2 * 1) by (apply Rmult_le_compat; try lra; pose proof (Rmult_le_pos (uu (w := w)) (B + E)); lra); lra).
  destruct (final_add Hw M X (atan x) _ FM FX D) as (F & R); [lra|exact SM|]. split; [exact F|]. eapply Rle_trans; [exact R|]. assert (uu (w := w) * (Rabs (atan x) + ((E + uu (w := w) * (B + E) + kap) * Rabs x + eta (w := w))) <= uu (w := w) * (Rabs x + (ec * Rabs x + eta (w := w)))) by (apply Rmult_le_compat_l; lra). lra.
Qed.
