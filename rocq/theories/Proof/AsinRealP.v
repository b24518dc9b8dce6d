(** asin of real numbers: comparison with x + x z P(z) / Q(z), z = x^2, by the derivative. *)
From Coq Require Import ZArith Reals List Bool Lia Lra Psatz.
From Verif.Proof Require Import PolyP ExpRealP LogRealP FoldP.
From Coq Require Import Ratan.
Import ListNotations.
Local Open Scope R_scope.

Lemma sin_le x : 0 <= x -> sin x <= x.
Proof. intros X. destruct (Req_dec x 0) as [->|N]; [rewrite sin_0; lra|]. left. apply sin_lt_x. lra. Qed.
Lemma asin_pos x : 0 <= x <= 1 -> 0 <= asin x <= PI / 2.
Proof.
  intros X. pose proof (asin_bound x) as B. split; [|lra]. destruct (Rle_dec 0 (asin x)) as [|N]; [assumption|]. exfalso. pose proof PI_RGT_0.
  assert (sin (asin x) < 0) by (apply sin_lt_0_var; lra). rewrite sin_asin in H0; lra.
Qed.
Lemma asin_ge x : 0 <= x <= 1 -> x <= asin x.
Proof. intros X. pose proof (asin_pos x X). pose proof (sin_le (asin x) ltac:(lra)) as S. rewrite sin_asin in S; lra. Qed.
Lemma asin_half : asin (1 / 2) = PI / 6.
Proof. rewrite <- sin_PI6. apply asin_sin. pose proof PI_RGT_0. lra. Qed.
Lemma asin_mono x y : -1 <= x -> x <= y -> y <= 1 -> asin x <= asin y.
Proof.
  intros X XY Y. destruct (Rle_dec (asin x) (asin y)) as [|N]; [assumption|]. exfalso. pose proof (asin_bound x). pose proof (asin_bound y).
  assert (sin (asin y) < sin (asin x)) by (apply sin_increasing_1; lra). rewrite !sin_asin in H1; lra.
Qed.
(** the upper half of the interval *)
Lemma asin_upper a : 0 <= a <= 1 -> let b := sqrt ((1 - a) / 2) in asin a = PI / 2 - 2 * asin b.
Proof.
  intros A b. assert (B2 : b * b = (1 - a) / 2) by (unfold b; apply sqrt_sqrt; lra). assert (B0 : 0 <= b) by (apply sqrt_pos). assert (B1 : b <= 1) by nra.
  pose proof (asin_pos b ltac:(lra)) as AB. set (t := asin b) in *. assert (St : sin t = b) by (unfold t; apply sin_asin; lra).
  assert (E : a = sin (PI / 2 - 2 * t)) by (rewrite sin_shift, cos_2a_sin, St; nra). rewrite E at 1. apply asin_sin. lra.
Qed.
Lemma upper_root a h : h <= a <= 1 -> 0 <= h -> 0 <= sqrt ((1 - a) / 2) /\ sqrt ((1 - a) / 2) * sqrt ((1 - a) / 2) = (1 - a) / 2 /\ sqrt ((1 - a) / 2) <= 1.
Proof. intros A H. assert (S : sqrt ((1 - a) / 2) * sqrt ((1 - a) / 2) = (1 - a) / 2) by (apply sqrt_sqrt; lra). pose proof (sqrt_pos ((1 - a) / 2)). repeat split; try lra. nra. Qed.

(** ** the derivative decides *)
Lemma der_asin x : 0 <= x < 1 -> derivable_pt_lim asin x (/ sqrt (1 - x * x)) /\ 0 < / sqrt (1 - x * x).
Proof.
  intros X. assert (X' : -1 < x < 1) by lra. pose proof (derive_pt_eq_1 _ _ _ _ (derive_pt_asin x X')) as D. unfold Rsqr, Rdiv in D. rewrite Rmult_1_l in D. split; [exact D|]. apply Rinv_0_lt_compat, sqrt_lt_R0. nra.
Qed.
Lemma asin_cmp f f' e x0 x1 : 0 <= x0 -> x1 < 1 -> (forall x, x0 <= x <= x1 -> derivable_pt_lim f x (f' x)) ->
  (forall x, x0 <= x <= x1 -> Rabs (f' x - / sqrt (1 - x * x)) <= e * / sqrt (1 - x * x)) ->
  forall x, x0 <= x <= x1 -> Rabs ((f x - asin x) - (f x0 - asin x0)) <= e * (asin x - asin x0).
Proof.
  intros X0 X1 D B x X. destruct (Req_dec x x0) as [->|N]; [unfold Rminus; rewrite !Rplus_opp_r, Rabs_R0; lra|]. assert (L : x0 < x) by lra.
  assert (G : forall s, s = 1 \/ s = -1 -> s * ((f x - asin x) - (f x0 - asin x0)) <= e * (asin x - asin x0)).
  { intros s Hs. destruct (MVT_cor2 (fun x => s * f x - (s + e) * asin x) (fun x => s * f' x - (s + e) * / sqrt (1 - x * x)) x0 x L) as (c & E & C).
    - intros c C. apply (derivable_pt_lim_minus (fun x => s * f x) (fun x => (s + e) * asin x)); apply derivable_pt_lim_scal; [apply D|apply der_asin]; lra.
    - cbv beta in E. specialize (B c ltac:(lra)). apply abs_le_inv in B. assert (s * f' c - (s + e) * / sqrt (1 - c * c) <= 0) by (destruct Hs as [-> | ->]; lra).
      assert ((s * f' c - (s + e) * / sqrt (1 - c * c)) * (x - x0) <= 0) by nra. lra. }
  pose proof (G 1 (or_introl eq_refl)). pose proof (G (-1) (or_intror eq_refl)). apply Rabs_le. lra.
Qed.
Lemma asin_lip x0 x1 k : 0 <= x0 -> x1 < 1 -> 0 <= k -> k * k * (1 - x1 * x1) >= 1 -> forall x, x0 <= x <= x1 -> asin x - asin x0 <= k * (x - x0).
Proof.
  intros X0 X1 K0 K x X. destruct (Req_dec x x0) as [->|N]; [lra|]. assert (L : x0 < x) by lra.
  destruct (MVT_cor2 asin (fun x => / sqrt (1 - x * x)) x0 x L) as (c & E & C); [intros c C; apply der_asin; lra|]. rewrite E. apply Rmult_le_compat_r; [lra|].
  assert (P : 0 < 1 - c * c) by nra. assert (S : 0 < sqrt (1 - c * c)) by (now apply sqrt_lt_R0). assert (S2 : sqrt (1 - c * c) * sqrt (1 - c * c) = 1 - c * c) by (apply sqrt_sqrt; lra).
  apply (Rmult_le_reg_r (sqrt (1 - c * c))); [exact S|]. rewrite Rinv_l by lra. set (s := sqrt (1 - c * c)) in *. clearbody s. assert (1 - x1 * x1 <= s * s) by nra. assert (1 <= (k * s) * (k * s)) by nra. assert (0 <= k * s) by nra. nra.
Qed.

(** ** f = x + x z P(z) / Q(z) *)
Definition nder (P Q : list Z) : list Z :=
  padd (padd (pmul Q Q) (0%Z :: pmul P Q)) (pscale 2 (0%Z :: padd (pmul P Q) (0%Z :: padd (pmul (pder P) Q) (pscale (-1) (pmul P (pder Q)))))).
Definition frat (P Q : list Z) (x : R) : R := x * (x * x * (pe P (x * x) / pe Q (x * x))) + x.
Lemma frat_der P Q x : 0 < pe Q (x * x) -> derivable_pt_lim (frat P Q) x (pe (nder P Q) (x * x) / (pe Q (x * x) * pe Q (x * x))).
Proof.
  intros HQ. set (sq := fun x : R => x * x). assert (DS : derivable_pt_lim sq x (1 * x + x * 1)) by (apply (derivable_pt_lim_mult id id); apply derivable_pt_lim_id).
  assert (DP : forall p, derivable_pt_lim (fun y => pe p (sq y)) x (pe (pder p) (x * x) * (1 * x + x * 1))) by (intros p; apply (derivable_pt_lim_comp sq (pe p)); [exact DS|apply pe_der]).
  assert (NZ : pe Q (sq x) <> 0) by (unfold sq; lra).
  pose proof (derivable_pt_lim_div _ _ x _ _ (DP P) (DP Q) NZ) as D1. pose proof (derivable_pt_lim_mult _ _ x _ _ DS D1) as D2. pose proof (derivable_pt_lim_mult _ _ x _ _ (derivable_pt_lim_id x) D2) as D3. pose proof (derivable_pt_lim_plus _ _ x _ _ D3 (derivable_pt_lim_id x)) as D4.
  match type of D4 with derivable_pt_lim ?g x ?l => replace (pe (nder P Q) (x * x) / (pe Q (x * x) * pe Q (x * x))) with l; [exact D4|] end.
  unfold nder. rewrite !pe_add, !pe_scale. cbn [pe]. rewrite !pe_add. cbn [pe]. rewrite !pe_add, !pe_scale, !pe_mul. unfold mult_fct, div_fct, id, sq, Rsqr. field. unfold sq in NZ. exact NZ.
Qed.
(** the two polynomials to be checked: (d + s c)^2 Q^4 against d^2 N^2 (1 - z) *)
Definition q4 (Q : list Z) : list Z := let q := pmul Q Q in pmul q q.
Definition n2 (P Q : list Z) : list Z := let n := nder P Q in pmul [1%Z; (-1)%Z] (pmul n n).
Definition low_poly (P Q : list Z) (c d : Z) : list Z := padd (pscale (d * d) (n2 P Q)) (pscale (- ((d - c) * (d - c))) (q4 Q)).
Definition high_poly (P Q : list Z) (c d : Z) : list Z := padd (pscale ((d + c) * (d + c)) (q4 Q)) (pscale (- (d * d)) (n2 P Q)).
Lemma der_ok P Q c d x : (0 < d)%Z -> (0 <= c <= d)%Z -> 0 <= x < 1 -> 0 < pe Q (x * x) -> 0 <= pe (nder P Q) (x * x) -> 0 <= pe (low_poly P Q c d) (x * x) -> 0 <= pe (high_poly P Q c d) (x * x) ->
  Rabs (pe (nder P Q) (x * x) / (pe Q (x * x) * pe Q (x * x)) - / sqrt (1 - x * x)) <= IZR c / IZR d * / sqrt (1 - x * x).
Proof.
  intros D C X HQ HN L H. unfold low_poly, high_poly, n2, q4 in L, H. cbv zeta in L, H. rewrite pe_add, !pe_scale, !pe_mul in L, H. cbn [pe] in L, H. rewrite opp_IZR, !mult_IZR, minus_IZR in L. rewrite opp_IZR, !mult_IZR, plus_IZR in H.
  set (n := pe (nder P Q) (x * x)) in *. set (q := pe Q (x * x)) in *. assert (P1 : 0 < 1 - x * x) by nra. set (s := sqrt (1 - x * x)). assert (S : 0 < s) by (now apply sqrt_lt_R0). assert (S2 : s * s = 1 - x * x) by (apply sqrt_sqrt; lra).
  apply IZR_lt in D. destruct C as (C0 & C1). apply IZR_le in C0, C1. set (c' := IZR c) in *. set (d' := IZR d) in *. replace (1 + x * x * (-1 + x * x * 0)) with (s * s) in L, H by (rewrite S2; ring). clearbody n q s c' d'. clear S2 P1 X x.
  set (m := q * q) in *. assert (M : 0 < m) by (unfold m; nra). clearbody m. clear HQ q.
  assert (L' : (d' - c') * m <= d' * (s * n)). { apply Rsqr_incr_0_var; [unfold Rsqr; nra|]. apply Rmult_le_pos; [lra|]. apply Rmult_le_pos; lra. }
  assert (H' : d' * (s * n) <= (d' + c') * m). { apply Rsqr_incr_0_var; [unfold Rsqr; nra|]. apply Rmult_le_pos; lra. }
  replace (n / m - / s) with ((s * n - m) * / (m * s)) by (field; lra). replace (c' / d' * / s) with (c' / d' * m * / (m * s)) by (field; lra).
  assert (I : 0 < / (m * s)) by (apply Rinv_0_lt_compat; nra). rewrite Rabs_mult, (Rabs_pos_eq (/ (m * s))) by lra. apply Rmult_le_compat_r; [lra|]. apply Rabs_le. replace (c' / d' * m) with (c' * m / d') by (field; lra).
  assert (J : 0 < / d') by (now apply Rinv_0_lt_compat). split; apply (Rmult_le_reg_l d'); try lra; [replace (d' * - (c' * m / d')) with (- (c' * m)) by (field; lra)|replace (d' * (c' * m / d')) with (c' * m) by (field; lra)]; lra.
Qed.
Lemma asin_rat P Q c d s a h N x0 x1 : (0 < d)%Z -> (0 <= c <= d)%Z -> (0 <= s)%Z -> (0 < h)%Z -> (0 < N)%nat -> 0 <= x0 -> x1 < 1 ->
  IZR a <= x0 * x0 * IZR (2 ^ s) -> x1 * x1 * IZR (2 ^ s) <= IZR (a + 2 * h * Z.of_nat N) -> (forall z, x0 * x0 <= z <= x1 * x1 -> 0 < pe Q z) ->
  ppos (nder P Q) s a h N = true -> ppos (low_poly P Q c d) s a h N = true -> ppos (high_poly P Q c d) s a h N = true ->
  forall x, x0 <= x <= x1 -> Rabs ((frat P Q x - asin x) - (frat P Q x0 - asin x0)) <= IZR c / IZR d * (asin x - asin x0).
Proof.
  intros D C Hs Hh HN X0 X1 RA RB HQ P1 P2 P3. apply (asin_cmp _ (fun x => pe (nder P Q) (x * x) / (pe Q (x * x) * pe Q (x * x)))); auto.
  - intros x X. apply frat_der, HQ. nra.
  - intros x X. assert (R : IZR a <= x * x * IZR (2 ^ s) <= IZR (a + 2 * h * Z.of_nat N)).
    { assert (T : 0 < IZR (2 ^ s)) by (apply IZR_lt, Z.pow_pos_nonneg; lia). assert (x0 * x0 <= x * x <= x1 * x1) by nra. split; [eapply Rle_trans; [exact RA|]|eapply Rle_trans; [|exact RB]]; apply Rmult_le_compat_r; lra. }
    apply der_ok; auto; [lra|apply HQ; nra| | |]; eapply ppos_ok; eauto.
Qed.
