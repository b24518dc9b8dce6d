(** Polynomials with integer coefficients: a bound of their values in an interval, by recentering on small pieces. *)
From Coq Require Import ZArith Reals List Bool Lia Lra Psatz.
Import ListNotations.
Local Open Scope R_scope.

Fixpoint pe (p : list Z) (x : R) : R := match p with [] => 0 | c :: p => IZR c + x * pe p x end.
Fixpoint padd (p q : list Z) : list Z := match p, q with [], _ => q | _, [] => p | a :: p, b :: q => (a + b)%Z :: padd p q end.
Definition pscale (c : Z) (p : list Z) : list Z := map (Z.mul c) p.
Fixpoint pmul (p q : list Z) : list Z := match p with [] => [] | c :: p => padd (pscale c q) (0%Z :: pmul p q) end.
Fixpoint pder (p : list Z) : list Z := match p with [] => [] | c :: p => padd p (0%Z :: pder p) end.
Lemma pe_add p : forall q x, pe (padd p q) x = pe p x + pe q x.
Proof. induction p as [|a p IH]; intros [|b q] x; cbn [padd pe]; try lra. rewrite IH, plus_IZR. ring. Qed.
Lemma pe_scale c p x : pe (pscale c p) x = IZR c * pe p x.
Proof. induction p as [|a p IH]; cbn [pscale map pe]; [lra|]. fold (pscale c p). rewrite IH, mult_IZR. ring. Qed.
Lemma pe_mul p : forall q x, pe (pmul p q) x = pe p x * pe q x.
Proof. induction p as [|a p IH]; intros q x; cbn [pmul pe]; [lra|]. rewrite pe_add, pe_scale. cbn [pe]. rewrite IH. ring. Qed.
Lemma pe_der p x : derivable_pt_lim (pe p) x (pe (pder p) x).
Proof.
  induction p as [|c p IH]; cbn [pder]; [apply derivable_pt_lim_const|]. rewrite pe_add. cbn [pe]. replace (pe p x + (0 + x * pe (pder p) x)) with (0 + (1 * pe p x + x * pe (pder p) x)) by ring.
  apply (derivable_pt_lim_plus (fun _ => IZR c) (fun x => x * pe p x)); [apply derivable_pt_lim_const|].
  apply (derivable_pt_lim_mult (fun x => x) (pe p)); [apply derivable_pt_lim_id|exact IH].
Qed.

(** 2 ^ (s * length p) * p ((m + h t) / 2 ^ s) as a polynomial in t *)
Fixpoint pshift (s m h : Z) (p : list Z) : list Z :=
  match p with [] => [] | c :: p => let q := pshift s m h p in padd [(c * 2 ^ (s * Z.of_nat (S (length p))))%Z] (padd (pscale m q) (0%Z :: pscale h q)) end.
Lemma pow_succ s n : (0 <= s)%Z -> IZR (2 ^ (s * Z.of_nat (S n))) = IZR (2 ^ s) * IZR (2 ^ (s * Z.of_nat n)).
Proof. intros H. rewrite <- mult_IZR, <- Z.pow_add_r by lia. do 2 f_equal. lia. Qed.
Lemma pe_shift s m h p t : (0 <= s)%Z -> pe (pshift s m h p) t = IZR (2 ^ (s * Z.of_nat (length p))) * pe p ((IZR m + IZR h * t) / IZR (2 ^ s)).
Proof.
  intros Hs. assert (P : 0 < IZR (2 ^ s)) by (apply IZR_lt, Z.pow_pos_nonneg; lia).
  induction p as [|c p IH]; [cbn [pshift pe]; lra|]. cbn [pshift]. rewrite !pe_add. cbn [pe]. rewrite !pe_scale, IH. cbn [length]. rewrite mult_IZR, pow_succ by exact Hs. field. lra.
Qed.
Fixpoint norm (p : list Z) : Z := match p with [] => 0 | c :: p => Z.abs c + norm p end.
Lemma norm_nonneg p : (0 <= norm p)%Z. Proof. induction p; cbn [norm]; lia. Qed.
Lemma pe_norm p t : Rabs t <= 1 -> Rabs (pe p t) <= IZR (norm p).
Proof.
  intros T. induction p as [|c p IH]; cbn [pe norm]; [rewrite Rabs_R0; lra|]. rewrite plus_IZR, abs_IZR. eapply Rle_trans; [apply Rabs_triang|]. apply Rplus_le_compat_l. rewrite Rabs_mult.
  pose proof (Rabs_pos (pe p t)). pose proof (Rabs_pos t). nra.
Qed.
(** n pieces of width 2 h from a on, all in units of 2 ^ -s *)
Fixpoint pcheck (p : list Z) (s a h b : Z) (n : nat) : bool :=
  match n with O => true | S n => (norm (pshift s (a + h) h p) <=? b * 2 ^ (s * Z.of_nat (length p)))%Z && pcheck p s (a + 2 * h) h b n end.
Lemma pcheck_ok p s h b : (0 <= s)%Z -> (0 < h)%Z -> forall n a, pcheck p s a h b n = true -> (0 < n)%nat ->
  forall x, IZR a <= x * IZR (2 ^ s) <= IZR (a + 2 * h * Z.of_nat n) -> Rabs (pe p x) <= IZR b.
Proof.
  intros Hs Hh. assert (P : 0 < IZR (2 ^ s)) by (apply IZR_lt, Z.pow_pos_nonneg; lia). assert (PH : 0 < IZR h) by (now apply IZR_lt).
  induction n as [|n IH]; intros a C N x (X1 & X2); [lia|]. cbn [pcheck] in C. apply andb_true_iff in C. destruct C as (C1 & C2).
  destruct (Rle_dec (x * IZR (2 ^ s)) (IZR (a + 2 * h))) as [L|G].
  - clear IH. apply Z.leb_le in C1. assert (Q : 0 < IZR (2 ^ (s * Z.of_nat (length p)))) by (apply IZR_lt, Z.pow_pos_nonneg; lia).
    set (t := (x * IZR (2 ^ s) - IZR (a + h)) / IZR h). assert (T : Rabs t <= 1).
    { unfold t. rewrite !plus_IZR, mult_IZR in *. apply Rabs_le. split; apply (Rmult_le_reg_r (IZR h)); try lra; unfold Rdiv; rewrite Rmult_assoc, Rinv_l; lra. }
    pose proof (pe_norm (pshift s (a + h) h p) t T) as B. rewrite pe_shift in B by exact Hs.
    replace ((IZR (a + h) + IZR h * t) / IZR (2 ^ s)) with x in B by (unfold t; field; lra). rewrite Rabs_mult, (Rabs_pos_eq _ (Rlt_le _ _ Q)) in B.
    apply IZR_le in C1. rewrite mult_IZR in C1. apply (Rmult_le_reg_l (IZR (2 ^ (s * Z.of_nat (length p))))); [exact Q|]. lra.
  - destruct n as [|n]; [exfalso; apply G; eapply Rle_trans; [exact X2|]; apply IZR_le; lia|]. apply (IH (a + 2 * h)%Z C2); [lia|]. split; [lra|]. replace (a + 2 * h + 2 * h * Z.of_nat (S n))%Z with (a + 2 * h * Z.of_nat (S (S n)))%Z by lia. exact X2.
Qed.

(** the mean value theorem: a bound of the derivative bounds the difference *)
Lemma mvt_bound f f' a b M : (forall x, a <= x <= b -> derivable_pt_lim f x (f' x)) -> (forall x, a <= x <= b -> Rabs (f' x) <= M) -> forall x y, a <= x <= b -> a <= y <= b -> Rabs (f y - f x) <= M * Rabs (y - x).
Proof.
  intros D B. assert (Q : forall x y, a <= x <= b -> a <= y <= b -> x < y -> Rabs (f y - f x) <= M * Rabs (y - x)).
  { intros x y Hx Hy L. destruct (MVT_cor2 f f' x y L) as (c & E & Hc).
    - intros c Hc. apply D. lra.
    - rewrite E, Rabs_mult. apply Rmult_le_compat_r; [apply Rabs_pos|]. apply B. lra. }
  intros x y Hx Hy. destruct (Rtotal_order x y) as [L|[->|G]].
  - now apply Q.
  - unfold Rminus. rewrite !Rplus_opp_r, Rabs_R0. lra.
  - rewrite (Rabs_minus_sym (f y)), (Rabs_minus_sym y). now apply Q.
Qed.
