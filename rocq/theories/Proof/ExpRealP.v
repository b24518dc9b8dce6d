(** The real exponential function near 0, and the logarithm of 2. *)
From Coq Require Import ZArith Reals List Bool Lia Lra Psatz.
From Verif.Proof Require Import SeriesP PolyP.
Import ListNotations.
Local Open Scope R_scope.

Definition ex_term (x : R) (i : nat) : R := / INR (fact i) * x ^ i.
Lemma exp_sum x : infinite_sum (ex_term x) (exp x).
Proof. unfold exp. destruct (exist_exp x) as (l & H). exact H. Qed.
Lemma ex_term_abs x i : Rabs (ex_term x i) = / INR (fact i) * Rabs x ^ i.
Proof. unfold ex_term. rewrite Rabs_mult, RPow_abs, Rabs_pos_eq; [reflexivity|]. left. apply Rinv_0_lt_compat, INR_fact_lt_0. Qed.
Lemma ex_term_step x i : Rabs x <= 1 -> (1 <= i)%nat -> Rabs (ex_term x (S i)) <= / 2 * Rabs (ex_term x i).
Proof.
  intros X I. rewrite !ex_term_abs. change (fact (S i)) with (S i * fact i)%nat. rewrite mult_INR. pose proof (INR_fact_lt_0 i) as P. assert (Q : 2 <= INR (S i)) by (change 2 with (INR 2); apply le_INR; lia).
  rewrite Rinv_mult. cbn [pow]. pose proof (Rabs_pos x) as A. pose proof (pow_le (Rabs x) i A) as B. pose proof (Rinv_0_lt_compat _ P) as P'.
  assert (I2 : / INR (S i) <= / 2) by (apply Rinv_le_contravar; lra). assert (I0 : 0 < / INR (S i)) by (apply Rinv_0_lt_compat; lra).
  replace (/ INR (S i) * / INR (fact i) * (Rabs x * Rabs x ^ i)) with ((/ INR (S i) * Rabs x) * (/ INR (fact i) * Rabs x ^ i)) by ring.
  apply Rmult_le_compat_r; [nra|]. nra.
Qed.
Lemma ex_tail x n m : Rabs x <= 1 -> (n <= m)%nat -> Rabs (sum_f_R0 (ex_term x) m - sum_f_R0 (ex_term x) n) <= 2 * Rabs (ex_term x (S n)).
Proof.
  intros X H. assert (G : forall k, Rabs (sum_f_R0 (ex_term x) (n + k) - sum_f_R0 (ex_term x) n) <= (2 - 2 * (/ 2) ^ k) * Rabs (ex_term x (S n)) /\ Rabs (ex_term x (S (n + k))) <= (/ 2) ^ k * Rabs (ex_term x (S n))).
  { induction k as [|k (IH1 & IH2)].
    - rewrite Nat.add_0_r. unfold Rminus. rewrite Rplus_opp_r, Rabs_R0. cbn [pow]. split; [|lra]. pose proof (Rabs_pos (ex_term x (S n))). lra.
    - rewrite Nat.add_succ_r. cbn [sum_f_R0 pow]. split.
      + replace (sum_f_R0 (ex_term x) (n + k) + ex_term x (S (n + k)) - sum_f_R0 (ex_term x) n) with ((sum_f_R0 (ex_term x) (n + k) - sum_f_R0 (ex_term x) n) + ex_term x (S (n + k))) by ring.
        eapply Rle_trans; [apply Rabs_triang|]. lra.
      + eapply Rle_trans; [apply ex_term_step; [exact X|lia]|]. lra. }
  destruct (G (m - n)%nat) as (A & _). replace (n + (m - n))%nat with m in A by lia. eapply Rle_trans; [exact A|]. pose proof (Rabs_pos (ex_term x (S n))). assert (0 <= (/ 2) ^ (m - n)) by (apply pow_le; lra). nra.
Qed.
Lemma exp_taylor x n : Rabs x <= 1 -> Rabs (exp x - sum_f_R0 (ex_term x) n) <= 2 * Rabs (ex_term x (S n)).
Proof.
  intros X. apply Rnot_lt_le. intros L. set (d := Rabs (exp x - sum_f_R0 (ex_term x) n) - 2 * Rabs (ex_term x (S n))). assert (D : 0 < d) by (unfold d; lra).
  destruct (exp_sum x d D) as (N & HN). specialize (HN (max N n) ltac:(lia)). unfold R_dist in HN. pose proof (ex_tail x n (max N n) X ltac:(lia)) as T.
  assert (Rabs (exp x - sum_f_R0 (ex_term x) n) <= Rabs (sum_f_R0 (ex_term x) (max N n) - exp x) + Rabs (sum_f_R0 (ex_term x) (max N n) - sum_f_R0 (ex_term x) n)).
  { rewrite (Rabs_minus_sym _ (exp x)). replace (exp x - sum_f_R0 (ex_term x) n) with ((exp x - sum_f_R0 (ex_term x) (max N n)) + (sum_f_R0 (ex_term x) (max N n) - sum_f_R0 (ex_term x) n)) by ring. apply Rabs_triang. }
  unfold d in HN. lra.
Qed.
(** n! times the first n + 1 terms *)
Fixpoint texp (n : nat) : list Z := match n with O => [1%Z] | S m => padd (pscale (Z.of_nat n) (texp m)) (repeat 0%Z n ++ [1%Z]) end.
Lemma pe_mono n x : pe (repeat 0%Z n ++ [1%Z]) x = x ^ n.
Proof. induction n as [|n IH]; cbn [repeat app pe pow]; [lra|]. rewrite IH. lra. Qed.
Lemma pe_texp n x : pe (texp n) x = IZR (zf n) * sum_f_R0 (ex_term x) n.
Proof.
  induction n as [|n IH]; [unfold ex_term; simpl; field|]. cbn [texp sum_f_R0]. rewrite pe_add, pe_scale, IH, pe_mono. change (ex_term x (S n)) with (/ INR (fact (S n)) * x ^ S n). rewrite fact_zf. cbn [zf]. rewrite !mult_IZR.
  assert (0 < IZR (zf n)) by (rewrite <- fact_zf; apply INR_fact_lt_0). assert (0 < IZR (Z.of_nat (S n))) by (apply IZR_lt; lia). field. lra.
Qed.
Lemma exp_texp x n b : Rabs x <= b -> b <= 1 -> Rabs (exp x - pe (texp n) x / IZR (zf n)) <= 2 * b ^ S n / IZR (zf (S n)).
Proof.
  intros X B. rewrite pe_texp. assert (P : 0 < IZR (zf n)) by (rewrite <- fact_zf; apply INR_fact_lt_0). assert (Q : 0 < IZR (zf (S n))) by (rewrite <- fact_zf; apply INR_fact_lt_0). replace (IZR (zf n) * sum_f_R0 (ex_term x) n / IZR (zf n)) with (sum_f_R0 (ex_term x) n) by (field; lra).
  eapply Rle_trans; [apply exp_taylor; lra|]. rewrite ex_term_abs, fact_zf. pose proof (pow_incr (Rabs x) b (S n) ltac:(split; [apply Rabs_pos|exact X])) as I. pose proof (Rinv_0_lt_compat _ Q).
  unfold Rdiv. rewrite (Rmult_assoc 2). apply Rmult_le_compat_l; [lra|]. rewrite (Rmult_comm _ (/ IZR (zf (S n)))). apply Rmult_le_compat_l; lra.
Qed.

(** ** ln 2 *)
Lemma abs_le_inv a b : Rabs a <= b -> - b <= a <= b.
Proof. unfold Rabs. destruct (Rcase_abs a); lra. Qed.
Definition l2 : Z := 878668439483319573618263538048.
Lemma exp_at n a s b : (0 <= s)%Z -> Rabs (IZR a / IZR (2 ^ s)) <= b -> b <= 1 -> Rabs (exp (IZR a / IZR (2 ^ s)) - IZR (hd 0%Z (pshift s a 0 (texp n))) / (IZR (zf n) * IZR (2 ^ (s * Z.of_nat (length (texp n)))))) <= 2 * b ^ S n / IZR (zf (S n)).
Proof.
  intros Hs A B. eapply Rle_trans; [|apply (exp_texp _ n b A B)]. right. f_equal. f_equal. assert (E : pe (pshift s a 0 (texp n)) 0 = IZR (hd 0%Z (pshift s a 0 (texp n)))).
  { destruct (pshift s a 0 (texp n)) as [|c q]; cbn [pe hd]; lra. }
  rewrite <- E, pe_shift by exact Hs. rewrite Rmult_0_r, Rplus_0_r. assert (0 < IZR (2 ^ (s * Z.of_nat (length (texp n))))) by (apply IZR_lt, Z.pow_pos_nonneg; lia).
  assert (P : 0 < IZR (zf n)) by (rewrite <- fact_zf; apply INR_fact_lt_0). field. lra.
Qed.
Lemma cmp_frac a b c d : (0 < b)%Z -> (0 < d)%Z -> (a * d <= c * b)%Z -> IZR a / IZR b <= IZR c / IZR d.
Proof. intros B D H. apply IZR_le in H. rewrite !mult_IZR in H. apply IZR_lt in B, D. apply (Rmult_le_reg_r (IZR b * IZR d)); [nra|]. replace (IZR a / IZR b * (IZR b * IZR d)) with (IZR a * IZR d) by (field; lra). replace (IZR c / IZR d * (IZR b * IZR d)) with (IZR c * IZR b) by (field; lra). exact H. Qed.
Lemma ln2_bounds : IZR l2 / IZR (2 ^ 100) <= ln 2 <= IZR (l2 + 1) / IZR (2 ^ 100).
Proof.
  assert (Z2 : (0 < 2 ^ 100)%Z) by reflexivity. assert (P : 0 < IZR (2 ^ 100)) by (now apply IZR_lt).
  assert (Q : forall a, (0 <= a <= 2 ^ 100)%Z -> Rabs (IZR a / IZR (2 ^ 100)) <= 1).
  { intros a (A & A'). apply IZR_le in A, A'. apply Rabs_le. split; apply (Rmult_le_reg_r (IZR (2 ^ 100))); try lra; unfold Rdiv; rewrite Rmult_assoc, Rinv_l; lra. }
  set (N := 36%nat). assert (ZP : forall n, (0 < zf n)%Z) by (induction n; cbn [zf]; lia).
  assert (LP : (0 < 2 ^ (100 * Z.of_nat (length (texp N))))%Z) by (apply Z.pow_pos_nonneg; lia).
  split.
  - pose proof (exp_at N l2 100 1 ltac:(lia) (Q l2 ltac:(split; vm_compute; discriminate)) (Rle_refl 1)) as E. apply abs_le_inv in E. destruct E as (_ & E). rewrite pow1, Rmult_1_r in E.
    assert (X : exp (IZR l2 / IZR (2 ^ 100)) <= 2).
    { rewrite <- mult_IZR in E. assert (C : IZR (hd 0%Z (pshift 100 l2 0 (texp N))) / IZR (zf N * 2 ^ (100 * Z.of_nat (length (texp N)))) <= IZR (2 * zf (S N) - 2) / IZR (zf (S N))) by (apply cmp_frac; [apply Z.mul_pos_pos; [apply ZP|exact LP]|apply ZP|apply Z.leb_le; vm_compute; reflexivity]).
      rewrite minus_IZR, (mult_IZR 2) in C. pose proof (IZR_lt _ _ (ZP (S N))) as ZR. replace ((2 * IZR (zf (S N)) - 2) / IZR (zf (S N))) with (2 - 2 / IZR (zf (S N))) in C by (field; lra). lra. }
    apply Rnot_lt_le. intros L. apply exp_increasing in L. rewrite exp_ln in L; lra.
  - pose proof (exp_at N (l2 + 1) 100 1 ltac:(lia) (Q (l2 + 1)%Z ltac:(split; vm_compute; discriminate)) (Rle_refl 1)) as E. apply abs_le_inv in E. destruct E as (E & _). rewrite pow1, Rmult_1_r in E.
    assert (X : 2 <= exp (IZR (l2 + 1) / IZR (2 ^ 100))).
    { rewrite <- mult_IZR in E. assert (C : IZR (2 * zf (S N) + 2) / IZR (zf (S N)) <= IZR (hd 0%Z (pshift 100 (l2 + 1) 0 (texp N))) / IZR (zf N * 2 ^ (100 * Z.of_nat (length (texp N))))) by (apply cmp_frac; [apply ZP|apply Z.mul_pos_pos; [apply ZP|exact LP]|apply Z.leb_le; vm_compute; reflexivity]).
      rewrite plus_IZR, (mult_IZR 2) in C. pose proof (IZR_lt _ _ (ZP (S N))) as ZR. replace ((2 * IZR (zf (S N)) + 2) / IZR (zf (S N))) with (2 + 2 / IZR (zf (S N))) in C by (field; lra). lra. }
    apply Rnot_lt_le. intros L. apply exp_increasing in L. rewrite exp_ln in L; lra.
Qed.
