(** Approximations of the real logarithm: 2 (z + z^3/3 + z^5/5 + ...) for (1 + z) / (1 - z), and how near a rational function of
    the kind used by log is to it. *)
From Coq Require Import ZArith Reals List Bool Lia Lra Psatz.
From Verif.Proof Require Import PolyP ExpRealP.
Import ListNotations.
Local Open Scope R_scope.

Fixpoint tl (n : nat) (z : R) : R := match n with O => 2 * z | S m => tl m z + 2 * z ^ (2 * n + 1) / IZR (2 * Z.of_nat n + 1) end.
Lemma tl_der n z : z * z <> 1 -> derivable_pt_lim (tl n) z (2 * (1 - z ^ (2 * n + 2)) / (1 - z * z)).
Proof.
  intros NZ. assert (D0 : 1 - z * z <> 0) by lra. induction n as [|n IH].
  - cbn [tl]. replace (2 * (1 - z ^ (2 * 0 + 2)) / (1 - z * z)) with (2 * 1) by (simpl; field; exact D0). apply (derivable_pt_lim_scal id 2). apply derivable_pt_lim_id.
  - cbn [tl]. set (m := (2 * S n + 1)%nat). set (c := IZR (2 * Z.of_nat (S n) + 1)). assert (C : INR m = c) by (unfold m, c; rewrite INR_IZR_INZ; f_equal; lia). assert (C0 : 0 < c) by (unfold c; apply IZR_lt; lia).
    replace (2 * (1 - z ^ (2 * S n + 2)) / (1 - z * z)) with (2 * (1 - z ^ (2 * n + 2)) / (1 - z * z) + 2 / c * (INR m * z ^ pred m)).
    + apply (derivable_pt_lim_ext (fun z => tl n z + 2 / c * z ^ m)); [intros y; field; lra|]. apply (derivable_pt_lim_plus (tl n) (fun z => 2 / c * z ^ m)); [exact IH|]. apply (derivable_pt_lim_scal (fun z => z ^ m)). apply derivable_pt_lim_pow.
    + rewrite C. replace (pred m) with (2 * n + 2)%nat by (unfold m; lia). replace (2 * S n + 2)%nat with (2 * n + 2 + 2)%nat by lia. rewrite (pow_add z (2 * n + 2) 2). set (t := z ^ (2 * n + 2)). field. split; [exact D0|lra].
Qed.
Lemma ln_z_der z : -1 < z < 1 -> derivable_pt_lim (fun z => ln (1 + z) - ln (1 - z)) z (2 / (1 - z * z)).
Proof.
  intros Z. replace (2 / (1 - z * z)) with (/ (1 + z) * 1 - / (1 - z) * (-1)) by (field; repeat split; nra).
  apply (derivable_pt_lim_minus (fun z => ln (1 + z)) (fun z => ln (1 - z))).
  - apply (derivable_pt_lim_comp (fun z => 1 + z) ln).
    + cut (derivable_pt_lim (fun z => 1 + z) z (0 + 1)); [now rewrite Rplus_0_l|]. apply (derivable_pt_lim_plus (fct_cte 1) id); [apply derivable_pt_lim_const|apply derivable_pt_lim_id].
    + apply derivable_pt_lim_ln. lra.
  - apply (derivable_pt_lim_comp (fun z => 1 - z) ln).
    + replace (-1) with (0 - 1) by ring. apply (derivable_pt_lim_minus (fct_cte 1) id); [apply derivable_pt_lim_const|apply derivable_pt_lim_id].
    + apply derivable_pt_lim_ln. lra.
Qed.
Lemma tl_0 n : tl n 0 = 0.
Proof. induction n as [|n IH]; cbn [tl]; [lra|]. rewrite IH, pow_i by lia. unfold Rdiv. ring. Qed.
Lemma ln_tl n z b : Rabs z <= b -> b < 1 -> Rabs (ln (1 + z) - ln (1 - z) - tl n z) <= 2 * b ^ (2 * n + 2) / (1 - b * b) * Rabs z.
Proof.
  intros Z B. assert (B0 : 0 <= b) by (pose proof (Rabs_pos z); lra).
  pose proof (mvt_bound (fun z => ln (1 + z) - ln (1 - z) - tl n z) (fun z => 2 / (1 - z * z) - 2 * (1 - z ^ (2 * n + 2)) / (1 - z * z)) (- b) b (2 * b ^ (2 * n + 2) / (1 - b * b))) as M.
  assert (Q : forall x, - b <= x <= b -> x * x <= b * b) by (intros; nra).
  specialize (M ltac:(intros x Hx; specialize (Q x Hx); apply (derivable_pt_lim_minus (fun z => ln (1 + z) - ln (1 - z)) (tl n)); [apply ln_z_der; lra|apply tl_der; nra])).
  specialize (M ltac:(intros x Hx; cbv beta; specialize (Q x Hx); assert (0 < 1 - x * x) by nra; replace (2 / (1 - x * x) - 2 * (1 - x ^ (2 * n + 2)) / (1 - x * x)) with (2 * x ^ (2 * n + 2) * / (1 - x * x)) by (field; lra);
    rewrite !Rabs_mult, (Rabs_pos_eq 2), (Rabs_pos_eq (/ (1 - x * x))) by (try lra; left; apply Rinv_0_lt_compat; lra); rewrite <- RPow_abs; unfold Rdiv;
    apply Rmult_le_compat; [apply Rmult_le_pos; [lra|apply pow_le, Rabs_pos]|left; apply Rinv_0_lt_compat; lra|apply Rmult_le_compat_l; [lra|]; apply pow_incr; split; [apply Rabs_pos|apply Rabs_le; lra]|apply Rinv_le_contravar; nra])).
  apply abs_le_inv in Z. specialize (M 0 z ltac:(lra) ltac:(lra)). cbn beta in M. rewrite tl_0, Rplus_0_r, (Rminus_0_r 1), ln_1, !Rminus_0_r in M. exact M.
Qed.

(** ** polynomials that are not negative *)
Definition plow (p : list Z) : Z := match p with [] => 0 | c :: p => c - norm p end.
Lemma pe_low p t : Rabs t <= 1 -> IZR (plow p) <= pe p t.
Proof.
  intros T. destruct p as [|c p]; cbn [plow pe]; [lra|]. pose proof (pe_norm p t T) as N. rewrite minus_IZR. assert (Rabs (t * pe p t) <= 1 * IZR (norm p)) by (rewrite Rabs_mult; apply Rmult_le_compat; auto using Rabs_pos). apply abs_le_inv in H. lra.
Qed.
Fixpoint ppos (p : list Z) (s a h : Z) (n : nat) : bool :=
  match n with O => true | S n => (0 <=? plow (pshift s (a + h) h p))%Z && ppos p s (a + 2 * h) h n end.
Lemma ppos_ok p s h : (0 <= s)%Z -> (0 < h)%Z -> forall n a, ppos p s a h n = true -> (0 < n)%nat ->
  forall x, IZR a <= x * IZR (2 ^ s) <= IZR (a + 2 * h * Z.of_nat n) -> 0 <= pe p x.
Proof.
  intros Hs Hh. assert (P : 0 < IZR (2 ^ s)) by (apply IZR_lt, Z.pow_pos_nonneg; lia). assert (PH : 0 < IZR h) by (now apply IZR_lt).
  induction n as [|n IH]; intros a C N x (X1 & X2); [lia|]. cbn [ppos] in C. apply andb_true_iff in C. destruct C as (C1 & C2).
  destruct (Rle_dec (x * IZR (2 ^ s)) (IZR (a + 2 * h))) as [L|G].
  - clear IH. apply Z.leb_le in C1. assert (Q : 0 < IZR (2 ^ (s * Z.of_nat (length p)))) by (apply IZR_lt, Z.pow_pos_nonneg; lia).
    set (t := (x * IZR (2 ^ s) - IZR (a + h)) / IZR h). assert (T : Rabs t <= 1).
    { unfold t. rewrite !plus_IZR, mult_IZR in *. apply Rabs_le. split; apply (Rmult_le_reg_r (IZR h)); try lra; unfold Rdiv; rewrite Rmult_assoc, Rinv_l; lra. }
    pose proof (pe_low (pshift s (a + h) h p) t T) as B. rewrite pe_shift in B by exact Hs.
    replace ((IZR (a + h) + IZR h * t) / IZR (2 ^ s)) with x in B by (unfold t; field; lra).
    apply IZR_le in C1. apply (Rmult_le_reg_l (IZR (2 ^ (s * Z.of_nat (length p))))); [exact Q|]. lra.
  - destruct n as [|n]; [exfalso; apply G; eapply Rle_trans; [exact X2|]; apply IZR_le; lia|]. apply (IH (a + 2 * h)%Z C2); [lia|]. split; [lra|]. replace (a + 2 * h + 2 * h * Z.of_nat (S n))%Z with (a + 2 * h * Z.of_nat (S (S n)))%Z by lia. exact X2.
Qed.

(** ** p (2 z / (1 - z)) (1 - z) ^ length p as a polynomial of z *)
Fixpoint pone (n : nat) : list Z := match n with O => [1%Z] | S n => pmul [1%Z; (-1)%Z] (pone n) end.
Lemma pe_one n z : pe (pone n) z = (1 - z) ^ n.
Proof. induction n as [|n IH]; [cbn; lra|]. cbn [pone pow]. rewrite pe_mul, IH. cbn [pe]. ring. Qed.
Fixpoint phom (p : list Z) : list Z := match p with [] => [] | c :: p => padd (pscale c (pone (S (length p)))) (pmul [0%Z; 2%Z] (phom p)) end.
Lemma pe_hom p z x : x * (1 - z) = 2 * z -> pe (phom p) z = (1 - z) ^ length p * pe p x.
Proof.
  intros X. induction p as [|c p IH]; cbn [phom pe length]; [lra|]. rewrite pe_add, pe_scale, pe_one, pe_mul, IH. cbn [pe pow]. set (t := (1 - z) ^ length p). set (y := pe p x).
  transitivity ((1 - z) * t * IZR c + (2 * z) * (t * y)); [ring|]. rewrite <- X. ring.
Qed.
Definition ppad (n : nat) (p : list Z) : list Z := repeat 0%Z n ++ p.
Lemma pe_pad n p z : pe (ppad n p) z = z ^ n * pe p z.
Proof. unfold ppad. induction n as [|n IH]; cbn [repeat app pe pow]; [lra|]. rewrite IH. ring. Qed.

(** x^3 A x / B x against ln (1 + x) - x + x^2 / 2, all with integer coefficients; L tl n z = T z; the difference is at most
    (cn / cd) |z| *)
Definition rat_num (A B T : list Z) (L : Z) : list Z :=
  padd (pscale (8 * L) (ppad 3 (phom A))) (pscale (-1) (pmul (pmul (phom B) (pone (1 + length A - length B))) (padd (pmul T (pone 2)) (pscale (-2 * L) (padd (pmul [0%Z; 1%Z] (pone 1)) [0%Z; 0%Z; (-1)%Z]))))).
Definition rat_den (A B : list Z) (L : Z) : list Z := pscale L (pmul (phom B) (pone (3 + length A - length B))).
Definition rat_diff (A B T : list Z) (L cn cd sg : Z) : list Z := padd (pscale cn (rat_den A B L)) (pscale (sg * cd) (List.tl (rat_num A B T L))).
Lemma log_rat A B T L n cn cd s a h N z x : (length B <= length A)%nat -> (0 < L)%Z -> (0 < cd)%Z -> (0 < h)%Z -> (0 <= s)%Z -> (0 < N)%nat ->
  (forall z, pe T z = IZR L * tl n z) -> hd 0%Z (rat_num A B T L) = 0%Z ->
  ppos (rat_diff A B T L cn cd 1) s a h N = true -> ppos (rat_diff A B T L cn cd (-1)) s a h N = true ->
  IZR a <= z * IZR (2 ^ s) <= IZR (a + 2 * h * Z.of_nat N) -> z < 1 -> x * (1 - z) = 2 * z -> 0 < pe B x ->
  Rabs (x * x * x * (pe A x / pe B x) - (tl n z - x + x * x / 2)) <= IZR cn / IZR cd * Rabs z.
Proof.
  intros LE HL Hcd Hh Hs HN HT HD P1 P2 HR Z1 HX PB.
  pose proof (ppos_ok _ s h Hs Hh N a P1 HN z HR) as Q1. pose proof (ppos_ok _ s h Hs Hh N a P2 HN z HR) as Q2. clear P1 P2 HR.
  unfold rat_diff in Q1, Q2. rewrite pe_add, !pe_scale in Q1, Q2. set (D := List.tl (rat_num A B T L)) in *.
  assert (ED : pe (rat_num A B T L) z = z * pe D z) by (unfold D; destruct (rat_num A B T L) as [|c q]; cbn [pe hd List.tl] in *; [ring|]; rewrite HD; ring).
  unfold rat_num in ED. rewrite pe_add, !pe_scale, pe_pad, !pe_mul, pe_add, pe_scale, pe_add, !pe_mul, !pe_one, HT, (pe_hom A z x HX), (pe_hom B z x HX) in ED.
  unfold rat_den in Q1, Q2. rewrite pe_scale, pe_mul, pe_one, (pe_hom B z x HX) in Q1, Q2. clearbody D.
  apply IZR_lt in HL, Hcd. set (k := (length A - length B)%nat) in *. replace (length A) with (length B + k)%nat in * by (unfold k; lia). replace (1 + (length B + k) - length B)%nat with (1 + k)%nat in * by lia. replace (3 + (length B + k) - length B)%nat with (3 + k)%nat in * by lia.
  set (b := (1 - z) ^ length B) in *. assert (Pb : 0 < b) by (apply pow_lt; lra). rewrite !pow_add in *. fold b in ED. set (y := (1 - z) ^ k) in *. assert (Py : 0 < y) by (apply pow_lt; lra).
  set (d := pe D z) in *. set (A' := pe A x) in *. set (B' := pe B x) in *. set (t := tl n z) in *. cbn [pe] in ED. rewrite !mult_IZR in *. set (l := IZR L) in *. clearbody d A' B' t l b y. clear HT HD LE k.
  set (q := 1 - z) in *. assert (Hq : 0 < q) by (unfold q; lra). assert (ZE : z = 1 - q) by (unfold q; ring). clearbody q.
  assert (XE : x = 2 * z / q) by (rewrite <- HX; field; lra).
  assert (E : x * x * x * (A' / B') - (t - x + x * x / 2) = z * d / (l * (b * B' * q ^ 3 * y))).
  { rewrite <- ED. rewrite XE. field. repeat split; lra. }
  rewrite E. clear E XE ED. set (m := l * (b * B' * (q ^ 3 * y))) in *. assert (PM : 0 < m) by (assert (0 < q ^ 3) by (apply pow_lt; lra); unfold m; apply Rmult_lt_0_compat; [lra|]; apply Rmult_lt_0_compat; [nra|nra]).
  replace (l * (b * B' * q ^ 3 * y)) with m by (unfold m; ring). clearbody m. unfold Rdiv. rewrite Rmult_assoc, Rabs_mult, Rmult_comm. apply Rmult_le_compat_r; [apply Rabs_pos|].
  apply Rabs_le. split; apply (Rmult_le_reg_r (m * IZR cd)); try nra.
  - replace (- (IZR cn * / IZR cd) * (m * IZR cd)) with (- (IZR cn * m)) by (field; lra). replace (d * / m * (m * IZR cd)) with (d * IZR cd) by (field; lra). lra.
  - replace (IZR cn * / IZR cd * (m * IZR cd)) with (IZR cn * m) by (field; lra). replace (d * / m * (m * IZR cd)) with (d * IZR cd) by (field; lra). lra.
Qed.

(** ** ln 10 *)
Lemma ln_5_4 : Rabs (ln 5 - 2 * ln 2 - tl 15 (1 / 9)) <= / 1267650600228229401496703205376.
Proof.
  pose proof (ln_tl 15 (1 / 9) (1 / 9) ltac:(rewrite Rabs_pos_eq; lra) ltac:(lra)) as E. rewrite (Rabs_pos_eq (1 / 9)) in E by lra.
  replace (1 + 1 / 9) with (5 * / (9 / 2)) in E by lra. replace (1 - 1 / 9) with (2 * 2 * / (9 / 2)) in E by lra. rewrite !ln_mult, !ln_Rinv in E by lra.
  eapply Rle_trans; [|eapply Rle_trans; [exact E|]]; [right; f_equal; ring|]. simpl. lra.
Qed.
Lemma ln10_num : 2918873375210475425442079017690 / 1267650600228229401496703205376 <= ln 10 <= 2918873375210475425442079017704 / 1267650600228229401496703205376.
Proof.
  pose proof ln_5_4 as E. apply abs_le_inv in E. assert (E10 : ln 10 = ln 5 + ln 2) by (rewrite <- ln_mult by lra; f_equal; lra). rewrite E10. pose proof ln2_bounds as L. unfold l2 in L. change (IZR (2 ^ 100)) with 1267650600228229401496703205376 in L. change (878668439483319573618263538048 + 1)%Z with 878668439483319573618263538049%Z in L.
  simpl tl in E. lra.
Qed.
