(** Bounds of PI from the standard library's Machin-like series. *)
From Coq Require Import ZArith Reals Lia Lra Machin Ratan.
Local Open Scope Z_scope.

Definition pz : Z := 0xc90fdaa22168c234c4c6628b80db.
(** terms and sums of the series as fractions *)
Definition tden (i : Z) : Z := (2 * i + 1) * 21 ^ (2 * i + 1).
Definition tnum (i : Z) : Z := (if Z.even i then 1 else -1) * (2 * 7 ^ (2 * i + 1) + 3 ^ (2 * i + 1)).
Fixpoint psum (n : nat) : Z * Z :=
  match n with
  | O => (tnum 0, tden 0)
  | S m => let '(a, b) := psum m in let i := Z.of_nat n in (a * tden i + tnum i * b, b * tden i)
  end.
Lemma tden_pos i : 0 <= i -> 0 < tden i.
Proof. intros H. unfold tden. pose proof (Z.pow_pos_nonneg 21 (2 * i + 1)). nia. Qed.
Lemma psum_pos n : 0 < snd (psum n).
Proof. induction n as [|n IH]; [reflexivity|]. cbn [psum]. destruct (psum n) as (a & b). cbn [snd] in *. pose proof (tden_pos (Z.of_nat (S n)) ltac:(lia)). nia. Qed.

Local Open Scope R_scope.
Lemma term_eq (n : nat) : tg_alt PI_2_3_7_tg n = IZR (tnum (Z.of_nat n)) / IZR (tden (Z.of_nat n)).
Proof.
  unfold tg_alt, PI_2_3_7_tg, Ratan_seq, tnum, tden. rewrite !mult_IZR, plus_IZR, mult_IZR.
  replace (2 * Z.of_nat n + 1)%Z with (Z.of_nat (2 * n + 1)) by lia. rewrite <- !pow_IZR. rewrite <- INR_IZR_INZ.
  assert (P3 : 3 ^ (2 * n + 1) <> 0) by (apply pow_nonzero; lra). assert (P7 : 7 ^ (2 * n + 1) <> 0) by (apply pow_nonzero; lra).
  assert (Q : INR (2 * n + 1) <> 0) by (apply not_0_INR; lia).
  replace 21 with (3 * 7) by ring. rewrite Rpow_mult_distr, !pow_inv.
  assert (S : IZR (if Z.even (Z.of_nat n) then 1 else -1) = (-1) ^ n).
  { clear. induction n as [|n IH]; [reflexivity|]. rewrite Nat2Z.inj_succ, Z.even_succ, <- Z.negb_even. cbn [pow]. rewrite <- IH. destruct (Z.even (Z.of_nat n)); cbn [negb]; ring. }
  rewrite S. field. auto.
Qed.
Lemma psum_eq (n : nat) : sum_f_R0 (tg_alt PI_2_3_7_tg) n = IZR (fst (psum n)) / IZR (snd (psum n)).
Proof.
  induction n as [|n IH]; [cbn [sum_f_R0]; now rewrite term_eq|]. cbn [sum_f_R0]. rewrite IH, term_eq. cbn [psum]. pose proof (psum_pos n) as P. destruct (psum n) as (a & b). cbn [fst snd] in *.
  pose proof (tden_pos (Z.of_nat (S n)) ltac:(lia)) as T. rewrite plus_IZR, !mult_IZR. apply IZR_lt in P, T. field. split; lra.
Qed.
Lemma frac_le a b c d : (0 < b)%Z -> (0 < d)%Z -> (a * d <= c * b)%Z -> IZR a / IZR b <= IZR c / IZR d.
Proof.
  intros B D H. apply IZR_le in H. rewrite !mult_IZR in H. apply IZR_lt in B, D. apply (Rmult_le_reg_r (IZR b * IZR d)); [nra|].
  replace (IZR a / IZR b * (IZR b * IZR d)) with (IZR a * IZR d) by (field; lra). replace (IZR c / IZR d * (IZR b * IZR d)) with (IZR c * IZR b) by (field; lra). exact H.
Qed.
Lemma pi_bounds : IZR pz / IZR (2 ^ 110) <= PI <= IZR (pz + 4) / IZR (2 ^ 110).
Proof.
  destruct (PI_2_3_7_ineq 18) as (L & H). rewrite psum_eq in L, H.
  assert (IZR pz / IZR (2 ^ 112) <= PI / 4 <= IZR (pz + 4) / IZR (2 ^ 112)) as (A & B).
  { split; [eapply Rle_trans; [|exact L]|eapply Rle_trans; [exact H|]]; (apply frac_le; [first [reflexivity|apply psum_pos] | first [reflexivity|apply psum_pos] |]); apply Z.leb_le; vm_compute; reflexivity. }
  change (2 ^ 112)%Z with (4 * 2 ^ 110)%Z in A, B. rewrite mult_IZR in A, B. assert (0 < IZR (2 ^ 110)) by (apply IZR_lt; reflexivity).
  replace (IZR pz / (4 * IZR (2 ^ 110))) with (IZR pz / IZR (2 ^ 110) / 4) in A by (field; lra). replace (IZR (pz + 4) / (4 * IZR (2 ^ 110))) with (IZR (pz + 4) / IZR (2 ^ 110) / 4) in B by (field; lra). lra.
Qed.
