(** Division in error bounds, and shorter forms of the rules of Proof/SeriesP. *)
From Coq Require Import ZArith Reals List Bool Lia Lra Psatz.
From Verif.Spec Require Import FloatSpec RoundSpec AccuracySpec.
From Verif.Model Require Import Word Fp FpArith Transcend.
From Verif.Proof Require Import WordP FpP FpArithP FpIntP RealErrP PiBoundP SeriesP.
Local Open Scope R_scope.

Section A.
  Context {w : nat} (Hw : fp_width w).
  Notation app := (@app w).
  Lemma real_nonzero (y : word w) : real y <> 0 -> fvalue y <> 0%Z.
  Proof using Hw. intros H E. apply H. rewrite (real_eq Hw), E. unfold Rdiv. ring. Qed.
  (** m: a lower bound of the exact divisor; e: the error of the exact quotient of the approximations *)
  Lemma div_w X x B E Y y C D m e B' E' : app X x B E -> app Y y C D -> m <= Rabs y -> 0 <= D < m -> 0 <= E -> 0 <= B' <= 1000 -> 0 <= e <= 1000 -> Rabs (x / y) <= B' -> E + B' * D <= e * (m - D) ->
    e + uu (w := w) * (B' + e) + / 1267650600228229401496703205376 <= E' -> app (fdiv X Y) (x / y) B' E'.
  Proof using Hw.
    intros (F1 & H1 & H2) (F2 & H3 & H4) HM (D0 & DM) E0 (B0 & B1) (e0 & e1) HB He HE. pose proof (uu_pos Hw) as U0. pose proof (eta_pos Hw) as P0. pose proof (eta_le Hw). pose proof B70_big.
    assert (Y1 : m - D <= Rabs (real Y)) by (pose proof (Rabs_triang_inv y (real Y)) as T; rewrite (Rabs_minus_sym y) in T; pose proof (Rabs_triang (real Y) (y - real Y)) as T'; replace (real Y + (y - real Y)) with y in T' by ring; rewrite (Rabs_minus_sym y) in T'; lra).
    assert (YN : real Y <> 0) by (intros Z0; rewrite Z0, Rabs_R0 in Y1; lra). assert (yN : y <> 0) by (intros Z0; rewrite Z0, Rabs_R0 in HM; lra).
    assert (S2 : Rabs (real X / real Y - x / y) <= e).
    { replace (real X / real Y - x / y) with (((real X - x) - x / y * (real Y - y)) * / real Y) by (field; auto). rewrite Rabs_mult, Rabs_inv.
      assert (N : Rabs (real X - x - x / y * (real Y - y)) <= E + B' * D).
      { unfold Rminus at 1. eapply Rle_trans; [apply Rabs_triang|]. rewrite Rabs_Ropp, Rabs_mult. apply Rplus_le_compat; [exact H2|]. apply Rmult_le_compat; auto using Rabs_pos. }
      apply (Rmult_le_reg_r (Rabs (real Y))); [lra|]. rewrite Rmult_assoc, Rinv_l, Rmult_1_r by lra. eapply Rle_trans; [exact N|]. eapply Rle_trans; [exact He|]. apply Rmult_le_compat_l; lra. }
    destruct (fdiv_real Hw X Y F1 F2 (real_nonzero Y YN)) as (F & G).
    { replace (real X / real Y) with (x / y + (real X / real Y - x / y)) by ring. eapply Rle_trans; [apply Rabs_triang|lra]. }
    split; [exact F|]. split; [exact HB|]. eapply Rle_trans; [apply (round_bound (w := w) (real X / real Y) (x / y) B' e (eta (w := w))); auto; lra|lra].
  Qed.
  Lemma const_ok (c : word w) n d : is_Finite c = true -> (0 < d)%Z -> (fvalue c * d =? n * one_units w)%Z = true -> app c (IZR n / IZR d) (IZR (Z.abs n) / IZR d) 0.
  Proof using Hw. intros F D E. apply (const_app Hw); auto. apply IZR_lt in D. unfold Rdiv. rewrite Rabs_mult, <- abs_IZR, (Rabs_pos_eq (/ IZR d)) by (left; now apply Rinv_0_lt_compat). lra. Qed.
End A.
