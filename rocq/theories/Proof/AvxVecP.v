(** AVX native vectors meet the requirements of SimdArray. *)
From Coq Require Import ZArith List Bool Lia Permutation.
From Verif.Spec Require Import Seq NativeSpec.
From Verif.Model Require Import SimdArray SseReg SseMove ScalarVec AvxReg AvxMove.
From Verif.Proof Require Import SeqP ScalarVecP SseMoveP SseVecP AvxMoveP.
Import ListNotations.
Local Open Scope Z_scope.

Lemma avx_widths w : width_ok w -> widths_ok (avx_native w).
Proof.
  intros Hw. destruct (sse_widths w Hw) as [H1 H2]. split; [reflexivity|]. intros n H. unfold avx_native in H. apply orb_prop in H.
  destruct H as [H|H]; [now apply H2|]. apply Nat.eqb_eq in H; subst n.
  destruct Hw as [->|[->| ->]]; [now exists 4%nat|now exists 3%nat|now exists 2%nat].
Qed.

Section V.
  Context {B A : Type} (b0 : B) (bor : B -> B -> B) (w : nat) (enc : A -> list B) (dec : list B -> A) (zero : A).
  Hypothesis Hw : width_ok w.
  Hypothesis bor_l : forall b, bor b0 b = b.
  Hypothesis bor_r : forall b, bor b b0 = b.
  Hypothesis enc_len : forall a, length (enc a) = w.
  Hypothesis dec_enc : forall a, dec (enc a) = a.
  Hypothesis enc_zero : enc zero = repeat b0 w.
  Notation z16 := (repeat b0 16).
  Notation ty := (to_ymm w enc).
  Notation oy := (of_ymm w dec).

  Lemma half_w : (32 / w = 16 / w + 16 / w)%nat.
  Proof. destruct Hw as [->|[->| ->]]; reflexivity. Qed.
  Lemma half_lo (xs : list A) : length xs = (32 / w)%nat -> length (firstn (16 / w) xs) = (16 / w)%nat.
  Proof. intros H. rewrite firstn_length, H, half_w. lia. Qed.
  Lemma half_hi (xs : list A) : length xs = (32 / w)%nat -> length (skipn (16 / w) xs) = (16 / w)%nat.
  Proof. intros H. rewrite skipn_length, H, half_w. lia. Qed.

  Lemma oy_chunks r : oy r = map dec (ychunks w r).
  Proof. unfold of_ymm, ychunks, of_reg. now rewrite map_app. Qed.
  Lemma ty_concat xs : ty xs = yconcat (map enc (firstn (16 / w) xs)) (map enc (skipn (16 / w) xs)).
  Proof. reflexivity. Qed.
  Lemma map_halves xs : map enc (firstn (16 / w) xs) ++ map enc (skipn (16 / w) xs) = map enc xs.
  Proof. now rewrite <- map_app, firstn_skipn. Qed.
  Lemma lanes_lo xs : length xs = (32 / w)%nat -> lanes_ok w (map enc (firstn (16 / w) xs)).
  Proof. intros. apply lanes_enc; auto. now apply half_lo. Qed.
  Lemma lanes_hi xs : length xs = (32 / w)%nat -> lanes_ok w (map enc (skipn (16 / w) xs)).
  Proof. intros. apply lanes_enc; auto. now apply half_hi. Qed.
  Let mde := map_dec_enc enc dec dec_enc.
  Let dz := dec_zero b0 w enc dec zero dec_enc enc_zero.

  Lemma yof_to xs : length xs = (32 / w)%nat -> oy (ty xs) = xs.
  Proof.
    intros H. unfold of_ymm, to_ymm. cbn [lo128 hi128].
    rewrite !(of_to_reg b0 w enc dec zero) by auto using half_lo, half_hi. apply firstn_skipn.
  Qed.

  Lemma yvec_shifted xs k : length xs = (32 / w)%nat -> oy (avx_shifted b0 z16 w (ty xs) k) = shift_spec zero xs k.
  Proof.
    intros H. rewrite oy_chunks, ty_concat, avx_shifted_lanes by auto using lanes_lo, lanes_hi.
    rewrite map_halves, map_shift_spec, mde, dz. reflexivity.
  Qed.
  Lemma yvec_shifted_in constant xs k s : length xs = (32 / w)%nat -> length s = (32 / w)%nat ->
    oy (avx_shifted_in b0 bor z16 constant w (ty xs) k (ty s)) = shiftin_spec zero xs s k.
  Proof.
    intros H H'. rewrite oy_chunks, !ty_concat, avx_shifted_in_lanes by auto using lanes_lo, lanes_hi.
    rewrite !map_halves, map_shiftin_spec, !mde, dz. reflexivity.
  Qed.
  Lemma yvec_rotated xs k : length xs = (32 / w)%nat -> oy (avx_rotated b0 w (ty xs) k) = rotate_spec zero xs k.
  Proof.
    intros H. rewrite oy_chunks, !ty_concat, avx_rotated_lanes by auto using lanes_lo, lanes_hi.
    rewrite !map_halves, map_rotate_spec, !mde, dz. reflexivity.
  Qed.
  Lemma yvec_reversed xs : length xs = (32 / w)%nat -> oy (avx_reversed b0 w (ty xs)) = rev xs.
  Proof.
    intros H. rewrite oy_chunks, !ty_concat, avx_reversed_lanes by auto using lanes_lo, lanes_hi.
    rewrite !map_halves, map_rev, !mde. reflexivity.
  Qed.
  Lemma yvec_interleave xs ys : length xs = (32 / w)%nat -> length ys = (32 / w)%nat ->
    oy (avx_interleave_low b0 w (ty xs) (ty ys)) = firstn (32 / w) (interleave_spec xs ys) /\
    oy (avx_interleave_high b0 w (ty xs) (ty ys)) = skipn (32 / w) (interleave_spec xs ys).
  Proof.
    intros H H'. rewrite !oy_chunks, !ty_concat, avx_interleave_low_lanes, avx_interleave_high_lanes by auto using lanes_lo, lanes_hi.
    rewrite !map_halves, <- firstn_map, <- skipn_map, map_interleave, !mde. auto.
  Qed.

  Lemma avx_cases xs : avx_native w (@length A xs) = true ->
    (Nat.eqb (length xs) (32 / w) = true /\ length xs = (32 / w)%nat) \/
    (Nat.eqb (length xs) (32 / w) = false /\ sse_native w (length xs) = true).
  Proof.
    intros H. unfold avx_native in H. destruct (Nat.eqb_spec (length xs) (32 / w)); [now left|right].
    split; auto. now rewrite orb_false_r in H.
  Qed.

  Theorem avx_moves add sort128 sort256 constant :
    native_moves_ok (avx_native w) zero (avx_ops b0 bor z16 w enc dec zero add sort128 sort256 constant).
  Proof.
    pose proof (sse_moves b0 bor w enc dec zero Hw bor_l bor_r enc_len dec_enc enc_zero add sort128 true) as S.
    split.
    - intros xs k H. cbn [n_shifted avx_ops]. destruct (avx_cases xs H) as [[E L]|[E L]]; rewrite E.
      + now apply yvec_shifted.
      + now apply (nm_shifted _ _ _ S).
    - intros xs k s H HL Hk. cbn [n_shifted_in avx_ops]. destruct (avx_cases xs H) as [[E L]|[E L]]; rewrite E.
      + apply yvec_shifted_in; congruence.
      + now apply (nm_shifted_in _ _ _ S).
    - intros xs k H. cbn [n_rotated avx_ops]. destruct (avx_cases xs H) as [[E L]|[E L]]; rewrite E.
      + now apply yvec_rotated.
      + now apply (nm_rotated _ _ _ S).
    - intros xs H. cbn [n_reversed avx_ops]. destruct (avx_cases xs H) as [[E L]|[E L]]; rewrite E.
      + now apply yvec_reversed.
      + now apply (nm_reversed _ _ _ S).
    - intros xs ys H HL. cbn [n_interleave_low avx_ops]. destruct (avx_cases xs H) as [[E L]|[E L]]; rewrite E.
      + rewrite L. exact (proj1 (yvec_interleave xs ys L (eq_trans (eq_sym HL) L))).
      + now apply (nm_interleave_low _ _ _ S).
    - intros xs ys H HL. cbn [n_interleave_high avx_ops]. destruct (avx_cases xs H) as [[E L]|[E L]]; rewrite E.
      + rewrite L. exact (proj2 (yvec_interleave xs ys L (eq_trans (eq_sym HL) L))).
      + now apply (nm_interleave_high _ _ _ S).
  Qed.

  Theorem avx_sorted_ok add sort128 sort256 constant le :
    (forall xs, length xs = (16 / w)%nat -> sorted_spec le (sort128 xs) /\ Permutation (sort128 xs) xs) ->
    (forall xs, length xs = (32 / w)%nat -> sorted_spec le (sort256 xs) /\ Permutation (sort256 xs) xs) ->
    native_sorted_ok (avx_native w) le (avx_ops b0 bor z16 w enc dec zero add sort128 sort256 constant).
  Proof.
    intros Hs Hs' xs H. cbn [n_sorted avx_ops]. destruct (avx_cases xs H) as [[E L]|[E L]]; rewrite E; auto.
    now apply (sse_sorted_ok b0 bor w enc dec zero add sort128 true le).
  Qed.

  Theorem avx_partial_sum_ok add sort128 sort256 constant :
    (forall a b, add a b = add b a) -> (forall a b c, add (add a b) c = add a (add b c)) -> (forall a, add zero a = a) ->
    native_partial_sum_ok (avx_native w) add (avx_ops b0 bor z16 w enc dec zero add sort128 sort256 constant).
  Proof.
    intros Hc Ha Hz xs H. cbn [n_partial_sum avx_ops]. destruct (avx_cases xs H) as [[E L]|[E L]]; rewrite E.
    2:{ now apply (sse_partial_sum_ok b0 bor w enc dec zero Hw enc_len dec_enc enc_zero add sort128 true). }
    unfold avx_partial_sum. rewrite !(map2_flip add Hc). clear H E.
    assert (G : forall (f : A -> A -> A) ys k, length ys = (32 / w)%nat ->
      map2 f ys (oy (avx_shifted b0 z16 w (ty ys) k)) = map2 f ys (shift_spec zero ys k) /\
      length (map2 f ys (shift_spec zero ys k)) = (32 / w)%nat).
    { intros f ys k Ly. rewrite yvec_shifted by auto. split; auto.
      rewrite map2_length. unfold shift_spec. rewrite tab_length. lia. }
    revert G L. clear -Hw Ha Hz. destruct Hw as [->|[->| ->]]; sz.
    - intros G L. cbn [Nat.ltb Nat.leb].
      rewrite (proj1 (G _ xs _ L)). set (y1 := map2 _ xs _). assert (L1 : length y1 = 16%nat) by (apply G; auto).
      rewrite (proj1 (G _ y1 _ L1)). set (y2 := map2 _ y1 _). assert (L2 : length y2 = 16%nat) by (apply G; auto).
      rewrite (proj1 (G _ y2 _ L2)). set (y3 := map2 _ y2 _). assert (L3 : length y3 = 16%nat) by (apply G; auto).
      rewrite (proj1 (G _ y3 _ L3)). subst y3 y2 y1. clear -L Ha Hz. explode_list xs.
      cbv. rewrite !Hz, <- !Ha. reflexivity.
    - intros G L. cbn [Nat.ltb Nat.leb].
      rewrite (proj1 (G _ xs _ L)). set (y1 := map2 _ xs _). assert (L1 : length y1 = 8%nat) by (apply G; auto).
      rewrite (proj1 (G _ y1 _ L1)). set (y2 := map2 _ y1 _). assert (L2 : length y2 = 8%nat) by (apply G; auto).
      rewrite (proj1 (G _ y2 _ L2)). subst y2 y1. clear -L Ha Hz. explode_list xs.
      cbv. rewrite !Hz, <- !Ha. reflexivity.
    - intros G L. cbn [Nat.ltb Nat.leb].
      rewrite (proj1 (G _ xs _ L)). set (y1 := map2 _ xs _). assert (L1 : length y1 = 4%nat) by (apply G; auto).
      rewrite (proj1 (G _ y1 _ L1)). subst y1. clear -L Ha Hz. explode_list xs.
      cbv. rewrite !Hz, <- !Ha. reflexivity.
  Qed.
End V.
