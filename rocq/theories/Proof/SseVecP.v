(** SSE native vectors meet the requirements of SimdArray. *)
From Coq Require Import ZArith List Bool Lia Permutation.
From Verif.Spec Require Import Seq NativeSpec.
From Verif.Model Require Import SimdArray SseReg SseMove ScalarVec.
From Verif.Proof Require Import SeqP ScalarVecP SseMoveP.
Import ListNotations.
Local Open Scope Z_scope.

Lemma map_tab {A C} (g : A -> C) n f : map g (tab n f) = tab n (fun i => g (f i)).
Proof. unfold tab. now rewrite map_map. Qed.

Lemma znth_map {A C} (g : A -> C) d xs z : znth (g d) (map g xs) z = g (znth d xs z).
Proof.
  unfold znth. rewrite map_length.
  destruct ((0 <=? z) && (z <? Z.of_nat (length xs))); auto. apply map_nth.
Qed.

Lemma map_shift_spec {A C} (g : A -> C) d xs k : map g (shift_spec d xs k) = shift_spec (g d) (map g xs) k.
Proof. unfold shift_spec. rewrite map_tab, map_length. apply tab_ext. intros. now rewrite znth_map. Qed.
Lemma map_shiftin_spec {A C} (g : A -> C) d xs s k : map g (shiftin_spec d xs s k) = shiftin_spec (g d) (map g xs) (map g s) k.
Proof.
  unfold shiftin_spec. rewrite map_tab, !map_length. apply tab_ext. intros.
  rewrite <- !map_app. now rewrite znth_map.
Qed.
Lemma map_rotate_spec {A C} (g : A -> C) d xs k : map g (rotate_spec d xs k) = rotate_spec (g d) (map g xs) k.
Proof. unfold rotate_spec. rewrite map_tab, !map_length. apply tab_ext. intros. now rewrite znth_map. Qed.
Lemma map_interleave {A C} (g : A -> C) xs : forall ys, map g (interleave_spec xs ys) = interleave_spec (map g xs) (map g ys).
Proof. induction xs as [|x xs IH]; intros [|y ys]; cbn; auto. now rewrite IH. Qed.

Lemma sse_widths w : width_ok w -> widths_ok (sse_native w).
Proof.
  intros Hw. split; [reflexivity|]. intros n H. unfold sse_native in H. apply orb_prop in H.
  destruct H as [H|H]; apply Nat.eqb_eq in H; subst n; [now exists 0%nat|].
  destruct Hw as [->|[->| ->]]; [now exists 3%nat|now exists 2%nat|now exists 1%nat].
Qed.

Section V.
  Context {B A : Type} (b0 : B) (bor : B -> B -> B) (w : nat) (enc : A -> list B) (dec : list B -> A) (zero : A).
  Hypothesis Hw : width_ok w.
  Hypothesis bor_l : forall b, bor b0 b = b.
  Hypothesis bor_r : forall b, bor b b0 = b.
  Hypothesis enc_len : forall a, length (enc a) = w.
  Hypothesis dec_enc : forall a, dec (enc a) = a.
  Hypothesis enc_zero : enc zero = repeat b0 w.

  Lemma dec_zero : dec (repeat b0 w) = zero.
  Proof. now rewrite <- enc_zero, dec_enc. Qed.

  Lemma map_dec_enc xs : map dec (map enc xs) = xs.
  Proof. rewrite map_map. rewrite <- (map_id xs) at 2. apply map_ext. auto. Qed.

  Lemma lanes_enc xs : length xs = (16 / w)%nat -> lanes_ok w (map enc xs).
  Proof.
    intros H. split; [now rewrite map_length|]. apply Forall_forall. intros c Hc.
    apply in_map_iff in Hc. destruct Hc as (a & <- & _). auto.
  Qed.

  Lemma of_to_reg xs : length xs = (16 / w)%nat -> of_reg w dec (to_reg enc xs) = xs.
  Proof.
    intros H. unfold of_reg, to_reg.
    pose proof (sse_shifted_lanes b0 w (map enc xs) 0 Hw (lanes_enc xs H)) as Q. unfold sse_shifted in Q. cbn [Z.eqb] in Q.
    rewrite Q, map_shift_spec, map_dec_enc. unfold shift_spec.
    rewrite dec_zero. erewrite tab_ext; [apply tab_znth|]. intros. cbn. now rewrite Z.add_0_r.
  Qed.

  Lemma vec_shifted xs k : length xs = (16 / w)%nat ->
    of_reg w dec (sse_shifted b0 w (to_reg enc xs) k) = shift_spec zero xs k.
  Proof.
    intros H. unfold of_reg, to_reg. rewrite sse_shifted_lanes by (auto using lanes_enc).
    now rewrite map_shift_spec, map_dec_enc, dec_zero.
  Qed.
  Lemma vec_shifted_in ssse3 xs k s : length xs = (16 / w)%nat -> length s = (16 / w)%nat ->
    - 2 * Z.of_nat (16 / w) < k < 2 * Z.of_nat (16 / w) \/ 16 <= k \/ k <= - 2 * Z.of_nat (16 / w) ->
    of_reg w dec (sse_shifted_in b0 bor ssse3 w (to_reg enc xs) k (to_reg enc s)) = shiftin_spec zero xs s k.
  Proof.
    intros H Hs Hk. unfold of_reg, to_reg. rewrite sse_shifted_in_lanes by (auto using lanes_enc).
    now rewrite map_shiftin_spec, !map_dec_enc, dec_zero.
  Qed.
  Lemma vec_rotated ssse3 xs k : length xs = (16 / w)%nat ->
    of_reg w dec (sse_rotated b0 bor ssse3 w (to_reg enc xs) k) = rotate_spec zero xs k.
  Proof.
    intros H. unfold of_reg, to_reg. rewrite sse_rotated_lanes by (auto using lanes_enc).
    now rewrite map_rotate_spec, map_dec_enc, dec_zero.
  Qed.
  Lemma vec_reversed xs : length xs = (16 / w)%nat -> of_reg w dec (sse_reversed w (to_reg enc xs)) = rev xs.
  Proof.
    intros H. unfold of_reg, to_reg. rewrite sse_reversed_lanes by (auto using lanes_enc).
    now rewrite map_rev, map_dec_enc.
  Qed.
  Lemma vec_reversed_epi32 xs : w = 4%nat -> length xs = 4%nat -> of_reg w dec (sse_reversed_epi32 (to_reg enc xs)) = rev xs.
  Proof.
    intros E H. pose proof (lanes_enc xs) as L. rewrite E in L. specialize (L H).
    unfold of_reg, to_reg. rewrite E. change (16 / 4)%nat with 4%nat. rewrite sse_reversed_epi32_lanes by auto.
    now rewrite map_rev, map_dec_enc.
  Qed.
  Lemma vec_interleave xs ys : length xs = (16 / w)%nat -> length ys = (16 / w)%nat ->
    of_reg w dec (sse_interleave_low w (to_reg enc xs) (to_reg enc ys)) = firstn (16 / w) (interleave_spec xs ys) /\
    of_reg w dec (sse_interleave_high w (to_reg enc xs) (to_reg enc ys)) = skipn (16 / w) (interleave_spec xs ys).
  Proof.
    intros H H'. unfold of_reg, to_reg.
    rewrite sse_interleave_low_lanes, sse_interleave_high_lanes by (auto using lanes_enc).
    now rewrite <- firstn_map, <- skipn_map, map_interleave, !map_dec_enc.
  Qed.

  Lemma native_cases xs : sse_native w (@length A xs) = true ->
    (Nat.eqb (length xs) 1 = true) \/ (Nat.eqb (length xs) 1 = false /\ length xs = (16 / w)%nat).
  Proof.
    intros H. unfold sse_native in H. destruct (Nat.eqb (length xs) 1) eqn:E; [now left|right].
    split; auto. now apply Nat.eqb_eq in H.
  Qed.

  Theorem sse_moves add sort ssse3 :
    native_moves_ok (sse_native w) zero (sse_ops b0 bor w enc dec zero add sort ssse3).
  Proof.
    pose proof (scalar_moves A zero) as S.
    split.
    - intros xs k H. cbn [n_shifted sse_ops]. destruct (native_cases xs H) as [E|[E L]]; rewrite E.
      + now apply (nm_shifted _ _ _ S).
      + now apply vec_shifted.
    - intros xs k s H HL Hk. cbn [n_shifted_in sse_ops]. destruct (native_cases xs H) as [E|[E L]]; rewrite E.
      + apply (nm_shifted_in _ _ _ S); auto.
      + apply vec_shifted_in; auto; [congruence|]. left. rewrite L in Hk.
        assert (0 < Z.of_nat (16 / w)) by (destruct Hw as [->|[->| ->]]; reflexivity). lia.
    - intros xs k H. cbn [n_rotated sse_ops]. destruct (native_cases xs H) as [E|[E L]]; rewrite E.
      + now apply (nm_rotated _ _ _ S).
      + now apply vec_rotated.
    - intros xs H. cbn [n_reversed sse_ops]. destruct (native_cases xs H) as [E|[E L]]; rewrite E.
      + now apply (nm_reversed _ _ _ S).
      + now apply vec_reversed.
    - intros xs ys H HL. cbn [n_interleave_low sse_ops]. destruct (native_cases xs H) as [E|[E L]]; rewrite E.
      + now apply (nm_interleave_low _ _ _ S).
      + rewrite L. apply vec_interleave; congruence.
    - intros xs ys H HL. cbn [n_interleave_high sse_ops]. destruct (native_cases xs H) as [E|[E L]]; rewrite E.
      + now apply (nm_interleave_high _ _ _ S).
      + rewrite L. apply vec_interleave; congruence.
  Qed.

  Theorem sse_sorted_ok add sort ssse3 le :
    (forall xs, length xs = (16 / w)%nat -> sorted_spec le (sort xs) /\ Permutation (sort xs) xs) ->
    native_sorted_ok (sse_native w) le (sse_ops b0 bor w enc dec zero add sort ssse3).
  Proof.
    intros Hs xs H. cbn [n_sorted sse_ops]. destruct (native_cases xs H) as [E|[E L]]; rewrite E; auto.
    apply (scalar_sorted A zero le xs). exact E.
  Qed.

  Lemma map2_flip (f : A -> A -> A) : (forall a b, f a b = f b a) -> forall xs ys, map2 f xs ys = map2 (fun a b => f b a) xs ys.
  Proof. intros Hc. induction xs as [|x xs IH]; intros [|y ys]; cbn; auto. now rewrite IH, Hc. Qed.

  Theorem sse_partial_sum_ok add sort ssse3 :
    (forall a b, add a b = add b a) -> (forall a b c, add (add a b) c = add a (add b c)) -> (forall a, add zero a = a) ->
    native_partial_sum_ok (sse_native w) add (sse_ops b0 bor w enc dec zero add sort ssse3).
  Proof.
    intros Hc Ha Hz xs H. cbn [n_partial_sum sse_ops]. destruct (native_cases xs H) as [E|[E L]]; rewrite E.
    { now apply (scalar_partial_sum A zero add xs). }
    unfold sse_partial_sum. rewrite !(map2_flip add Hc). clear H E.
    assert (G : forall (f : A -> A -> A) ys k, length ys = (16 / w)%nat ->
      map2 f ys (of_reg w dec (sse_shifted b0 w (to_reg enc ys) k)) = map2 f ys (shift_spec zero ys k) /\
      length (map2 f ys (shift_spec zero ys k)) = (16 / w)%nat).
    { intros f ys k Ly. rewrite vec_shifted by auto. split; auto.
      rewrite map2_length. unfold shift_spec. rewrite tab_length. lia. }
    revert G L. destruct Hw as [->|[->| ->]].
    - change (16 / 2)%nat with 8%nat. intros G L. cbn [Nat.ltb Nat.leb].
      rewrite (proj1 (G _ xs _ L)). set (y1 := map2 _ xs _). assert (L1 : length y1 = 8%nat) by (apply G; auto).
      rewrite (proj1 (G _ y1 _ L1)). set (y2 := map2 _ y1 _). assert (L2 : length y2 = 8%nat) by (apply G; auto).
      rewrite (proj1 (G _ y2 _ L2)). subst y2 y1. clear -L Ha Hz. explode_list xs.
      cbv. rewrite !Hz, <- !Ha. reflexivity.
    - change (16 / 4)%nat with 4%nat. intros G L. cbn [Nat.ltb Nat.leb].
      rewrite (proj1 (G _ xs _ L)). set (y1 := map2 _ xs _). assert (L1 : length y1 = 4%nat) by (apply G; auto).
      rewrite (proj1 (G _ y1 _ L1)). subst y1. clear -L Ha Hz. explode_list xs.
      cbv. rewrite !Hz, <- !Ha. reflexivity.
    - change (16 / 8)%nat with 2%nat. intros G L. cbn [Nat.ltb Nat.leb].
      rewrite (proj1 (G _ xs _ L)). clear -L Ha Hz. explode_list xs.
      cbv. rewrite !Hz. reflexivity.
  Qed.
End V.
