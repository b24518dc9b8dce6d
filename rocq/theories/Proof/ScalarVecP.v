(** The Scalar vector meets the requirements of SimdArray. *)
From Coq Require Import ZArith List Bool Lia Permutation.
From Verif.Spec Require Import Seq NativeSpec MaskSpec.
From Verif.Model Require Import SimdArray SimdArrayOps ScalarVec.
From Verif.Proof Require Import SeqP.
Import ListNotations.
Local Open Scope Z_scope.

Lemma scalar_widths : widths_ok scalar_native.
Proof.
  split; [reflexivity|]. intros n H. apply Nat.eqb_eq in H. subst. now exists 0%nat.
Qed.

Lemma len1 A (xs : list A) : scalar_native (length xs) = true -> exists x, xs = [x].
Proof. intros H. apply Nat.eqb_eq in H. destruct xs as [|x [|]]; try discriminate. eauto. Qed.

Lemma scalar_moves A (zero : A) : native_moves_ok scalar_native zero (scalar_ops zero).
Proof.
  split.
  - intros xs k H. apply len1 in H. destruct H as [x ->]. cbn [n_shifted scalar_ops].
    unfold shift_spec. cbn [length]. change (tab 1 (fun i => znth zero [x] (i + k))) with [znth zero [x] k].
    destruct (Z.eqb_spec k 0) as [->|]; [reflexivity|]. rewrite znth_out; auto. cbn. lia.
  - intros xs k s H HL Hk. apply len1 in H. destruct H as [x ->]. destruct s as [|y [|]]; cbn in HL; try lia.
    cbn [n_shifted_in scalar_ops]. cbn in Hk.
    assert (k = -1 \/ k = 0 \/ k = 1) as [->|[->| ->]] by lia; reflexivity.
  - intros xs k H. apply len1 in H. destruct H as [x ->]. cbn [n_rotated scalar_ops].
    unfold rotate_spec. cbn [length]. change (tab 1 (fun i => znth zero [x] ((i + k) mod Z.of_nat 1))) with [znth zero [x] (k mod 1)].
    now rewrite Z.mod_1_r.
  - intros xs H. apply len1 in H. now destruct H as [x ->].
  - intros xs ys H HL. apply len1 in H. destruct H as [x ->]. destruct ys as [|y [|]]; cbn in HL; try lia. reflexivity.
  - intros xs ys H HL. apply len1 in H. destruct H as [x ->]. destruct ys as [|y [|]]; cbn in HL; try lia. reflexivity.
Qed.

Lemma scalar_sorted A (zero : A) le : native_sorted_ok scalar_native le (scalar_ops zero).
Proof. intros xs H. apply len1 in H. destruct H as [x ->]. cbn. split; auto. Qed.

Lemma scalar_partial_sum A (zero : A) add : native_partial_sum_ok scalar_native add (scalar_ops zero).
Proof. intros xs H. apply len1 in H. now destruct H as [x ->]. Qed.

Lemma scalar_reduce_ok A (zero : A) f : native_reduce_ok scalar_native f (scalar_reduce zero).
Proof. intros xs H. apply len1 in H. now destruct H as [x ->]. Qed.

Lemma one_mask (m : list bool) A (xs : list A) : scalar_native (length xs) = true -> length m = length xs ->
  exists b x, m = [b] /\ xs = [x].
Proof.
  intros H HL. apply len1 in H. destruct H as [x ->]. destruct m as [|b [|]]; cbn in HL; try lia. eauto.
Qed.

Lemma scalar_minmax_masked_ok A (zero : A) f : native_reduce_masked_ok scalar_native f (scalar_minmax_masked zero).
Proof.
  intros xs m H HL HN. destruct (one_mask _ _ _ H HL) as (b & x & -> & ->).
  destruct b; [reflexivity|]. exfalso. apply HN. intros b [<-|[]]. reflexivity.
Qed.
Lemma scalar_sumprod_masked_ok A (zero neutral : A) f :
  native_reduce_masked_ok scalar_native f (scalar_sumprod_masked zero neutral).
Proof.
  intros xs m H HL HN. destruct (one_mask _ _ _ H HL) as (b & x & -> & ->).
  destruct b; [reflexivity|]. exfalso. apply HN. intros b [<-|[]]. reflexivity.
Qed.
Lemma scalar_assign_ok A : native_assign_ok scalar_native (@scalar_assign A).
Proof.
  intros xs vs m H H1 H2. destruct (one_mask _ _ _ H H2) as (b & x & -> & ->).
  destruct vs as [|v [|]]; cbn in H1; try lia. now destruct b.
Qed.
Lemma scalar_zero_inverted_ok A (zero : A) : native_zero_inverted_ok scalar_native zero (scalar_zero_inverted zero).
Proof.
  intros xs m H H2. destruct (one_mask _ _ _ H H2) as (b & x & -> & ->). now destruct b.
Qed.
Lemma scalar_masks : native_masks_ok scalar_native scalar_mask_ops.
Proof.
  split; intros m; cbn.
  - intros H. apply len1 in H. destruct H as [[|] ->]; cbn; split; intros; try discriminate; auto.
    + intros x [<-|[]]; auto.
    + exact (H false (or_introl eq_refl)).
  - intros H. apply len1 in H. destruct H as [[|] ->]; cbn; split; intros; try discriminate; auto.
    + intros Q. specialize (Q true (or_introl eq_refl)). discriminate.
    + exfalso. apply H. intros x [<-|[]]; auto.
  - intros H. apply len1 in H. destruct H as [[|] ->]; cbn; split; intros; try discriminate; auto.
    + specialize (H true (or_introl eq_refl)). discriminate.
    + intros x [<-|[]]; auto.
  - intros H. apply len1 in H. destruct H as [[|] ->]; reflexivity.
  - intros H. apply len1 in H. destruct H as [[|] ->]; reflexivity.
  - intros H HN. apply len1 in H. destruct H as [[|] ->].
    + split; [reflexivity|]. intros; lia.
    + exfalso. apply HN. intros x [<-|[]]; auto.
  - intros m' H HL. apply len1 in H. destruct H as [b ->]. destruct m' as [|b' [|]]; cbn in HL; try lia.
    destruct b, b'; cbn; split; intros; congruence.
  - intros m' H HL. apply len1 in H. destruct H as [b ->]. destruct m' as [|b' [|]]; cbn in HL; try lia.
    destruct b, b'; cbn; split; intros; congruence.
Qed.
