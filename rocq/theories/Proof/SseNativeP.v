(** The SSE reductions, masks and blends satisfy what SimdArray relies on. *)
From Coq Require Import ZArith List Bool Lia.
From Verif.Spec Require Import Seq NativeSpec MaskSpec FloatSpec.
From Verif.Model Require Import Word Fp SseReg SseMove SortNet SseInt SimdArray SimdArrayOps ScalarVec SseBuild SseArith SseMask SseNative.
From Verif.Proof Require Import SeqP WordP SseMoveP SseVecP SseIntP SseEmulP SseMaskP FpP SseArithP SseBuildP.
Import ListNotations.
Local Open Scope Z_scope.

Lemma native_cases e n : sse_native (esize e) n = true -> n = 1%nat \/ (n = 16 / esize e /\ Nat.eqb n 1 = false)%nat.
Proof.
  unfold sse_native. intros H. apply orb_true_iff in H. destruct H as [H|H]; apply Nat.eqb_eq in H; auto. right. subst. split; auto. now destruct e.
Qed.
Ltac one xs H := let E := fresh "E" in
  destruct (native_cases _ _ H) as [E|[E E']];
  [destruct xs as [|x [|? ?]]; try discriminate E|unfold elt in *; try rewrite E'; try (rewrite E)].

Lemma red_native e f (v : reg -> elt e) : (forall xs : list (elt e), length xs = (16 / esize e)%nat -> reduce_spec f xs = Some (v (pack xs))) ->
  native_reduce_ok (sse_native (esize e)) f (fun xs => one_or xs (scalar_reduce (w0 _) xs) (v (pack xs))).
Proof.
  intros H xs N. unfold one_or. destruct (native_cases _ _ N) as [E|[E E']].
  - rewrite E. cbn. destruct xs as [|x [|? ?]]; try discriminate E. reflexivity.
  - rewrite E'. apply H, E.
Qed.
Lemma sse_min_ok sse41 e : is_integer e = true -> native_reduce_ok (sse_native (esize e)) (e_min e) (sse_min sse41 e).
Proof. intros He. apply red_native. intros. rewrite hmin_ok with (sse41 := sse41) by auto. now destruct e. Qed.
Lemma sse_max_ok sse41 e : is_integer e = true -> native_reduce_ok (sse_native (esize e)) (e_max e) (sse_max sse41 e).
Proof. intros He. apply red_native. intros. rewrite hmax_ok with (sse41 := sse41) by auto. now destruct e. Qed.
Lemma sse_sum_ok e : is_integer e = true -> native_reduce_ok (sse_native (esize e)) wadd (sse_sum e).
Proof. intros He. apply red_native. intros. now apply sum_ok. Qed.
Lemma sse_product_ok sse41 e : is_integer e = true -> native_reduce_ok (sse_native (esize e)) wmul (sse_product sse41 e).
Proof. intros He. apply red_native. intros. now apply product_ok. Qed.

Lemma mred_native e f (s : list (elt e) -> list bool -> elt e) (v : reg -> reg -> elt e) :
  (forall x, s [x] [true] = x) ->
  (forall (xs : list (elt e)) m, length xs = (16 / esize e)%nat -> length m = length xs -> ~ none_spec m -> reduce_spec f (select_spec m xs) = Some (v (pack xs) (mask_reg (esize e) m))) ->
  native_reduce_masked_ok (sse_native (esize e)) f (fun xs m => one_or xs (s xs m) (v (pack xs) (mask_reg (esize e) m))).
Proof.
  intros H1 H xs m N L NN. unfold one_or. destruct (native_cases _ _ N) as [E|[E E']].
  - rewrite E. cbn. destruct xs as [|x [|? ?]]; try discriminate E. destruct m as [|[] [|? ?]]; try discriminate L.
    + now rewrite H1.
    + exfalso. apply NN. intros b [<-|[]]; auto.
  - rewrite E'. apply H; auto.
Qed.
Lemma sse_min_masked_ok sse41 e : is_integer e = true -> native_reduce_masked_ok (sse_native (esize e)) (e_min e) (sse_min_masked sse41 e).
Proof. intros He. apply mred_native; auto. intros. now apply hmin_masked. Qed.
Lemma sse_max_masked_ok sse41 e : is_integer e = true -> native_reduce_masked_ok (sse_native (esize e)) (e_max e) (sse_max_masked sse41 e).
Proof. intros He. apply mred_native; auto. intros. now apply hmax_masked. Qed.
Lemma sse_sum_masked_ok sse41 e : is_integer e = true -> native_reduce_masked_ok (sse_native (esize e)) wadd (sse_sum_masked sse41 e).
Proof. intros He. apply mred_native; auto. intros. now apply sum_masked. Qed.
Lemma sse_product_masked_ok sse41 e : is_integer e = true -> native_reduce_masked_ok (sse_native (esize e)) wmul (sse_product_masked sse41 e).
Proof. intros He. apply mred_native; auto. intros. now apply product_masked. Qed.

Lemma sse_assign_native sse41 e : native_assign_ok (sse_native (esize e)) (sse_assign sse41 e).
Proof.
  intros xs vs m N Lv Lm. unfold sse_assign, one_or. destruct (native_cases _ _ N) as [E|[E E']].
  - rewrite E. cbn. rewrite E in *. destruct xs as [|x [|? ?]]; try discriminate E. destruct m as [|[] [|? ?]]; try discriminate Lm; destruct vs as [|v [|? ?]]; try discriminate Lv; reflexivity.
  - rewrite E'. rewrite v_assign_ok by auto. apply lanes_pack. rewrite <- E. unfold masked_update_spec. rewrite map3_length; auto; congruence.
Qed.
Lemma sse_zero_inverted_native e : native_zero_inverted_ok (sse_native (esize e)) (w0 _) (sse_zero_inverted e).
Proof.
  intros xs m N Lm. unfold sse_zero_inverted, one_or. destruct (native_cases _ _ N) as [E|[E E']].
  - rewrite E in *. cbn. destruct xs as [|x [|? ?]]; try discriminate E. destruct m as [|[] [|? ?]]; try discriminate Lm; reflexivity.
  - unfold elt in *; rewrite E'. rewrite v_set_zero_inverted_ok by auto. apply lanes_pack. rewrite map2_length, Lm, Nat.min_id. exact E.
Qed.
