(** sum(mask) and product(mask) with an empty mask. *)
From Coq Require Import ZArith List Bool Lia.
From Verif.Spec Require Import Seq MaskSpec VectorSpec.
From Verif.Model Require Import SplitSize Word SseReg SseMove SseInt SseBuild SseArith SseMask SseNative SimdArray SimdArrayOps
  AvxReg AvxMove AvxBuild AvxShuffle AvxMask AvxArith ScalarVec.
From Verif.Proof Require Import WordP SeqP SimdArrayP SimdArrayOpsP SseIntP SseArithP SseBuildP SseNativeP AvxArithP AvxNativeP ScalarVecP.
Import ListNotations.
Local Open Scope Z_scope.

Definition mred_empty {A} (native : nat -> bool) (c : A) (mred : list A -> list bool -> A) : Prop :=
  forall xs m, native (length xs) = true -> length m = length xs -> none_spec m -> mred xs m = c.

Lemma none_update {A} (z : A) m xs : length m = length xs -> none_spec m -> masked_update_spec m xs (repeat z (length xs)) = repeat z (length xs).
Proof.
  unfold masked_update_spec. revert xs. induction m as [|c m IH]; intros [|x xs] L N; try discriminate L; [reflexivity|]. cbn. rewrite (N c) by now left. f_equal. apply IH; [now injection L|]. intros d Hd. apply N. now right.
Qed.
Lemma reduce_repeat {A} (f : A -> A -> A) z n : (forall x, f x z = x) -> reduce_spec f (repeat z (S n)) = Some z.
Proof. intros Z. cbn. f_equal. induction n as [|n IH]; cbn; [reflexivity|]. now rewrite Z. Qed.
Lemma add_0_r w (x : word w) : wadd x (w0 w) = x.
Proof. rewrite wadd_comm. apply wadd_0_l. Qed.
Lemma mul_1_r w (x : word w) : wmul x (mkw w 1) = x.
Proof. rewrite wmul_comm. apply wmul_1_l. Qed.

Lemma scalar_empty A (zero neutral : A) : mred_empty scalar_native neutral (scalar_sumprod_masked zero neutral).
Proof. intros xs m H L N. destruct (one_mask _ _ _ H L) as (c & x & -> & ->). rewrite (N c) by now left. reflexivity. Qed.
Lemma sse_lanes e : exists k, (16 / esize e)%nat = S k.
Proof. destruct e; eexists; reflexivity. Qed.
Lemma avx_lanes e : exists k, (32 / esize e)%nat = S k.
Proof. destruct e; eexists; reflexivity. Qed.
Section E.
  Context (e : etype) (He : is_integer e = true).
  Lemma one_empty (c : elt e) xs m : length xs = 1%nat -> length m = length xs -> none_spec m -> scalar_sumprod_masked (w0 _) c xs m = c.
  Proof using. intros L Lm N. destruct xs as [|x [|? ?]]; try discriminate L. destruct m as [|d [|? ?]]; try discriminate Lm. rewrite (N d) by now left. reflexivity. Qed.
  Lemma sse_sum_empty sse41 : mred_empty (sse_native (esize e)) (w0 _) (sse_sum_masked sse41 e).
  Proof using He.
    intros xs m W L N. unfold sse_sum_masked, one_or. destruct (native_cases _ _ W) as [E|[E E']].
    - destruct (Nat.eqb_spec (@length (elt e) xs) 1) as [_|Q]; [now apply one_empty|contradiction].
    - destruct (Nat.eqb_spec (@length (elt e) xs) 1) as [Q|_]; [apply Nat.eqb_neq in E'; contradiction|]. unfold v_sum_masked. rewrite (setzero_pack (esize e)) by apply esize_lane. rewrite assign_pad by auto. rewrite none_update by auto.
      destruct (sse_lanes e) as (k & K). assert (EL : @length (elt e) xs = S k) by exact (eq_trans E K). assert (LR : length (repeat (w0 (esize e)) (S k)) = (16 / esize e)%nat) by (rewrite repeat_length; now symmetry).
      pose proof (sum_ok e He _ LR) as S. rewrite EL. rewrite reduce_repeat in S by apply add_0_r. now injection S.
  Qed.
  Lemma sse_product_empty sse41 : mred_empty (sse_native (esize e)) (mkw _ 1) (sse_product_masked sse41 e).
  Proof using He.
    intros xs m W L N. unfold sse_product_masked, one_or. destruct (native_cases _ _ W) as [E|[E E']].
    - destruct (Nat.eqb_spec (@length (elt e) xs) 1) as [_|Q]; [now apply one_empty|contradiction].
    - destruct (Nat.eqb_spec (@length (elt e) xs) 1) as [Q|_]; [apply Nat.eqb_neq in E'; contradiction|]. unfold v_product_masked, set1. rewrite assign_pad by auto. rewrite none_update by auto.
      destruct (sse_lanes e) as (k & K). assert (EL : @length (elt e) xs = S k) by exact (eq_trans E K). assert (LR : length (repeat (mkw (esize e) 1) (S k)) = (16 / esize e)%nat) by (rewrite repeat_length; now symmetry).
      pose proof (product_ok sse41 e He _ LR) as S. rewrite EL. rewrite reduce_repeat in S by apply mul_1_r. now injection S.
  Qed.
  Lemma avx_sum_empty avx2 : mred_empty (avx_widths_of avx2 e) (w0 _) (avx_sum_masked e).
  Proof using He.
    intros xs m W L N. unfold avx_sum_masked, full_or. destruct (awidth_cases _ _ _ W) as [[E E']|[E E']]; unfold elt in E |- *; rewrite E; [|now apply sse_sum_empty].
    unfold y_sum_masked. rewrite (yzero_pack e), yassign_pad by auto. rewrite none_update by auto.
    destruct (avx_lanes e) as (k & K). assert (EL : @length (elt e) xs = S k) by exact (eq_trans E' K). assert (LR : length (repeat (w0 (esize e)) (S k)) = (32 / esize e)%nat) by (rewrite repeat_length; now symmetry).
    pose proof (y_sum_ok e He _ LR) as S. rewrite EL. rewrite reduce_repeat in S by apply add_0_r. now injection S.
  Qed.
  Lemma avx_product_empty avx2 : mred_empty (avx_widths_of avx2 e) (mkw _ 1) (avx_product_masked e).
  Proof using He.
    intros xs m W L N. unfold avx_product_masked, full_or. destruct (awidth_cases _ _ _ W) as [[E E']|[E E']]; unfold elt in E |- *; rewrite E; [|now apply sse_product_empty].
    unfold y_product_masked. rewrite (set1_ypack _ _ (esize_ok e)), yassign_pad by auto. rewrite none_update by auto.
    destruct (avx_lanes e) as (k & K). assert (EL : @length (elt e) xs = S k) by exact (eq_trans E' K). assert (LR : length (repeat (mkw (esize e) 1) (S k)) = (32 / esize e)%nat) by (rewrite repeat_length; now symmetry).
    pose proof (y_product_ok e He _ LR) as S. rewrite EL. rewrite reduce_repeat in S by apply mul_1_r. now injection S.
  Qed.
End E.

(** arrays *)
Lemma reduce_empty {A} (W : nat -> bool) K (MK : native_masks_ok W K) (mred : list A -> list bool -> A) f c : mred_empty W c mred ->
  forall n t k, wf W n t -> wf W n k -> none_spec (to_list k) -> reduce_masked K mred f t k = Some c.
Proof.
  intros M n t k Wt. revert k. induction Wt as [n xs N L|n l r E W0 IH0 W1 IH1]; intros k Wk HN; inversion Wk as [n' ks N' L'|n' k0 k1 E' K0 K1]; subst; try congruence.
  - cbn [reduce_masked]. f_equal. apply M; auto.
  - cbn [reduce_masked to_list] in *. assert (N0 : none_spec (to_list k0)) by (intros d Hd; apply HN, in_or_app; auto). assert (N1 : none_spec (to_list k1)) by (intros d Hd; apply HN, in_or_app; auto).
    rewrite (proj2 (is_empty_ok W K MK _ k0 K0) N0). now apply IH1.
Qed.
