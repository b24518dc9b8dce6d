(** sqrt, rsqrt and reciprocal (proofs). *)
From Coq Require Import ZArith Reals List Bool Lia Lra.
From Verif.Spec Require Import Seq FloatSpec AccuracySpec RootSpec.
From Verif.Model Require Import Word Fp FpArith SimdArray SimdArrayOps Transcend ScalarMath ArrayMath Roots.
Import ListNotations.
Local Open Scope R_scope.
From Verif.Spec Require Import RoundSpec.
From Verif.Model Require Import SseReg SseMove SortNet SseInt SseBuild SseArith SseMask AvxReg AvxMove AvxBuild AvxShuffle AvxMask AvxArith ScalarVec.
From Verif.Proof Require Import WordP SseMoveP SseIntP SseEmulP SseArithP FpP FpArithP FpIntP ConvertP ConvertRegP SimdArrayOpsP MathP AvxShuffleP AvxMaskP AvxArithP AvxMathP ArrayMathMain SeriesP RealErrP RootP RootRealP.

Lemma leaf_map b w (Hw : w = 4%nat \/ w = 8%nat) (s f : word w -> word w) v y :
  (forall xs, b <> MScalar -> length xs = (16 / w)%nat -> v (has_sse41 b) (pack xs) = pack (map f xs)) ->
  (forall xs, b = MAvx -> length xs = (32 / w)%nat -> y (ypack xs) = ypack (map f xs)) ->
  forall (R : word w -> word w -> Prop), (forall x, R x (s x)) -> (b <> MScalar -> forall x, R x (f x)) ->
  forall n t, wf (math_native b w) n t -> Forall2 R (to_list t) (to_list (op1 (leaf1 b w s v y) t)).
Proof.
  intros V Y R S F n t W. apply (op1_ok (math_native b w) _ R) with (n := n); [|exact W]. apply leaf1_ok; auto.
  - intros xs B L. rewrite V by auto. rewrite lanes_pack by (rewrite ?map_length; auto). now apply forall2_map, F.
  - intros xs B L. rewrite Y by auto. rewrite ylanes_ypack by (rewrite ?map_length; auto; now apply fp_w). apply forall2_map, F. congruence.
Qed.
Lemma y_lift1 w (Hw : w = 4%nat \/ w = 8%nat) (f : word w -> word w) xs : length xs = (32 / w)%nat -> ymap1 (lift1 w f) (ypack xs) = ypack (map f xs).
Proof. intros L. apply (ymap1_pack (w := w)); [now apply fp_w|intros; now apply lift1_pack|exact L]. Qed.
Lemma sqrt_map b w n (t : sa (word w)) (R : word w -> word w -> Prop) : w = 4%nat \/ w = 8%nat -> (forall x, R x (fsqrt x)) -> wf (math_native b w) n t -> Forall2 R (to_list t) (to_list (a_sqrt b w t)).
Proof.
  intros Hw F W. unfold a_sqrt. eapply (leaf_map b w Hw s_sqrt fsqrt); [| |exact F|intros _; exact F|exact W].
  - intros xs _ L. unfold v_sqrt. now apply lift1_pack.
  - intros xs _ L. unfold y_sqrt, v_sqrt. now apply y_lift1.
Qed.
Definition rcp_of (h : approx) (w : nat) : word w -> word w := match w with 4%nat => rcp h | _ => s_reciprocal end.
Definition rsq_of (h : approx) (w : nat) : word w -> word w := match w with 4%nat => rsq h | _ => s_rsqrt end.
Lemma one_left (f : word 8 -> word 8 -> word 8) (xs : list (word 8)) k n : length xs = n -> map2 f (repeat k n) xs = map (f k) xs.
Proof. intros <-. induction xs as [|x xs IH]; cbn; [reflexivity|]. now rewrite IH. Qed.
Lemma rcp_map h b w n (t : sa (word w)) (R : word w -> word w -> Prop) : w = 4%nat \/ w = 8%nat -> (forall x, R x (s_reciprocal x)) -> (b <> MScalar -> forall x, R x (rcp_of h w x)) ->
  wf (math_native b w) n t -> Forall2 R (to_list t) (to_list (a_reciprocal h b w t)).
Proof.
  intros Hw S F W. unfold a_reciprocal. eapply (leaf_map b w Hw s_reciprocal (rcp_of h w)); [| |exact S|exact F|exact W].
  - intros xs _ L. destruct Hw as [->| ->]; cbn [v_reciprocal rcp_of]; [now apply lift1_pack|]. unfold one_pd. rewrite lift2_pack by (rewrite ?repeat_length; auto). f_equal. now apply one_left.
  - intros xs _ L. destruct Hw as [->| ->]; cbn [y_reciprocal rcp_of]; [apply y_lift1; auto|]. unfold yone_pd. rewrite (ymap2_pack (w := 8) (fp_w 8 (or_intror eq_refl)) (lift2 8 fdiv) fdiv) by (rewrite ?repeat_length; auto; intros; now apply lift2_pack). f_equal. now apply one_left.
Qed.
Lemma rsq_map h b w n (t : sa (word w)) (R : word w -> word w -> Prop) : w = 4%nat \/ w = 8%nat -> (forall x, R x (s_rsqrt x)) -> (b <> MScalar -> forall x, R x (rsq_of h w x)) ->
  wf (math_native b w) n t -> Forall2 R (to_list t) (to_list (a_rsqrt h b w t)).
Proof.
  intros Hw S F W. unfold a_rsqrt. eapply (leaf_map b w Hw s_rsqrt (rsq_of h w)); [| |exact S|exact F|exact W].
  - intros xs _ L. destruct Hw as [->| ->]; cbn [v_rsqrt rsq_of]; [now apply lift1_pack|]. unfold one_pd, v_sqrt. rewrite lift1_pack by auto. rewrite lift2_pack by (rewrite ?repeat_length, ?map_length; auto). f_equal. rewrite one_left by (now rewrite map_length). rewrite map_map. reflexivity.
  - intros xs _ L. destruct Hw as [->| ->]; cbn [y_rsqrt rsq_of]; [apply y_lift1; auto|]. unfold yone_pd, y_sqrt, v_sqrt. rewrite y_lift1 by auto. rewrite (ymap2_pack (w := 8) (fp_w 8 (or_intror eq_refl)) (lift2 8 fdiv) fdiv) by (rewrite ?repeat_length, ?map_length; auto; intros; now apply lift2_pack).
    f_equal. rewrite one_left by (now rewrite map_length). rewrite map_map. reflexivity.
Qed.
Lemma uu4 : uu (w := 4) = / 2 ^ 24.
Proof. unfold uu. change (mant_bits 4 + 1)%Z with 24%Z. f_equal. rewrite pow_IZR. reflexivity. Qed.
Lemma uu8 : uu (w := 8) = / 2 ^ 53.
Proof. unfold uu. change (mant_bits 8 + 1)%Z with 53%Z. f_equal. rewrite pow_IZR. reflexivity. Qed.
Lemma recip4 (x : word 4) : reciprocal_of (2 ^ 125) (fun y r => relative y r approx_error) x (s_reciprocal x).
Proof.
  destruct (s_reciprocal_ok fp4 0 x) as (A1 & A2 & A3 & _). split; [exact A1|]. split; [exact A2|]. split; [exact A3|]. intros F T H. apply (relative_weaken _ _ (uu (w := 4))); [rewrite uu4; unfold approx_error; lra|].
  apply (recip_rel fp4 x F). unfold not_tiny in T. rewrite (smallest fp4), <- (fabs_abs fp4) in T. split; [exact T|]. rewrite (real_abs fp4) in H. pose proof (IUpos fp4) as IU. apply le_IZR.
  apply (Rmult_le_compat_r (IZR (one_units 4))) in H; [|lra]. unfold Rdiv in H. rewrite Rmult_assoc, Rinv_l, Rmult_1_r in H by lra. eapply Rle_trans; [exact H|]. rewrite pow_IZR, <- mult_IZR. apply IZR_le. vm_compute. discriminate.
Qed.
Lemma rsqrt4 (x : word 4) : rsqrt_of (fun y r => relative y r approx_error) x (s_rsqrt x).
Proof.
  destruct (s_rsqrt_ok fp4 x) as ((A1 & A2 & A3 & A4 & A5) & _). repeat (split; [assumption|]). intros F T S. apply (relative_weaken _ _ (4 * uu (w := 4))); [rewrite uu4; unfold approx_error; lra|]. auto.
Qed.
(** a processor: the correctly rounded result, and infinity for tiny arguments *)
Definition exact_approx : approx :=
  {| rcp := fun x => if (Z.abs (fvalue x) <? fvalue (smallest_normal 4))%Z then with_sign 4 (negative x) (inf_magnitude 4) else s_reciprocal x;
     rsq := fun x => if (Z.abs (fvalue x) <? fvalue (smallest_normal 4))%Z then with_sign 4 (negative x) (inf_magnitude 4) else s_rsqrt x |}.
Lemma tiny_class (x : word 4) : (Z.abs (fvalue x) < fvalue (smallest_normal 4))%Z -> is_NaN x = false /\ is_Inf x = false.
Proof.
  intros H. rewrite <- (fabs_abs fp4), (fabs_mval fp4) in H. assert (M : (magnitude x < inf_magnitude 4)%Z).
  { destruct (Z.lt_ge_cases (magnitude x) (inf_magnitude 4)) as [|G]; [assumption|]. apply (mval_le _ (mant_pos fp4)) in G; [|vm_compute; discriminate]. exfalso. apply (Z.lt_irrefl (2 ^ 23)). eapply Z.le_lt_trans; [|exact H]. eapply Z.le_trans; [|exact G]. vm_compute. discriminate. }
  rewrite (nan_ok fp4), (inf_ok fp4). unfold is_nan, is_inf. split; [apply Z.ltb_ge; lia|apply Z.eqb_neq; lia].
Qed.
Lemma exact_rcp x : rcp_manual x (rcp exact_approx x).
Proof.
  unfold exact_approx, rcp_manual. cbn [rcp]. destruct (Z.ltb_spec (Z.abs (fvalue x)) (fvalue (smallest_normal 4))) as [H|H].
  - destruct (tiny_class x H) as (N & I). assert (G : signed_inf x (with_sign 4 (negative x) (inf_magnitude 4))) by (unfold signed_inf; rewrite (sign_bit_neg fp4 x); apply (inf_with_sign fp4)).
    split; [|intros _; exact G]. split; [congruence|]. split; [congruence|]. split; [intros _; exact G|]. intros _ T. unfold not_tiny in T. lia.
  - split; [apply recip4|]. unfold tiny. lia.
Qed.
Lemma exact_rsq x : rsqrt_manual x (rsq exact_approx x).
Proof.
  unfold exact_approx, rsqrt_manual. cbn [rsq]. destruct (Z.ltb_spec (Z.abs (fvalue x)) (fvalue (smallest_normal 4))) as [H|H].
  - destruct (tiny_class x H) as (N & I). assert (G : signed_inf x (with_sign 4 (negative x) (inf_magnitude 4))) by (unfold signed_inf; rewrite (sign_bit_neg fp4 x); apply (inf_with_sign fp4)).
    split; [|intros _; exact G]. split; [congruence|]. split; [intros _ T; unfold not_tiny in T; lia|]. split; [congruence|]. split; [intros _; exact G|]. intros _ T. unfold not_tiny in T. lia.
  - split; [apply rsqrt4|]. unfold tiny. lia.
Qed.

Lemma C84_sqrt_main :
  forall b w n (t : sa (word w)), w = 4%nat \/ w = 8%nat -> wf (math_native b w) n t ->
    Forall2 sqrt_of (to_list t) (to_list (a_sqrt b w t)).
Proof.
  intros b w n t Hw W. apply (sqrt_map b w n t sqrt_of Hw); [|exact W]. intros x. now apply fsqrt_ok.
Qed.

Lemma C84_sqrt_builds_agree_main :
  forall b b' w n n' (t t' : sa (word w)) i j, w = 4%nat \/ w = 8%nat -> wf (math_native b w) n t -> wf (math_native b' w) n' t' ->
    (i < n)%nat -> (j < n')%nat -> nth i (to_list t) (w0 w) = nth j (to_list t') (w0 w) ->
    nth i (to_list (a_sqrt b w t)) (w0 w) = nth j (to_list (a_sqrt b' w t')) (w0 w).
Proof.
  intros b b' w n n' t t' i j Hw W W' I J E. assert (G : forall b n (t : sa (word w)), wf (math_native b w) n t -> to_list (a_sqrt b w t) = map fsqrt (to_list t)).
  { intros c m u Wu. pose proof (sqrt_map c w m u (fun x y => y = fsqrt x) Hw (fun x => eq_refl) Wu) as F. induction F as [|x y xs ys Q F IH]; cbn; [reflexivity|]. now rewrite Q, IH. }
  rewrite (G b n t W), (G b' n' t' W'). assert (Z : w0 w = fsqrt (w0 w)) by (destruct Hw as [->| ->]; reflexivity). rewrite Z at 1 2. rewrite !map_nth. now rewrite E.
Qed.

Lemma C84_reciprocal_float_main :
  forall h b n (t : sa (word 4)), (forall x, rcp_manual x (rcp h x)) -> wf (math_native b 4) n t ->
    Forall2 (reciprocal_of (2 ^ 125) (fun y r => relative y r approx_error)) (to_list t) (to_list (a_reciprocal h b 4 t)).
Proof.
  intros h b n t H W. apply (rcp_map h b 4 n t _ (or_introl eq_refl)); [apply recip4|intros _ x; apply H|exact W].
Qed.

Lemma C84_reciprocal_exact_main :
  forall h b w n (t : sa (word w)) hi, w = 8%nat \/ w = 4%nat /\ b = MScalar -> wf (math_native b w) n t ->
    Forall2 (reciprocal_of hi nearest_real) (to_list t) (to_list (a_reciprocal h b w t)).
Proof.
  intros h b w n t hi Hw W. assert (F : w = 4%nat \/ w = 8%nat) by tauto. apply (rcp_map h b w n t _ F); [intros x; now apply s_reciprocal_ok|intros B x|exact W].
  destruct Hw as [->|(_ & ->)]; [|contradiction]. cbn [rcp_of]. apply (s_reciprocal_ok fp8).
Qed.

Lemma C84_rsqrt_float_main :
  forall h b n (t : sa (word 4)), (forall x, rsqrt_manual x (rsq h x)) -> wf (math_native b 4) n t ->
    Forall2 (rsqrt_of (fun y r => relative y r approx_error)) (to_list t) (to_list (a_rsqrt h b 4 t)).
Proof.
  intros h b n t H W. apply (rsq_map h b 4 n t _ (or_introl eq_refl)); [apply rsqrt4|intros _ x; apply H|exact W].
Qed.

Lemma C84_rsqrt_exact_main :
  forall h b w n (t : sa (word w)), w = 8%nat \/ w = 4%nat /\ b = MScalar -> wf (math_native b w) n t ->
    Forall2 (fun x y => rsqrt_of (fun y r => relative y r (if (w =? 8)%nat then / 2 ^ 51 else / 2 ^ 22)) x y /\ (is_NaN x = false -> (fvalue x < 0)%Z -> is_NaN y = true))
      (to_list t) (to_list (a_rsqrt h b w t)).
Proof.
  intros h b w n t Hw W. assert (F : w = 4%nat \/ w = 8%nat) by tauto.
  assert (S : forall x : word w, rsqrt_of (fun y r => relative y r (if (w =? 8)%nat then / 2 ^ 51 else / 2 ^ 22)) x (s_rsqrt x) /\ (is_NaN x = false -> (fvalue x < 0)%Z -> is_NaN (s_rsqrt x) = true)).
  { intros x. destruct (s_rsqrt_ok F x) as ((A1 & A2 & A3 & A4 & A5) & A6). split; [|exact A6]. repeat (split; [assumption|]). intros G T S. apply (relative_weaken _ _ (4 * uu (w := w))); [|auto].
    destruct F as [->| ->]; cbn [Nat.eqb]; [rewrite uu4|rewrite uu8]; lra. }
  apply (rsq_map h b w n t _ F); [exact S|intros B x|exact W]. destruct Hw as [->|(_ & ->)]; [|contradiction]. exact (S x).
Qed.

Lemma C84_position_refuted_main :
  exists t : sa (word 4), wf (math_native (MSse true) 4) 5 t /\ (exists x, to_list t = repeat x 5 /\ real x = / 2 ^ 127) /\
    forall h, (forall x, rcp_manual x (rcp h x)) ->
      is_Inf (nth 0 (to_list (a_reciprocal h (MSse true) 4 t)) (w0 4)) = true /\
      is_Finite (nth 4 (to_list (a_reciprocal h (MSse true) 4 t)) (w0 4)) = true /\ real (nth 4 (to_list (a_reciprocal h (MSse true) 4 t)) (w0 4)) = 2 ^ 127.
Proof.
  set (x := mkw 4 0x00400000). exists (@generate (word 4) (math_native (MSse true) 4) 5 (fun _ => x)). split; [apply generated; [auto|lia]|].
  assert (GE : forall z : word 4, @generate (word 4) (math_native (MSse true) 4) 5 (fun _ => z) = Node (Leaf [z; z; z; z]) (Leaf [z])) by (intros z; reflexivity). split.
  - exists x. split; [rewrite GE; reflexivity|]. rewrite (real_frac fp4 x 1 (2 ^ 127)); [|vm_compute; reflexivity..]. replace (2 ^ 127)%R with (IZR (2 ^ 127)) by (rewrite pow_IZR; reflexivity). unfold Rdiv. apply Rmult_1_l.
  - intros h H. assert (E : exists b c d, to_list (a_reciprocal h (MSse true) 4 (@generate (word 4) (math_native (MSse true) 4) 5 (fun _ => x))) = [rcp h x; b; c; d; s_reciprocal x]).
    { rewrite GE. unfold a_reciprocal. cbn [op1 to_list]. unfold leaf1. cbn [length Nat.eqb Nat.div]. change (4 =? 16 / 4)%nat with true. cbv iota.
      cbn [v_reciprocal]. rewrite lift1_pack, lanes_pack by reflexivity. cbn [map app]. do 3 eexists. reflexivity. }
    destruct E as (b & c & d & ->). cbn [nth]. split; [apply (proj2 (H x)); vm_compute; reflexivity|]. split; [vm_compute; reflexivity|]. rewrite (real_frac fp4 (s_reciprocal x) (2 ^ 127) 1); [|vm_compute; reflexivity..]. replace (2 ^ 127)%R with (IZR (2 ^ 127)) by (rewrite pow_IZR; reflexivity). field.
Qed.
