(** Reductions of float and double vectors. *)
From Coq Require Import ZArith List Bool Lia.
From Verif.Spec Require Import VectorSpec Seq NativeSpec MaskSpec FloatSpec.
From Verif.Model Require Import Word Fp SseReg SseMove SortNet SseInt SseBuild SseArith SseMask.
From Verif.Proof Require Import SeqP WordP FpP SseMoveP SortNetP SseIntP SseEmulP SseMaskP SseBuildP SseArithP.
Import ListNotations.
Local Open Scope Z_scope.

Lemma hps_pack op (a b c d : word 4) : h_reduce_ps op (pack [a; b; c; d]) = op (op a c) (op b d).
Proof.
  unfold h_reduce_ps. change (movehl_ps 8 (pack [a; b; c; d]) (pack [a; b; c; d])) with (pack [c; d; c; d]).
  rewrite lift2_pack by reflexivity. cbn [map2].
  change (shuffle_ps 8 (pack [op a c; op b d; op c c; op d d]) (pack [op a c; op b d; op c c; op d d]) (mm_shuffle 1 1 1 1))
    with (pack [op b d; op b d; op b d; op b d]).
  unfold mm_op_ss. rewrite !lanes_pack by reflexivity. cbn [low_sd firstn skipn map2 app].
  match goal with |- first_lane _ (pack ?l) = _ => exact (first_pack Float l eq_refl) end.
Qed.
Lemma hpd_pack op (a b : word 8) : h_reduce_pd op (pack [a; b]) = op a b.
Proof.
  unfold h_reduce_pd. change (unpackhi 8 8 (pack [a; b]) (pack [a; b])) with (pack [b; b]).
  unfold mm_op_ss. rewrite !lanes_pack by reflexivity. cbn [low_sd firstn skipn map2 app].
  match goal with |- first_lane _ (pack ?l) = _ => exact (first_pack Double l eq_refl) end.
Qed.
Lemma haps_pack op (a b c d : word 4) : h_add_ps op (pack [a; b; c; d]) = op (op a d) (op b c).
Proof.
  unfold h_add_ps.
  change (shuffle_ps 8 (pack [a; b; c; d]) (pack [a; b; c; d]) (mm_shuffle 0 1 2 3)) with (pack [d; c; b; a]).
  rewrite lift2_pack by reflexivity. cbn [map2].
  match goal with |- context [mm_op_ss 4 op (pack [?x; ?y; ?z; ?t]) _] => change (shuffle_ps 8 (pack [x; y; z; t]) (pack [x; y; z; t]) (mm_shuffle 3 2 0 1)) with (pack [y; x; z; t]) end.
  unfold mm_op_ss. rewrite !lanes_pack by reflexivity. cbn [low_sd firstn skipn map2 app].
  match goal with |- first_lane _ (pack ?l) = _ => exact (first_pack Float l eq_refl) end.
Qed.
Lemma hapd_pack op (a b : word 8) : h_add_pd op (pack [a; b]) = op a b.
Proof.
  unfold h_add_pd. change (shuffle_pd 8 (pack [a; b]) (pack [a; b]) 1) with (pack [b; a]).
  unfold mm_op_ss. rewrite !lanes_pack by reflexivity. cbn [low_sd firstn skipn map2 app].
  match goal with |- first_lane _ (pack ?l) = _ => exact (first_pack Double l eq_refl) end.
Qed.

Section Ext.
  Context {w : nat}.
  Definition nn (x : word w) : Prop := is_nan x = false.
  Lemma fle_iff (a b : word w) : nn a -> nn b -> (fle a b = true <-> fkey a <= fkey b).
  Proof. unfold nn, fle. intros -> ->. cbn. apply Z.leb_le. Qed.
  Lemma flt_iff (a b : word w) : nn a -> nn b -> (flt a b = true <-> fkey a < fkey b).
  Proof. unfold nn, flt. intros -> ->. cbn. apply Z.ltb_lt. Qed.
  Definition lst (xs : list (word w)) r := In r xs /\ (forall x, In x xs -> nn x /\ fkey r <= fkey x).
  Definition grt (xs : list (word w)) r := In r xs /\ (forall x, In x xs -> nn x /\ fkey x <= fkey r).
  Lemma lst1 x : nn x -> lst [x] x.
  Proof. intros H. split; [now left|]. intros y [<-|[]]. split; auto; lia. Qed.
  Lemma grt1 x : nn x -> grt [x] x.
  Proof. intros H. split; [now left|]. intros y [<-|[]]. split; auto; lia. Qed.
  Lemma lst2 xs ys a b : lst xs a -> lst ys b -> lst (xs ++ ys) (mm_fmin a b).
  Proof.
    intros [Ia Ha] [Ib Hb]. destruct (Ha a Ia) as [Na _], (Hb b Ib) as [Nb _]. unfold mm_fmin.
    destruct (flt a b) eqn:E.
    - apply flt_iff in E; auto. split; [apply in_or_app; now left|]. intros x Hx. apply in_app_or in Hx. destruct Hx as [Hx|Hx]; [apply Ha, Hx|].
      destruct (Hb x Hx). split; auto. lia.
    - assert (L : ~ fkey a < fkey b) by (rewrite <- flt_iff by auto; congruence).
      split; [apply in_or_app; now right|]. intros x Hx. apply in_app_or in Hx. destruct Hx as [Hx|Hx]; [|apply Hb, Hx].
      destruct (Ha x Hx). split; auto. lia.
  Qed.
  Lemma grt2 xs ys a b : grt xs a -> grt ys b -> grt (xs ++ ys) (mm_fmax a b).
  Proof.
    intros [Ia Ha] [Ib Hb]. destruct (Ha a Ia) as [Na _], (Hb b Ib) as [Nb _]. unfold mm_fmax.
    destruct (flt b a) eqn:E.
    - apply flt_iff in E; auto. split; [apply in_or_app; now left|]. intros x Hx. apply in_app_or in Hx. destruct Hx as [Hx|Hx]; [apply Ha, Hx|].
      destruct (Hb x Hx). split; auto. lia.
    - assert (L : ~ fkey b < fkey a) by (rewrite <- flt_iff by auto; congruence).
      split; [apply in_or_app; now right|]. intros x Hx. apply in_app_or in Hx. destruct Hx as [Hx|Hx]; [|apply Hb, Hx].
      destruct (Ha x Hx). split; auto. lia.
  Qed.
  Lemma lst_perm xs ys r : (forall x, In x xs <-> In x ys) -> lst xs r -> lst ys r.
  Proof. intros P [H1 H2]. split; [now apply P|]. intros x Hx. apply H2. now apply P. Qed.
  Lemma grt_perm xs ys r : (forall x, In x xs <-> In x ys) -> grt xs r -> grt ys r.
  Proof. intros P [H1 H2]. split; [now apply P|]. intros x Hx. apply H2. now apply P. Qed.
End Ext.

Lemma fmin_lst e (xs : list (elt e)) sse41 : is_integer e = false -> length xs = (16 / esize e)%nat ->
  (forall x, In x xs -> nn x) -> lst xs (v_min_all sse41 e (pack xs)).
Proof.
  intros He L N. destruct e; try discriminate He; unfold elt in *; cbn [esize] in *.
  - explode_to 4%nat xs L. unfold v_min_all. rewrite hps_pack.
    apply lst_perm with (([x] ++ [x1]) ++ ([x0] ++ [x2])); [cbn; tauto|].
    repeat apply lst2; apply lst1, N; cbn; auto.
  - explode_to 2%nat xs L. unfold v_min_all. rewrite hpd_pack.
    apply lst_perm with ([x] ++ [x0]); [cbn; tauto|]. apply lst2; apply lst1, N; cbn; auto.
Qed.
Lemma fmax_grt e (xs : list (elt e)) sse41 : is_integer e = false -> length xs = (16 / esize e)%nat ->
  (forall x, In x xs -> nn x) -> grt xs (v_max_all sse41 e (pack xs)).
Proof.
  intros He L N. destruct e; try discriminate He; unfold elt in *; cbn [esize] in *.
  - explode_to 4%nat xs L. unfold v_max_all. rewrite hps_pack.
    apply grt_perm with (([x] ++ [x1]) ++ ([x0] ++ [x2])); [cbn; tauto|].
    repeat apply grt2; apply grt1, N; cbn; auto.
  - explode_to 2%nat xs L. unfold v_max_all. rewrite hpd_pack.
    apply grt_perm with ([x] ++ [x0]); [cbn; tauto|]. apply grt2; apply grt1, N; cbn; auto.
Qed.
Lemma nan_elt e : is_integer e = false -> forall x : elt e, is_NaN x = is_nan x.
Proof. intros He x. apply nan_ok, float_fp, He. Qed.
Lemma lst_least e (xs : list (elt e)) r : is_integer e = false -> lst xs r -> least float_le xs r.
Proof.
  intros He [I H]. split; auto. intros x Hx. rewrite <- fle_ok by (now apply float_fp). destruct (H r I), (H x Hx). now apply fle_iff.
Qed.
Lemma grt_greatest e (xs : list (elt e)) r : is_integer e = false -> grt xs r -> greatest float_le xs r.
Proof.
  intros He [I H]. split; auto. intros x Hx. rewrite <- fle_ok by (now apply float_fp). destruct (H r I), (H x Hx). now apply fle_iff.
Qed.
Lemma fmin_least sse41 e (xs : list (elt e)) : is_integer e = false -> length xs = (16 / esize e)%nat ->
  (forall x, In x xs -> is_NaN x = false) -> least float_le xs (v_min_all sse41 e (pack xs)).
Proof. intros He L N. apply lst_least; auto. apply fmin_lst; auto. intros x Hx. unfold nn. rewrite <- nan_elt; auto. Qed.
Lemma fmax_greatest sse41 e (xs : list (elt e)) : is_integer e = false -> length xs = (16 / esize e)%nat ->
  (forall x, In x xs -> is_NaN x = false) -> greatest float_le xs (v_max_all sse41 e (pack xs)).
Proof. intros He L N. apply grt_greatest; auto. apply fmax_grt; auto. intros x Hx. unfold nn. rewrite <- nan_elt; auto. Qed.

(** masked *)
Definition float_max e : elt e := largest_finite (esize e).
Definition float_min e : elt e := smallest_normal (esize e).
Lemma in_update {A} : forall m (xs : list A) p n x, length m = length xs -> n = length xs -> In x (masked_update_spec m xs (repeat p n)) -> In x (select_spec m xs) \/ x = p.
Proof.
  unfold masked_update_spec. induction m as [|b m IH]; intros [|y xs] p n x L ->; cbn; try discriminate; auto.
  cbn in L. intros [H|H].
  - destruct b; cbn; auto.
  - destruct (IH xs p _ x ltac:(lia) eq_refl H); auto. left. apply in_or_app. auto.
Qed.
Lemma in_select {A} : forall m (xs : list A) p n x, length m = length xs -> n = length xs -> In x (select_spec m xs) -> In x (masked_update_spec m xs (repeat p n)).
Proof.
  unfold masked_update_spec. induction m as [|b m IH]; intros [|y xs] p n x L ->; cbn; try discriminate; auto.
  cbn in L. intros H. apply in_app_or in H. destruct H as [H|H]; [destruct b; [destruct H as [<-|[]]; auto|destruct H]|]. right. apply IH; auto.
Qed.
Lemma in_pad {A} : forall m (xs : list A) p n, length m = length xs -> n = length xs -> In false m -> In p (masked_update_spec m xs (repeat p n)).
Proof.
  unfold masked_update_spec. induction m as [|b m IH]; intros [|y xs] p n L ->; cbn; try discriminate; auto.
  intros [->|H]; auto.
Qed.
Lemma fkey_inj w (x y : word w) : fp_width w -> fkey x = fkey y -> fkey y <> 0 -> x = y.
Proof.
  intros Hw E N. apply word_ext. unfold fkey in *. destruct (fields Hw x) as [_ [_ Rx]], (fields Hw y) as [_ [_ Ry]].
  unfold magnitude, negative in *. pose proof (uval_range x) as Ux. pose proof (uval_range y) as Uy. rewrite (mod_sign Hw) in *.
  set (s := sign_weight w) in *.
  assert (D : forall z, 0 <= z < 2 * s -> z mod s = if s <=? z then z - s else z).
  { intros z Hz. destruct (Z.leb_spec s z). - symmetry. apply Z.mod_unique with 1; lia. - apply Z.mod_small. lia. }
  rewrite !D in * by auto. destruct (Z.leb_spec s (uval x)), (Z.leb_spec s (uval y)); lia.
Qed.
Lemma fmax_nn e : is_integer e = false -> nn (float_max e) /\ 0 < fkey (float_max e).
Proof. destruct e; intros H; try discriminate H; vm_compute; auto. Qed.
Lemma fmin_nn e : is_integer e = false -> nn (float_min e) /\ 0 < fkey (float_min e).
Proof. destruct e; intros H; try discriminate H; vm_compute; auto. Qed.
Lemma flimit_max e : is_integer e = false -> v_limit_max e = pack (repeat (float_max e) (16 / esize e)).
Proof. destruct e; intros H; try discriminate H; reflexivity. Qed.
Lemma flimit_min e : is_integer e = false -> v_limit_min e = pack (repeat (float_min e) (16 / esize e)).
Proof. destruct e; intros H; try discriminate H; reflexivity. Qed.

Section FM.
  Variables (sse41 : bool) (e : etype) (m : list bool) (xs : list (elt e)).
  Hypothesis He : is_integer e = false.
  Hypothesis L : length xs = (16 / esize e)%nat.
  Hypothesis Lm : length m = length xs.
  Hypothesis N : forall x, In x (select_spec m xs) -> is_NaN x = false.
  Lemma pad_lst p : nn p -> let l := masked_update_spec m xs (repeat p (length xs)) in length l = (16 / esize e)%nat /\ (forall x, In x l -> nn x).
  Proof.
    intros Np l. split; [apply upd_len; auto|]. intros x Hx. apply in_update in Hx; auto. destruct Hx as [Hx| ->]; auto.
    unfold nn. rewrite <- nan_elt by auto. now apply N.
  Qed.
  Lemma fle_elt (a b : elt e) : float_le a b = fle a b.
  Proof. symmetry. apply fle_ok, float_fp, He. Qed.
  Lemma nn_sel x : In x (select_spec m xs) -> nn x.
  Proof. intros H. unfold nn. rewrite <- nan_elt; auto. Qed.
  Lemma fmin_masked_ok : select_spec m xs <> [] -> (forall x, In x (select_spec m xs) -> float_le x (float_max e) = true) ->
    least float_le (select_spec m xs) (v_min_masked sse41 e (pack xs) (mask_reg (esize e) m)).
  Proof.
    intros NE HM. destruct (fmax_nn e He) as [Np Kp]. destruct (pad_lst _ Np) as [L' N'].
    unfold v_min_masked. rewrite flimit_max, assign_pad by auto.
    destruct (fmin_lst e _ sse41 He L' N') as [I H].
    apply lst_least; auto. split; [|intros x Hx; apply H, in_select; auto].
    apply in_update in I; auto. destruct I as [I|I]; auto. rewrite I in *.
    destruct (select_spec m xs) as [|s l] eqn:S; [easy|]. assert (Is : In s (select_spec m xs)) by (rewrite S; now left).
    destruct (H s) as [Ns Ks]; [apply in_select; auto|].
    specialize (HM s (or_introl eq_refl)). rewrite fle_elt, fle_iff in HM by auto.
    rewrite (fkey_inj _ s (float_max e)) by (try apply float_fp; auto; lia). now left.
  Qed.
  Lemma fmax_masked_ok : (exists x, In x (select_spec m xs) /\ float_le (float_min e) x = true) ->
    greatest float_le (select_spec m xs) (v_max_masked sse41 e (pack xs) (mask_reg (esize e) m)).
  Proof.
    intros [s [Is Hs]]. destruct (fmin_nn e He) as [Np Kp]. destruct (pad_lst _ Np) as [L' N'].
    unfold v_max_masked. rewrite flimit_min, assign_pad by auto.
    destruct (fmax_grt e _ sse41 He L' N') as [I H].
    apply grt_greatest; auto. split; [|intros x Hx; apply H, in_select; auto].
    apply in_update in I; auto. destruct I as [I|I]; auto. rewrite I in *.
    destruct (H s) as [Ns Ks]; [apply in_select; auto|].
    rewrite fle_elt, fle_iff in Hs by auto.
    rewrite <- (fkey_inj _ s (float_min e)); auto. apply float_fp; auto. lia. lia.
  Qed.
  Lemma fmax_masked_wrong : In false m -> (forall x, In x (select_spec m xs) -> float_lt x (float_min e) = true) ->
    v_max_masked sse41 e (pack xs) (mask_reg (esize e) m) = float_min e.
  Proof.
    intros F H0. destruct (fmin_nn e He) as [Np Kp]. destruct (pad_lst _ Np) as [L' N'].
    unfold v_max_masked. rewrite flimit_min, assign_pad by auto.
    destruct (fmax_grt e _ sse41 He L' N') as [I H].
    apply in_update in I; auto. destruct I as [I|I]; auto. exfalso.
    destruct (H (float_min e)) as [_ K]; [apply in_pad; auto|]. specialize (H0 _ I). rewrite <- flt_ok in H0 by (now apply float_fp).
    apply flt_iff in H0; auto; [lia|]. now apply nn_sel.
  Qed.
  Lemma fmin_masked_wrong : In false m -> (forall x, In x (select_spec m xs) -> float_lt (float_max e) x = true) ->
    v_min_masked sse41 e (pack xs) (mask_reg (esize e) m) = float_max e.
  Proof.
    intros F H0. destruct (fmax_nn e He) as [Np Kp]. destruct (pad_lst _ Np) as [L' N'].
    unfold v_min_masked. rewrite flimit_max, assign_pad by auto.
    destruct (fmin_lst e _ sse41 He L' N') as [I H].
    apply in_update in I; auto. destruct I as [I|I]; auto. exfalso.
    destruct (H (float_max e)) as [_ K]; [apply in_pad; auto|]. specialize (H0 _ I). rewrite <- flt_ok in H0 by (now apply float_fp).
    apply flt_iff in H0; auto; [lia|]. now apply nn_sel.
  Qed.
End FM.

(** negation *)
Lemma wxor_sign w (x : word w) : fp_width w -> uval (wxor x (mkw w (sign_weight w))) = if negative x then uval x - sign_weight w else uval x + sign_weight w.
Proof.
  intros Hw. unfold wxor. pose proof (uval_range x) as R. pose proof (mod_sign Hw) as M. 
  assert (S : 0 < sign_weight w) by (apply pow_pos2; destruct Hw as [->| ->]; vm_compute; congruence).
  assert (B : 0 <= bits w - 1) by (destruct Hw as [->| ->]; vm_compute; congruence).
  rewrite (mkw_small w (sign_weight w)) by lia. rewrite uval_mkw.
  unfold negative. set (s := sign_weight w) in *.
  assert (D : uval x = uval x mod s + s * (uval x / s)) by (pose proof (Z.div_mod (uval x) s ltac:(lia)); lia).
  pose proof (Z.mod_pos_bound (uval x) s S) as P.
  assert (LX : forall y, 0 <= y < s -> Z.lxor y s = y + s).
  { intros y Hy. rewrite Z.add_nocarry_lxor; auto. apply Z.bits_inj'. intros n Hn. rewrite Z.land_spec, Z.bits_0. unfold s, sign_weight.
    rewrite Z.pow2_bits_eqb by lia. destruct (Z.eqb_spec (bits w - 1) n) as [<-|]; [|apply andb_false_r].
    rewrite andb_true_r. unfold s, sign_weight in Hy. destruct (Z.eq_dec y 0) as [->|]; [apply Z.bits_0|]. apply Z.bits_above_log2; [lia|]. apply Z.log2_lt_pow2; lia. }
  destruct (Z.leb_spec s (uval x)).
  - assert (E : Z.lxor (uval x) s = Z.lxor (Z.lxor (uval x - s) s) s) by (rewrite (LX (uval x - s)) by lia; f_equal; lia).
    rewrite E. rewrite Z.lxor_assoc, Z.lxor_nilpotent, Z.lxor_0_r. apply Z.mod_small. lia.
  - rewrite LX by lia. apply Z.mod_small. lia.
Qed.
Lemma neg_float_value w (x : word w) : fp_width w -> let y := wxor x (mkw w (sign_weight w)) in
  fvalue y = - fvalue x /\ sign_bit y = negb (sign_bit x) /\ is_NaN y = is_NaN x.
Proof.
  intros Hw y.
  assert (S : 0 < sign_weight w) by (apply pow_pos2; destruct Hw as [->| ->]; vm_compute; congruence).
  pose proof (wxor_sign w x Hw) as U. fold y in U. pose proof (uval_range x) as R. pose proof (mod_sign Hw) as M. rewrite M in R.
  assert (Mg : magnitude y = magnitude x).
  { unfold magnitude. rewrite U. unfold negative. destruct (Z.leb_spec (sign_weight w) (uval x)).
    - replace (uval x - sign_weight w) with (uval x + (-1) * sign_weight w) by lia. now rewrite Z.mod_add by lia.
    - replace (uval x + sign_weight w) with (uval x + 1 * sign_weight w) by lia. now rewrite Z.mod_add by lia. }
  assert (Ng : negative y = negb (negative x)).
  { unfold negative in *. rewrite U. destruct (Z.leb_spec (sign_weight w) (uval x)); cbn; [apply Z.leb_gt|apply Z.leb_le]; lia. }
  repeat split.
  - unfold fvalue. rewrite !(sign_bit_neg Hw), !(fabs_mval Hw), Mg, Ng. destruct (negative x); cbn; lia.
  - now rewrite !(sign_bit_neg Hw).
  - rewrite !(nan_ok Hw). unfold is_nan. now rewrite Mg.
Qed.
