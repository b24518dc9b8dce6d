(** Programs in every build: lemmas. *)
From Coq Require Import ZArith List Bool Lia Permutation.
From Verif.Spec Require Import Seq CastSpec MaskSpec VectorSpec NativeSpec PortableSpec.
From Verif.Model Require Import SplitSize Word SseReg SseMove SortNet SseInt SseBuild SseArith SseMask SseNative SimdArray SimdArrayOps Mem
  AvxReg AvxMove AvxBuild AvxShuffle AvxMask AvxArith ScalarVec ScalarMath MaskedDiv Program Portable.
From Verif.Proof Require Import WordP SeqP DivP SimdArrayP SimdArrayOpsP SimdArrayMain ScalarVecP SseIntP SseArithP SseBuildP SseNativeP SseBuildMain SseVecMain AvxMaskP AvxArithP AvxBuildP AvxNativeP AvxBuildMain
  AvxVecMain MaskedDivP MaskedDivMain.
Import ListNotations.
Local Open Scope Z_scope.

Lemma ev e (a : elt e) : int_value e a = e_val e a.
Proof. now destruct e. Qed.
Lemma e_of_val e (a : elt e) : e_of e (e_val e a) = a.
Proof. apply mkw_val. Qed.
Lemma e_val_inj e (a b : elt e) : e_val e a = e_val e b -> a = b.
Proof. intros E. rewrite <- (e_of_val e a), <- (e_of_val e b). now rewrite E. Qed.
Lemma e_val_min e (a b : elt e) : e_of e (Z.min (e_val e a) (e_val e b)) = if e_val e a <=? e_val e b then a else b.
Proof. destruct (Z.leb_spec (e_val e a) (e_val e b)); [rewrite Z.min_l by lia|rewrite Z.min_r by lia]; apply e_of_val. Qed.
Lemma e_val_max e (a b : elt e) : e_of e (Z.max (e_val e a) (e_val e b)) = if e_val e a <=? e_val e b then b else a.
Proof. destruct (Z.leb_spec (e_val e a) (e_val e b)); [rewrite Z.max_r by lia|rewrite Z.max_l by lia]; apply e_of_val. Qed.
Lemma e_le_val e (a b : elt e) : is_integer e = true -> e_le e a b = (e_val e a <=? e_val e b).
Proof. now destruct e. Qed.
Lemma e_min_val e (a b : elt e) : is_integer e = true -> e_min e a b = e_of e (Z.min (e_val e a) (e_val e b)).
Proof. intros I. rewrite e_val_min. now destruct e. Qed.
Lemma e_max_val e (a b : elt e) : is_integer e = true -> e_max e a b = e_of e (Z.max (e_val e a) (e_val e b)).
Proof. intros I. rewrite e_val_max. now destruct e. Qed.

(** * all_defined *)
Lemma ad_app {A} : forall (xs ys : list (option A)) zs, all_defined (xs ++ ys) = Some zs -> exists u v, all_defined xs = Some u /\ all_defined ys = Some v /\ zs = u ++ v.
Proof.
  induction xs as [|x xs IH]; intros ys zs H; cbn in *.
  - exists [], zs. auto.
  - destruct x as [a|]; [|discriminate H]. destruct (all_defined (xs ++ ys)) as [l|] eqn:E; [|discriminate H]. injection H as <-.
    destruct (IH ys l E) as (u & v & -> & -> & ->). exists (a :: u), v. auto.
Qed.
Lemma ad_length {A} : forall (xs : list (option A)) zs, all_defined xs = Some zs -> length zs = length xs.
Proof.
  induction xs as [|x xs IH]; intros zs H; cbn in *; [now injection H as <-|]. destruct x; [|discriminate H]. destruct (all_defined xs); [|discriminate H]. injection H as <-. cbn. f_equal. now apply IH.
Qed.
Lemma ad_some {A B} (f : A -> B) : forall xs, all_defined (map (fun x => Some (f x)) xs) = Some (map f xs).
Proof. induction xs as [|x xs IH]; cbn; [reflexivity|]. now rewrite IH. Qed.
Lemma ad_some2 {A B C} (f : A -> B -> C) : forall xs ys, all_defined (map2 (fun x y => Some (f x y)) xs ys) = Some (map2 f xs ys).
Proof. induction xs as [|x xs IH]; intros [|y ys]; cbn; [reflexivity..|]. now rewrite IH. Qed.
Lemma ad_sequence {A B} (f g : A -> option B) : (forall a r, f a = Some r -> g a = Some r) -> forall xs zs, all_defined (map f xs) = Some zs -> sequence (map g xs) = Some zs.
Proof.
  intros H. induction xs as [|x xs IH]; intros zs D; cbn in *; [exact D|]. destruct (f x) as [a|] eqn:E; [|discriminate D]. destruct (all_defined (map f xs)) as [l|]; [|discriminate D]. injection D as <-.
  rewrite (H _ _ E), (IH l eq_refl). reflexivity.
Qed.
Lemma ad_map {A B} (f : A -> option B) (g : A -> B) : (forall a r, f a = Some r -> g a = r) -> forall xs zs, all_defined (map f xs) = Some zs -> map g xs = zs.
Proof.
  intros H. induction xs as [|x xs IH]; intros zs D; cbn in *; [congruence|]. destruct (f x) as [a|] eqn:E; [|discriminate D]. destruct (all_defined (map f xs)) as [l|]; [|discriminate D]. injection D as <-.
  rewrite (H _ _ E), (IH l eq_refl). reflexivity.
Qed.
Lemma ad_sequence2 {A B C} (f g : A -> B -> option C) : (forall a b r, f a b = Some r -> g a b = Some r) -> forall xs ys zs, all_defined (map2 f xs ys) = Some zs -> sequence (map2 g xs ys) = Some zs.
Proof.
  intros H. induction xs as [|x xs IH]; intros [|y ys] zs D; cbn in *; try exact D. destruct (f x y) as [a|] eqn:E; [|discriminate D]. destruct (all_defined (map2 f xs ys)) as [l|] eqn:L; [|discriminate D]. injection D as <-.
  rewrite (H _ _ _ E), (IH ys l L). reflexivity.
Qed.
Lemma ad_map2 {A B C} (f : A -> B -> option C) (g : A -> B -> C) : (forall a b r, f a b = Some r -> g a b = r) -> forall xs ys zs, all_defined (map2 f xs ys) = Some zs -> map2 g xs ys = zs.
Proof.
  intros H. induction xs as [|x xs IH]; intros [|y ys] zs D; cbn in *; try congruence. destruct (f x y) as [a|] eqn:E; [|discriminate D]. destruct (all_defined (map2 f xs ys)) as [l|] eqn:L; [|discriminate D]. injection D as <-.
  rewrite (H _ _ _ E), (IH ys l L). reflexivity.
Qed.
Lemma ad_forall2 {A B C} (f : A -> B -> option C) (P : A -> B -> Prop) : (forall a b r, f a b = Some r -> P a b) -> forall xs ys zs, length xs = length ys -> all_defined (map2 f xs ys) = Some zs -> Forall2 P xs ys.
Proof.
  intros H. induction xs as [|x xs IH]; intros [|y ys] zs L D; cbn in *; try discriminate L; [constructor|]. destruct (f x y) as [a|] eqn:E; [|discriminate D]. destruct (all_defined (map2 f xs ys)) as [l|] eqn:L'; [|discriminate D].
  constructor; [eapply H, E|]. eapply IH; [now injection L|exact L'].
Qed.
Lemma ad_rel {A B C} (f : A -> B -> option C) (R : A * B -> C -> Prop) : (forall a b r z, f a b = Some r -> R (a, b) z -> z = r) ->
  forall xs ys zs rs, all_defined (map2 f xs ys) = Some rs -> Forall2 R (combine xs ys) zs -> zs = rs.
Proof.
  intros H. induction xs as [|x xs IH]; intros [|y ys] zs rs D F; cbn in *; try (inversion F; congruence). destruct (f x y) as [a|] eqn:E; [|discriminate D]. destruct (all_defined (map2 f xs ys)) as [l|] eqn:L'; [|discriminate D].
  injection D as <-. inversion F as [|? z ? zs' R1 R2]; subst. f_equal; [now apply (H x y)|]. now apply (IH ys).
Qed.

(** * Trees *)
Section Tree.
  Context {A B C : Type} (native : nat -> bool) (Hw : widths_ok native).
  Lemma op2o_sim (f : list A -> list B -> option (list C)) (g : A -> B -> option C) :
    (forall xs ys zs, native (length xs) = true -> length ys = length xs -> all_defined (map2 g xs ys) = Some zs -> f xs ys = Some zs) ->
    forall n t u zs, wf native n t -> wf native n u -> all_defined (map2 g (to_list t) (to_list u)) = Some zs ->
    exists r, op2o f t u = Some r /\ wf native n r /\ to_list r = zs.
  Proof using Hw.
    intros F n t u zs W. revert u zs. induction W as [n xs N L|n l r N Wl IHl Wr IHr]; intros u zs Wu D; inversion Wu as [n' ys N' L'|n' l' r' N' Wl' Wr']; subst; try congruence; cbn [op2o to_list] in *.
    - rewrite (F xs ys zs N L' D). cbn [obind]. eexists. split; [reflexivity|]. split; [|reflexivity]. apply wf_leaf; auto. apply ad_length in D. rewrite D, SeqP.map2_length. lia.
    - assert (LL : length (to_list l) = length (to_list l')) by (rewrite (wf_len native Hw _ _ Wl), (wf_len native Hw _ _ Wl'); reflexivity).
      rewrite SeqP.map2_app in D by exact LL. destruct (ad_app _ _ _ D) as (a & c & Da & Dc & ->).
      destruct (IHl l' a Wl' Da) as (ra & -> & A1 & A2). destruct (IHr r' c Wr' Dc) as (rc & -> & B1 & B2). cbn [obind]. eexists. split; [reflexivity|]. split; [now apply wf_node|]. cbn [to_list]. congruence.
  Qed.
  Lemma op1o_sim (f : list A -> option (list C)) (g : A -> option C) :
    (forall xs zs, native (length xs) = true -> all_defined (map g xs) = Some zs -> f xs = Some zs) ->
    forall n t zs, wf native n t -> all_defined (map g (to_list t)) = Some zs ->
    exists r, op1o f t = Some r /\ wf native n r /\ to_list r = zs.
  Proof using.
    intros F n t zs W. revert zs. induction W as [n xs N L|n l r N Wl IHl Wr IHr]; intros zs D; cbn [op1o to_list] in *; subst.
    - rewrite (F xs zs N D). cbn [obind]. eexists. split; [reflexivity|]. split; [|reflexivity]. apply wf_leaf; auto. apply ad_length in D. now rewrite D, map_length.
    - rewrite map_app in D. destruct (ad_app _ _ _ D) as (a & c & Da & Dc & ->).
      destruct (IHl a Da) as (ra & -> & A1 & A2). destruct (IHr c Dc) as (rc & -> & B1 & B2). cbn [obind]. eexists. split; [reflexivity|]. split; [now apply wf_node|]. cbn [to_list]. congruence.
  Qed.
End Tree.

(** * Leaves *)
Lemma leaf_width b e k : b_native b e k = true ->
  k = 1%nat \/ (k <> 1%nat /\ k = (16 / esize e)%nat) \/ (k <> 1%nat /\ k <> (16 / esize e)%nat /\ k = (32 / esize e)%nat /\ exists avx2 gcc, b_impl b = DAvx avx2 gcc).
Proof.
  unfold b_native. intros N. assert (S : forall k, sse_native (esize e) k = true -> k = 1%nat \/ (k <> 1%nat /\ k = (16 / esize e)%nat)).
  { intros j H. apply orb_prop in H. destruct H as [H|H]; apply Nat.eqb_eq in H; [auto|]. right. split; [subst; destruct e; discriminate|exact H]. }
  destruct (b_impl b) as [|s|avx2 gcc]; cbn [div_native] in N.
  - apply Nat.eqb_eq in N. auto.
  - destruct (S _ N) as [H|(H & H')]; auto.
  - unfold avx_widths_of in N. destruct (has256 avx2 e).
    + apply orb_prop in N. destruct N as [N|N].
      * destruct (S _ N) as [H|(H & H')]; auto.
      * apply Nat.eqb_eq in N. right; right. subst k. repeat split; [destruct e; discriminate..|eauto].
    + destruct (S _ N) as [H|(H & H')]; auto.
Qed.
Lemma leaf_pos b e k : b_native b e k = true -> (1 <= k)%nat.
Proof. intros N. destruct (leaf_width b e k N) as [E|[(_ & E)|(_ & _ & E & _)]]; rewrite E; [lia|destruct e; cbn; lia|destruct e; cbn; lia]. Qed.
Lemma by_width_ind {X} b e k (one sse avx none : X) (P : X -> Prop) : b_native b e k = true ->
  (k = 1%nat -> P one) -> (k = (16 / esize e)%nat -> P sse) -> (k = (32 / esize e)%nat -> P avx) -> P (by_width b e k one sse avx none).
Proof.
  intros N P1 P2 P3. unfold by_width. destruct (leaf_width b e k N) as [E|[(N1 & E)|(N1 & N2 & E & a & g & B)]].
  - rewrite E. cbn [Nat.eqb]. auto.
  - rewrite (proj2 (Nat.eqb_neq _ _) N1), (proj2 (Nat.eqb_eq _ _) E). auto.
  - rewrite (proj2 (Nat.eqb_neq _ _) N1), (proj2 (Nat.eqb_neq _ _) N2), B. auto.
Qed.
Lemma s_result_ok e z : s_result e z = c_result e z.
Proof.
  unfold s_result, c_result, fits_int, e_of. replace (z <=? 2 ^ 31 - 1) with (z <? 2 ^ 31); [reflexivity|]. destruct (Z.ltb_spec z (2 ^ 31)), (Z.leb_spec z (2 ^ 31 - 1)); lia.
Qed.
Lemma c_result_of e z r : c_result e z = Some r -> e_of e z = r.
Proof. unfold c_result. destruct e; try (now intros [= <-]); destruct (fits_int z); intros H; try discriminate H; now injection H as <-. Qed.
Lemma representable_range e z : representable e z = true -> in_range e z.
Proof. intros R. unfold representable in R. apply Z.eqb_eq in R. rewrite <- R, <- ev. apply int_value_in_range. Qed.
Lemma divides_of e op (a b r : elt e) : is_integer e = true -> (op = ODiv \/ op = OMod) -> c_arith e op a b = Some r -> divides_ok e a b.
Proof.
  intros I O H. assert (G : negb (e_val e b =? 0) && representable e (Z.quot (e_val e a) (e_val e b)) = true).
  { destruct O as [-> | ->]; cbn [c_arith] in H; destruct (_ && _); auto; discriminate H. }
  apply andb_prop in G. destruct G as (G1 & G2). split; rewrite !ev; [|apply representable_range, G2]. apply negb_true_iff in G1. now apply Z.eqb_neq.
Qed.
Lemma c_div e (a b r : elt e) : c_arith e ODiv a b = Some r -> r = e_of e (Z.quot (e_val e a) (e_val e b)).
Proof. cbn [c_arith]. destruct (_ && _); intros H; try discriminate H. now injection H as <-. Qed.
Lemma c_mod e (a b r : elt e) : c_arith e OMod a b = Some r -> r = e_of e (Z.rem (e_val e a) (e_val e b)).
Proof. cbn [c_arith]. destruct (_ && _); intros H; try discriminate H. now injection H as <-. Qed.
Lemma testbit_mod k x i : 0 <= k -> 0 <= i -> Z.testbit (x mod 2 ^ k) i = (i <? k) && Z.testbit x i.
Proof.
  intros Hk Hi. destruct (Z.ltb_spec i k); cbn [andb]; [now apply Z.mod_pow2_bits_low|now apply Z.mod_pow2_bits_high].
Qed.
Section Bitwise.
  Context (f : Z -> Z -> Z) (g : bool -> bool -> bool) (Hf : forall x y i, Z.testbit (f x y) i = g (Z.testbit x i) (Z.testbit y i)) (G0 : g false false = false).
  Lemma bitwise_mod w x y : mkw w (f x y) = mkw w (f (x mod modulus w) (y mod modulus w)).
  Proof using Hf G0.
    apply word_ext. rewrite !uval_mkw. unfold modulus. assert (0 <= bits w) by (unfold bits; lia). apply Z.bits_inj'. intros i Hi.
    rewrite !testbit_mod, !Hf, !testbit_mod by auto. destruct (i <? bits w); cbn [andb]; reflexivity.
  Qed.
  Lemma bitwise_val e (a b : elt e) : mkw (esize e) (f (uval a) (uval b)) = e_of e (f (e_val e a) (e_val e b)).
  Proof using Hf G0.
    unfold e_of. rewrite (bitwise_mod _ (e_val e a)). f_equal. f_equal; destruct e; cbn [e_val]; rewrite ?sval_mod; try reflexivity; rewrite Z.mod_small; auto; apply uval_range.
  Qed.
End Bitwise.
Lemma word_land e (a b : elt e) : wand a b = e_of e (Z.land (e_val e a) (e_val e b)).
Proof. apply (bitwise_val Z.land andb Z.land_spec eq_refl). Qed.
Lemma word_lor e (a b : elt e) : wor a b = e_of e (Z.lor (e_val e a) (e_val e b)).
Proof. apply (bitwise_val Z.lor orb Z.lor_spec eq_refl). Qed.
Lemma word_lxor e (a b : elt e) : wxor a b = e_of e (Z.lxor (e_val e a) (e_val e b)).
Proof. apply (bitwise_val Z.lxor xorb Z.lxor_spec eq_refl). Qed.

(** the result of an operation that is not a division *)
Definition lane (e : etype) (op : arith_op) (a b : elt e) : elt e :=
  let x := e_val e a in let y := e_val e b in
  match op with
  | OAdd => e_of e (x + y) | OSub => e_of e (x - y) | OMul => e_of e (x * y) | OAnd => e_of e (Z.land x y) | OOr => e_of e (Z.lor x y)
  | OXor => e_of e (Z.lxor x y) | OMin => e_of e (Z.min x y) | OMax => e_of e (Z.max x y) | ODiv => e_of e (Z.quot x y) | OMod => e_of e (Z.rem x y)
  end.
Lemma c_lane e op a b r : c_arith e op a b = Some r -> lane e op a b = r.
Proof.
  destruct op; cbn [c_arith lane]; try apply c_result_of; try (now intros [= <-]); destruct (_ && _); intros H; try discriminate H; now injection H as <-.
Qed.
Lemma s_lane e op a b r : op <> ODiv -> op <> OMod -> c_arith e op a b = Some r -> s_arith e op a b = Some r.
Proof.
  intros N1 N2. destruct op; try contradiction; cbn [c_arith s_arith]; rewrite ?s_result_ok, !ev; auto.
  - intros [= <-]. f_equal. rewrite e_val_min. destruct (Z.leb_spec (e_val e a) (e_val e b)), (Z.ltb_spec (e_val e b) (e_val e a)); try lia; reflexivity.
  - intros [= <-]. f_equal. rewrite e_val_max. destruct (Z.leb_spec (e_val e a) (e_val e b)), (Z.ltb_spec (e_val e a) (e_val e b)); try lia; try reflexivity. apply e_val_inj. lia.
Qed.
Lemma v_lane b e op (xs ys : list (elt e)) : is_integer e = true -> op <> ODiv -> op <> OMod -> length xs = (16 / esize e)%nat -> length ys = length xs ->
  v_arith b e op (pack xs) (pack ys) = pack (map2 (lane e op) xs ys).
Proof.
  intros I N1 N2 L L'. assert (L2 : length ys = (16 / esize e)%nat) by congruence. destruct (C22_sse_arithmetic_main (b_sse41 b) true e xs ys I L L2) as (A & S & M & _).
  destruct op; try contradiction; cbn [v_arith]; try assumption.
  - rewrite and_pack by (exact (eq_sym L')). f_equal. apply map2_ext. intros. apply word_land.
  - rewrite or_pack by (exact (eq_sym L')). f_equal. apply map2_ext. intros. apply word_lor.
  - rewrite xor_pack by (exact (eq_sym L')). f_equal. apply map2_ext. intros. apply word_lxor.
  - rewrite v_min_pack by (exact L || exact L2). f_equal. apply map2_ext. intros. now apply e_min_val.
  - rewrite v_max_pack by (exact L || exact L2). f_equal. apply map2_ext. intros. now apply e_max_val.
Qed.
Lemma y_lane e op (xs ys : list (elt e)) : is_integer e = true -> op <> ODiv -> op <> OMod -> length xs = (32 / esize e)%nat -> length ys = length xs ->
  y_arith e op (ypack xs) (ypack ys) = ypack (map2 (lane e op) xs ys).
Proof.
  intros I N1 N2 L L'. assert (L2 : length ys = (32 / esize e)%nat) by congruence. destruct (C22_avx_arithmetic_main e xs ys I L L2) as (A & S & M & _).
  destruct op; try contradiction; cbn [y_arith]; try assumption.
  - rewrite (ymap2_pack (w := esize e) (esize_ok e) mm_and wand xs ys) by (auto; intros; apply and_pack; congruence). f_equal. apply map2_ext. intros. apply word_land.
  - rewrite (ymap2_pack (w := esize e) (esize_ok e) mm_or wor xs ys) by (auto; intros; apply or_pack; congruence). f_equal. apply map2_ext. intros. apply word_lor.
  - rewrite (ymap2_pack (w := esize e) (esize_ok e) mm_xor wxor xs ys) by (auto; intros; apply xor_pack; congruence). f_equal. apply map2_ext. intros. apply word_lxor.
  - rewrite y_min_ok by (exact L || exact L2). f_equal. apply map2_ext. intros. now apply e_min_val.
  - rewrite y_max_ok by (exact L || exact L2). f_equal. apply map2_ext. intros. now apply e_max_val.
Qed.

Section Leaf.
  Context (b : build) (e : etype) (I : is_integer e = true).
  Lemma leaf_arith_ok op xs ys zs : b_native b e (length xs) = true -> length ys = length xs -> all_defined (map2 (c_arith e op) xs ys) = Some zs -> leaf_arith b e op xs ys = Some zs.
  Proof using I.
    intros N L D. assert (K : op = ODiv \/ op = OMod \/ (op <> ODiv /\ op <> OMod)) by (destruct op; auto; right; right; split; discriminate).
    destruct K as [-> | [-> | (N1 & N2)]]; cbn [leaf_arith].
    - assert (DD : Forall2 (divides_ok e) xs ys) by (eapply ad_forall2; [|now symmetry|exact D]; intros p q r H; eapply divides_of; [exact I| |exact H]; auto). destruct (any_idiv (b_impl b) e I xs ys N L DD) as (ws & -> & _ & F).
      f_equal. eapply ad_rel; [|exact D|exact F]. intros p q r z H R. pose proof (divides_of e ODiv p q r I (or_introl eq_refl) H) as DV. specialize (R DV). cbn [fst snd] in R.
      rewrite (c_div e p q r H). rewrite <- (e_of_val e z), <- ev, R, !ev. reflexivity.
    - assert (DD : Forall2 (divides_ok e) xs ys) by (eapply ad_forall2; [|now symmetry|exact D]; intros p q r H; eapply divides_of; [exact I| |exact H]; auto). destruct (any_imod (b_impl b) e I xs ys N L DD) as (ws & -> & _ & F).
      f_equal. eapply ad_rel; [|exact D|exact F]. intros p q r z H R. pose proof (divides_of e OMod p q r I (or_intror eq_refl) H) as DV. specialize (R DV). cbn [fst snd] in R.
      rewrite (c_mod e p q r H). rewrite <- (e_of_val e z), <- ev, R, !ev. reflexivity.
    - pose proof (ad_map2 _ _ (c_lane e op) _ _ _ D) as E.
      replace (leaf_arith b e op xs ys) with (by_width b e (length xs) (sequence (map2 (s_arith e op) xs ys)) (Some (lanes (esize e) (v_arith b e op (pack xs) (pack ys)))) (Some (ylanes (esize e) (y_arith e op (ypack xs) (ypack ys)))) None)
        by (destruct op; try contradiction; reflexivity).
      assert (LM : length (map2 (lane e op) xs ys) = length xs) by (rewrite SeqP.map2_length, L; apply Nat.min_id).
      apply by_width_ind; auto.
      + intros _. eapply ad_sequence2; [|exact D]. intros. now apply s_lane.
      + intros L1. rewrite v_lane, lanes_pack by (auto; exact (eq_trans LM L1)). now f_equal.
      + intros L1. rewrite y_lane, ylanes_ypack by (auto using esize_ok; exact (eq_trans LM L1)). now f_equal.
  Qed.
  Lemma leaf_negate_ok xs zs : b_native b e (length xs) = true -> all_defined (map (c_negate e) xs) = Some zs -> leaf_negate b e xs = Some zs.
  Proof using I.
    intros N D. assert (E : map (fun a => e_of e (- e_val e a)) xs = zs) by (eapply ad_map; [|exact D]; intros a r; apply c_result_of).
    unfold leaf_negate. apply by_width_ind; auto.
    - intros _. eapply ad_sequence; [|exact D]. intros a r. unfold s_negate, c_negate. now rewrite s_result_ok, ev.
    - intros L1. destruct (C22_sse_arithmetic_main true (b_has_ssse3 b) e xs xs I L1 L1) as (_ & _ & _ & -> & _). rewrite lanes_pack by (rewrite map_length; exact L1). now f_equal.
    - intros L1. destruct (C22_avx_arithmetic_main e xs xs I L1 L1) as (_ & _ & _ & -> & _). rewrite ylanes_ypack by (auto using esize_ok; rewrite map_length; exact L1). now f_equal.
  Qed.
  Lemma not_lane w (x : word w) : wandnot x (mkw w (-1)) = mkw w (-1 - uval x).
  Proof using.
    unfold wandnot. apply word_ext. rewrite !uval_mkw. replace (-1 - uval x) with (Z.lnot (uval x)) by (unfold Z.lnot; lia).
    unfold modulus. rewrite <- !Z.land_ones by (unfold bits; lia). rewrite (Z.land_m1_l (Z.ones _)), <- Z.land_assoc, Z.land_diag. reflexivity.
  Qed.
  Lemma not_val (x : elt e) : mkw (esize e) (-1 - uval x) = e_of e (-1 - e_val e x).
  Proof using I.
    unfold e_of. apply word_ext. rewrite !uval_mkw.
    pose proof (e_of_val e x) as V. unfold e_of in V. apply (f_equal uval) in V. rewrite uval_mkw in V. rewrite <- V at 1. now rewrite Zminus_mod_idemp_r.
  Qed.
  Lemma v_not_pack (xs : list (elt e)) : length xs = (16 / esize e)%nat -> v_not (pack xs) = pack (map (fun a => e_of e (-1 - e_val e a)) xs).
  Proof using I.
    intros L. unfold v_not. replace setallone with (set1 (esize e) (-1)) by (now destruct e). rewrite set1_pack, andnot_pack by (rewrite repeat_length; exact L). f_equal.
    rewrite <- L. clear L. induction xs as [|x xs IH]; cbn; [reflexivity|]. f_equal; [|exact IH]. rewrite not_lane. apply not_val.
  Qed.
  Lemma leaf_unary_ok op xs zs : b_native b e (length xs) = true -> all_defined (map (c_unary e op) xs) = Some zs -> leaf_unary b e op xs = Some zs.
  Proof using I.
    intros N D. unfold leaf_unary. destruct op.
    - assert (E : map (fun a => e_of e (-1 - e_val e a)) xs = zs) by (eapply ad_map; [|exact D]; intros a r [= <-]; reflexivity).
      apply by_width_ind; auto; intros L1; cbn [v_unary y_unary option_map].
      + eapply ad_sequence; [|exact D]. intros a r [= <-]. cbn [s_unary]. rewrite ev. unfold e_of. replace (Z.lnot (e_val e a)) with (-1 - e_val e a) by (unfold Z.lnot; lia). reflexivity.
      + rewrite v_not_pack by exact L1. rewrite lanes_pack by (rewrite map_length; exact L1). now f_equal.
      + change (ymap2 mm_andnot (ypack xs) yallone) with (ymap1 v_not (ypack xs)). rewrite (ymap1_pack (w := esize e) (esize_ok e) v_not (fun a => e_of e (-1 - e_val e a)) xs v_not_pack L1).
        rewrite ylanes_ypack by (auto using esize_ok; rewrite map_length; exact L1). now f_equal.
    - assert (P : (1 <= length xs)%nat) by (pose proof (leaf_pos b e _ N); lia).
      assert (S : e = Short \/ e = Int). { destruct xs; [cbn in P; lia|]. destruct e; auto; cbn in D; discriminate D. }
      assert (E : map (fun a => mkw (esize e) (Z.abs (sval a))) xs = zs).
      { eapply ad_map; [|exact D]. intros a r. destruct S as [-> | ->]; cbn [c_unary]; intros H; apply c_result_of in H; exact H. }
      apply by_width_ind; auto; intros L1.
      + eapply ad_sequence; [|exact D]. intros a r. destruct S as [-> | ->]; cbn [c_unary s_unary]; intros H.
        * pose proof (c_result_of _ _ _ H) as <-. reflexivity.
        * unfold s_abs_int. pose proof (c_result_of _ _ _ H) as R. destruct (Z.eqb_spec (@sval 4 a) (- 2 ^ 31)) as [Q|Q]; [|f_equal; exact R].
          unfold c_result, fits_int in H. change (e_val Int a) with (@sval 4 a) in H. rewrite Q in H. discriminate H.
      + destruct S as [-> | ->]; cbn [v_unary option_map]; (rewrite abs_epi_pack by (auto; exact L1)); (rewrite lanes_pack by (rewrite map_length; exact L1)); now f_equal.
      + destruct S as [-> | ->]; cbn [y_unary option_map]; unfold y_abs;
          (rewrite (ymap1_pack (w := esize _) (esize_ok _) _ (fun a => mkw _ (Z.abs (sval a))) xs) by (exact L1 || (intros; now apply lift1_pack)));
          (rewrite ylanes_ypack by (auto using esize_ok; rewrite map_length; exact L1)); now f_equal.
    - exfalso. assert (P : (1 <= length xs)%nat) by (pose proof (leaf_pos b e _ N); lia).
      destruct xs; [cbn in P; lia|]. cbn in D. destruct e; discriminate D.
  Qed.
  Lemma shift_range op k xs zs : (1 <= length xs)%nat -> all_defined (map (c_shift e op k) xs) = Some zs -> 0 <= k < bits (esize e).
  Proof using.
    destruct xs as [|x xs]; cbn [length map all_defined]; [lia|]. intros _ D. destruct (c_shift e op k x) as [r|] eqn:E; [|discriminate D]. unfold c_shift in E. destruct (Z.leb_spec 0 k), (Z.ltb_spec k (bits (esize e))); try discriminate E. lia.
  Qed.
  Lemma bits_int : bits (esize e) <= 32.
  Proof using I. destruct e; try discriminate I; cbn; lia. Qed.
  Lemma leaf_shift_ok op k xs zs : b_native b e (length xs) = true -> all_defined (map (c_shift e op k) xs) = Some zs -> leaf_shift b e op k xs = Some zs.
  Proof using I.
    intros N D. assert (P : (1 <= length xs)%nat). { destruct xs; [|cbn; lia]. destruct (proj2 (div_widths (b_impl b) e I) _ N) as (q & Hq). cbn [length] in Hq. pose proof (Nat.pow_nonzero 2 q ltac:(lia)). congruence. }
    pose proof (shift_range op k xs zs P D) as R. pose proof bits_int as B.
    assert (E : map (fun a => match op with OShl => e_of e (e_val e a * 2 ^ k) | OShr => e_of e (e_val e a / 2 ^ k) end) xs = zs).
    { eapply ad_map; [|exact D]. intros a r. unfold c_shift. destruct (_ && _); [|discriminate]. destruct op; [|now intros [= <-]]. destruct (0 <=? e_val e a); [apply c_result_of|discriminate]. }
    unfold leaf_shift. apply by_width_ind; auto.
    - intros _. eapply ad_sequence; [|exact D]. intros a r. unfold s_shift, c_shift. destruct (_ && _); [|discriminate].
      replace ((k <? 0) || (31 <? k)) with false by (destruct (Z.ltb_spec k 0), (Z.ltb_spec 31 k); cbn; lia).
      destruct op; rewrite ?s_result_ok, !ev.
      + rewrite Z.shiftl_mul_pow2 by lia. destruct (Z.leb_spec 0 (e_val e a)); [|discriminate]. now replace (e_val e a <? 0) with false by (symmetry; apply Z.ltb_ge; lia).
      + rewrite Z.shiftr_div_pow2 by lia. auto.
    - intros L1. destruct (C22_sse_shift_main e xs k I L1 R) as (S1 & S2). destruct op; rewrite ?S1, ?S2, lanes_pack by (rewrite map_length; exact L1); now f_equal.
    - intros L1. destruct (C22_avx_shift_main e xs k I L1 ltac:(lia)) as (S1 & S2). destruct op; rewrite ?S1, ?S2, ylanes_ypack by (auto using esize_ok; rewrite map_length; exact L1); now f_equal.
  Qed.

  Lemma m_entries_ok m : length m = (16 / esize e)%nat -> m_entries e (mask_reg (esize e) m) = m.
  Proof using.
    intros L. unfold m_entries. symmetry. apply (list_ext_tab _ false); [exact L|]. intros z Hz. symmetry. exact (proj1 (proj2 (proj2 (C17_sse_mask_entries_main e m (fun _ => true) true z L Hz)))).
  Qed.
  Lemma ym_entries_ok m : length m = (32 / esize e)%nat -> ym_entries e (ymask_reg (esize e) m) = m.
  Proof using.
    intros L. unfold ym_entries. symmetry. apply (list_ext_tab _ false); [exact L|]. intros z Hz. symmetry. exact (proj1 (proj2 (proj2 (C17_avx_mask_entries_main e m (fun _ => true) true z L Hz)))).
  Qed.
  Lemma leaf_compare_ok op xs ys zs : b_native b e (length xs) = true -> length ys = length xs -> all_defined (map2 (fun x y => Some (c_compare e op x y)) xs ys) = Some zs -> leaf_compare b e op xs ys = Some zs.
  Proof using I.
    intros N L D. rewrite ad_some2 in D. injection D as <-. assert (LM : length (map2 (c_compare e op) xs ys) = length xs) by (rewrite SeqP.map2_length, L; apply Nat.min_id).
    unfold leaf_compare. apply by_width_ind; auto; intros L1.
    - f_equal. apply map2_ext. intros. unfold s_compare, c_compare. now rewrite !ev.
    - destruct (C21_sse_compare_main e xs ys I L1 ltac:(congruence)) as (A1 & A2 & A3 & A4 & A5 & A6). rewrite <- (m_entries_ok (map2 (c_compare e op) xs ys)) by congruence. do 2 f_equal. destruct op; assumption.
    - destruct (C21_avx_compare_main (b_gcc b) e xs ys I L1 ltac:(congruence)) as (A1 & A2 & A3 & A4 & A5 & A6). rewrite <- (ym_entries_ok (map2 (c_compare e op) xs ys)) by congruence. do 2 f_equal. destruct op; assumption.
  Qed.
  Lemma leaf_logic_ok op xs ys zs : b_native b e (length xs) = true -> length ys = length xs -> all_defined (map2 (fun x y => Some (c_logic op x y)) xs ys) = Some zs -> leaf_logic b e op xs ys = Some zs.
  Proof using.
    intros N L D. rewrite ad_some2 in D. injection D as <-. assert (LM : length (map2 (c_logic op) xs ys) = length xs) by (rewrite SeqP.map2_length, L; apply Nat.min_id).
    unfold leaf_logic. apply by_width_ind; auto; intros L1.
    - destruct (C17_sse_mask_logic_main e xs ys L1 ltac:(congruence)) as (A1 & A2 & A3 & A4). rewrite <- (m_entries_ok (map2 (c_logic op) xs ys)) by congruence. do 2 f_equal. destruct op; assumption.
    - destruct (C17_avx_mask_logic_main e xs ys L1 ltac:(congruence)) as (A1 & A2 & A3 & A4). rewrite <- (ym_entries_ok (map2 (c_logic op) xs ys)) by congruence. do 2 f_equal. destruct op; assumption.
  Qed.
  Lemma leaf_not_ok xs zs : b_native b e (length xs) = true -> all_defined (map (fun x => Some (negb x)) xs) = Some zs -> leaf_not b e xs = Some zs.
  Proof using.
    intros N D. rewrite ad_some in D. injection D as <-. unfold leaf_not. apply by_width_ind; auto; intros L1.
    - destruct (C17_sse_mask_logic_main e xs xs L1 L1) as (-> & _). rewrite m_entries_ok; [reflexivity|now rewrite map_length].
    - destruct (C17_avx_mask_logic_main e xs xs L1 L1) as (-> & _). rewrite ym_entries_ok; [reflexivity|now rewrite map_length].
  Qed.
End Leaf.
