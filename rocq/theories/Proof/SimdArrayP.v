(** Proofs about the SimdArray model: data movement. *)
From Coq Require Import ZArith List Bool Lia Permutation.
From Verif.Spec Require Import Seq NativeSpec.
From Verif.Model Require Import SplitSize SimdArray.
From Verif.Proof Require Import SeqP SplitSizeP.
Import ListNotations.
Local Open Scope Z_scope.

Section SA.
  Context {A : Type} (native : nat -> bool) (ops : native_ops A) (zero : A).
  Hypothesis Hw : widths_ok native.
  Notation wf := (wf native).
  Notation generate := (generate native).
  Notation cast := (cast native zero).
  Notation X := (znth zero).

  Lemma native_pos n : native n = true -> (1 <= n)%nat.
  Proof.
    intros H. destruct Hw as [_ P]. destruct (P n H) as [k ->].
    pose proof (Nat.pow_nonzero 2 k). lia.
  Qed.

  Lemma wf_size n (t : sa A) : wf n t -> size t = n /\ length (to_list t) = n /\ (1 <= n)%nat.
  Proof.
    induction 1 as [n xs H1 H2 | n l r H1 Hl IHl Hr IHr].
    - cbn. repeat split; auto. apply native_pos; auto.
    - cbn. rewrite app_length.
      assert (2 <= n)%nat.
      { destruct n as [|[|n]]; [| |lia].
        - unfold right_size in *. lia.
        - destruct Hw as [W _]. congruence. }
      pose proof (left_size_lt n ltac:(lia)). unfold right_size in *. lia.
  Qed.

  Lemma wf_len n (t : sa A) : wf n t -> length (to_list t) = n.
  Proof. intros H. now apply wf_size in H. Qed.
  Lemma wf_sz n (t : sa A) : wf n t -> size t = n.
  Proof. intros H. now apply wf_size in H. Qed.
  Lemma wf_isz n (t : sa A) : wf n t -> isize t = Z.of_nat n.
  Proof. intros H. unfold isize. now rewrite (wf_sz n t H). Qed.

  Lemma not_native_ge2 n : (1 <= n)%nat -> native n = false -> (2 <= n)%nat.
  Proof. intros H1 H2. destruct n as [|[|n]]; try lia. destruct Hw. congruence. Qed.

  Lemma right_left n : (2 <= n)%nat -> (left_size n + right_size n = n /\ 1 <= right_size n <= left_size n)%nat.
  Proof.
    intros. pose proof (left_size_lt n H). pose proof (left_size_ge n H). unfold right_size. lia.
  Qed.

  Lemma generate_at_ok : forall fuel n (f : Z -> A) off,
    (1 <= n <= fuel)%nat ->
    wf n (generate_at native fuel n f off) /\
    to_list (generate_at native fuel n f off) = tab n (fun i => f (off + i)).
  Proof.
    induction fuel as [|fuel IH]; intros n f off Hn; [lia|].
    cbn [generate_at]. destruct (native n) eqn:E.
    - split; [constructor; auto; apply tab_length|reflexivity].
    - pose proof (not_native_ge2 n ltac:(lia) E) as H2.
      pose proof (right_left n H2) as [R1 R2].
      destruct (IH (left_size n) f off) as [W0 L0]; [lia|].
      destruct (IH (right_size n) f (off + Z.of_nat (left_size n))) as [W1 L1]; [lia|].
      split; [now constructor|].
      cbn [to_list]. rewrite L0, L1.
      transitivity (tab (left_size n + right_size n) (fun i => f (off + i))); [|now rewrite R1].
      rewrite tab_app. f_equal. apply tab_ext. intros. f_equal. lia.
  Qed.

  Lemma generate_wf n (f : Z -> A) : (1 <= n)%nat -> wf n (generate n f).
  Proof. intros. apply (generate_at_ok n n f 0). lia. Qed.
  Lemma generate_list n (f : Z -> A) : (1 <= n)%nat -> to_list (generate n f) = tab n f.
  Proof. intros. unfold SimdArray.generate. rewrite (proj2 (generate_at_ok n n f 0 ltac:(lia))).
         apply tab_ext. intros; f_equal; lia. Qed.
  Lemma cast_wf n t : (1 <= n)%nat -> wf n (cast n t).
  Proof. apply generate_wf. Qed.
  Lemma cast_list n t : (1 <= n)%nat -> to_list (cast n t) = tab n (X (to_list t)).
  Proof. apply generate_list. Qed.

  Lemma sequence_tab n (f : Z -> option A) g :
    (forall z, 0 <= z < Z.of_nat n -> f z = Some (g z)) -> sequence (tab n f) = Some (tab n g).
  Proof.
    intros H. unfold tab.
    assert (G : forall l, (forall i, In i l -> f (Z.of_nat i) = Some (g (Z.of_nat i))) ->
      sequence (map (fun i => f (Z.of_nat i)) l) = Some (map (fun i => g (Z.of_nat i)) l)).
    { induction l as [|a l IH]; cbn; auto. intros G. rewrite G by auto. rewrite IH by auto. reflexivity. }
    apply G. intros i Hi. apply in_seq in Hi. apply H. lia.
  Qed.

  (** [good n r f]: the computation [r] is defined and yields an array with elements [f 0..f (n-1)]. *)
  Definition good n (r : option (sa A)) (f : Z -> A) : Prop :=
    exists t, r = Some t /\ wf n t /\ to_list t = tab n f.

  Lemma good_ext n r f g : good n r f -> (forall z, 0 <= z < Z.of_nat n -> f z = g z) -> good n r g.
  Proof. intros (t & E & W & L) H. exists t. repeat split; auto. rewrite L. now apply tab_ext. Qed.

  Lemma good_self n t : wf n t -> good n (Some t) (X (to_list t)).
  Proof. intros W. exists t. repeat split; auto. rewrite <- (wf_len n t W). now rewrite tab_znth. Qed.

  Lemma generate_opt_good n f g : (1 <= n)%nat ->
    (forall z, 0 <= z < Z.of_nat n -> f z = Some (g z)) -> good n (generate_opt native zero n f) g.
  Proof.
    intros Hn H. unfold generate_opt. rewrite (sequence_tab n f g H). cbn [option_map].
    eexists. split; [reflexivity|]. split; [apply generate_wf; auto|].
    rewrite generate_list by auto. apply tab_ext. intros. now rewrite znth_tab.
  Qed.

  Lemma good_node n r0 r1 f :
    native n = false -> (2 <= n)%nat ->
    good (left_size n) r0 f -> good (right_size n) r1 (fun i => f (i + Z.of_nat (left_size n))) ->
    good n (obind r0 (fun d0 => obind r1 (fun d1 => Some (Node d0 d1)))) f.
  Proof.
    intros E H2 (t0 & -> & W0 & L0) (t1 & -> & W1 & L1). cbn [obind].
    eexists. split; [reflexivity|]. split; [now constructor|].
    cbn [to_list]. rewrite L0, L1. destruct (right_left n H2) as [R _].
    transitivity (tab (left_size n + right_size n) f); [|now rewrite R].
    rewrite tab_app. f_equal. apply tab_ext. intros. f_equal. lia.
  Qed.

  Lemma good_node' n t0 t1 f :
    native n = false -> (2 <= n)%nat -> wf (left_size n) t0 -> wf (right_size n) t1 ->
    (forall z, 0 <= z < Z.of_nat (left_size n) -> X (to_list t0) z = f z) ->
    (forall z, 0 <= z < Z.of_nat (right_size n) -> X (to_list t1) z = f (z + Z.of_nat (left_size n))) ->
    good n (Some (Node t0 t1)) f.
  Proof.
    intros E H2 W0 W1 F0 F1.
    apply (good_node n (Some t0) (Some t1) f E H2).
    - eapply good_ext; [apply good_self; auto|auto].
    - eapply good_ext; [apply good_self; auto|auto].
  Qed.

  Lemma obind_good n m r f g h :
    good n r f -> (forall t, wf n t -> to_list t = tab n f -> good m (h t) g) -> good m (obind r h) g.
  Proof. intros (t & -> & W & L) H. cbn. auto. Qed.

  (** Window over s | x | s. *)
  Definition win (n : Z) (x s : Z -> A) (k i : Z) : A :=
    let p := i + k in
    if p <? 0 then (if - n <=? p then s (p + n) else zero)
    else if p <? n then x p
    else if p <? 2 * n then s (p - n) else zero.

  Lemma shiftin_spec_win xs s k :
    length s = length xs ->
    shiftin_spec zero xs s k = tab (length xs) (win (Z.of_nat (length xs)) (X xs) (X s) k).
  Proof.
    intros HL. unfold shiftin_spec. apply tab_ext. intros z Hz. unfold win.
    rewrite !znth_app. rewrite HL.
    repeat match goal with
    | |- context [Z.ltb ?a ?b] => destruct (Z.ltb_spec a b); try lia
    | |- context [Z.leb ?a ?b] => destruct (Z.leb_spec a b); try lia
    end; try (f_equal; lia); try (apply znth_out; lia).
  Qed.

  Ltac cases := repeat match goal with
    | |- context [Z.ltb ?a ?b] => destruct (Z.ltb_spec a b); try lia
    | |- context [Z.leb ?a ?b] => destruct (Z.leb_spec a b); try lia
    | |- context [Z.eqb ?a ?b] => destruct (Z.eqb_spec a b); try lia
    end.

  Lemma X_out n t z : wf n t -> z < 0 \/ Z.of_nat n <= z -> X (to_list t) z = zero.
  Proof. intros W H. apply znth_out. rewrite (wf_len n t W). lia. Qed.

  Lemma X_node l r n0 n1 z : wf n0 l -> wf n1 r ->
    X (to_list (Node l r)) z = if z <? Z.of_nat n0 then X (to_list l) z else X (to_list r) (z - Z.of_nat n0).
  Proof. intros W0 W1. cbn [to_list]. rewrite znth_app. rewrite (wf_len _ _ W0). reflexivity. Qed.

  Lemma get_ok n t z : wf n t -> 0 <= z < Z.of_nat n -> get zero t z = Some (X (to_list t) z).
  Proof.
    intros W H. unfold get. rewrite (wf_isz n t W). cases. reflexivity.
  Qed.

  (** The non-bisectable overload, for shiftIn of any size that is read in bounds. *)
  Lemma shifted_in_generic_good n m t s k :
    wf n t -> wf m s -> ((n <= m)%nat \/ 0 <= k <= Z.of_nat m) ->
    good n (shifted_in_generic native zero t k s)
           (win (Z.of_nat n) (X (to_list t)) (X (to_list s)) k).
  Proof.
    intros Wt Ws Hm. pose proof (wf_size _ _ Wt) as (S1 & S2 & S3).
    unfold shifted_in_generic. rewrite (wf_isz n t Wt), S1.
    destruct (Z.ltb_spec k 0); apply generate_opt_good; auto; intros z Hz; unfold win; cbv zeta;
      cases; try (rewrite (get_ok n) by (auto; lia); reflexivity);
      try (rewrite (get_ok m) by (auto; lia); reflexivity); try reflexivity.
  Qed.

  Hypothesis Hm : native_moves_ok native zero ops.

  Lemma leaf_shifted_in_good n m xs s k :
    wf n (Leaf xs) -> wf m s -> - Z.of_nat n <= k <= Z.of_nat n ->
    good n (Some (Leaf (n_shifted_in ops xs k (to_list (cast (length xs) s)))))
         (win (Z.of_nat n) (X xs) (X (to_list s)) k).
  Proof.
    intros Wt Ws Hk. inversion Wt as [n' xs' N L|]; subst.
    assert (P : (1 <= length xs)%nat) by (apply native_pos; auto).
    rewrite (nm_shifted_in _ _ _ Hm); auto.
    2: rewrite cast_list, tab_length; auto.
    rewrite shiftin_spec_win by (rewrite cast_list, tab_length; auto).
    eexists. split; [reflexivity|]. split.
    - constructor; rewrite ?tab_length; auto.
    - cbn [to_list]. apply tab_ext. intros z Hz. unfold win. cases; auto; rewrite cast_list by auto;
        rewrite znth_tab by lia; auto.
  Qed.

  Lemma leaf_shifted_good n xs k :
    wf n (Leaf xs) -> good n (Some (Leaf (n_shifted ops xs k))) (fun i => X xs (i + k)).
  Proof.
    intros Wt. inversion Wt as [n' xs' N L|]; subst.
    rewrite (nm_shifted _ _ _ Hm) by auto. eexists. split; [reflexivity|]. split; [|reflexivity].
    unfold shift_spec. constructor; rewrite ?tab_length; auto.
  Qed.

  (** A power-of-two array is a leaf or has equal halves. *)
  Lemma pow2_halves n : native n = false -> (2 <= n)%nat -> (exists k, n = Nat.pow 2 k) ->
    exists k, n = Nat.pow 2 (S k) /\ left_size n = Nat.pow 2 k /\ right_size n = Nat.pow 2 k.
  Proof.
    intros E H2 [k ->]. destruct k as [|k]; [cbn in *; lia|]. exists k.
    unfold right_size. rewrite left_size_pow2. cbn. lia.
  Qed.

  Lemma zeros_good n : (1 <= n)%nat -> good n (Some (zeros native zero n)) (fun _ => zero).
  Proof.
    intros. eexists. split; [reflexivity|]. split; [apply generate_wf; auto|]. now apply generate_list.
  Qed.
  Lemma zeros_list n z : (1 <= n)%nat -> X (to_list (zeros native zero n)) z = zero.
  Proof.
    intros. unfold zeros. rewrite generate_list by auto.
    destruct (Z.leb_spec 0 z), (Z.ltb_spec z (Z.of_nat n)).
    1: now apply znth_tab. all: apply znth_out; rewrite tab_length; lia.
  Qed.

  (** Both shifts are right on power-of-two sizes. *)
  Lemma shifted_pow2 : forall fuel,
    (forall n t k, (exists j, n = Nat.pow 2 j) -> wf n t -> (2 * n < fuel)%nat ->
       good n (shifted_f native ops zero fuel t k) (fun i => X (to_list t) (i + k))) /\
    (forall n t k s, (exists j, n = Nat.pow 2 j) -> wf n t -> wf n s -> (2 * n + 1 < fuel)%nat ->
       - 2 * Z.of_nat n < k < 2 * Z.of_nat n ->
       (native n = true -> - Z.of_nat n <= k <= Z.of_nat n) ->
       good n (shifted_in_f native ops zero fuel t k s)
              (win (Z.of_nat n) (X (to_list t)) (X (to_list s)) k)).
  Proof.
    induction fuel as [|fuel [IH1 IH2]]; (split; [intros n t k P W HF|intros n t k s P W Ws HF Hk Hl]); [lia..| |].
    - (* shifted *)
      cbn [shifted_f]. destruct t as [xs|data0 data1].
      + apply leaf_shifted_good; auto.
      + pose proof (wf_size _ _ W) as (S1 & S2 & S3).
        inversion W as [|n' l r E W0 W1]; subst n' l r.
        pose proof (not_native_ge2 n S3 E) as H2.
        destruct (pow2_halves n E H2 P) as (j & Ej & E0 & E1).
        assert (HL : right_size n = left_size n) by congruence.
        assert (HN : (n = left_size n + left_size n)%nat) by (cbn in Ej; lia).
        set (h := left_size n) in *.
        rewrite (wf_isz _ _ W), (wf_isz _ _ W0), (wf_isz _ _ W1), S1, (wf_sz _ _ W0), (wf_sz _ _ W1), HL in *.
        assert (Ph : exists j, h = Nat.pow 2 j) by eauto.
        assert (h1 : (1 <= h)%nat) by lia.
        pose proof (X_node _ _ _ _ k W0 W1) as _.
        assert (XN : forall z, X (to_list (Node data0 data1)) z = if z <? Z.of_nat h then X (to_list data0) z else X (to_list data1) (z - Z.of_nat h))
          by (intros; eapply X_node; eauto).
        pose proof (fun z => X_out _ _ z W0) as O0. pose proof (fun z => X_out _ _ z W1) as O1.
        destruct (Z.eqb_spec k 0).
        { eapply good_ext; [apply good_self; exact W|]. intros; f_equal; lia. }
        destruct (Z.ltb_spec k 0).
        { destruct (Z.ltb_spec (- Z.of_nat h) k).
          - apply good_node; auto; fold h.
            + eapply good_ext; [apply IH1; auto; lia|]. intros z Hz. cbn beta. rewrite XN.
              destruct (Z.ltb_spec (z + k) (Z.of_nat h)); auto; lia.
            + rewrite HL. eapply good_ext; [apply (IH2 h); auto; lia|]. intros z Hz. cbn beta. rewrite XN. unfold win.
              cases; f_equal; lia.
          - destruct (Z.eqb_spec k (- Z.of_nat h)).
            + apply good_node'; auto; fold h; [apply generate_wf; lia|rewrite HL; apply cast_wf; lia| |].
              * intros z Hz. rewrite zeros_list by lia. rewrite XN. cases. rewrite O0; auto; lia.
              * rewrite HL. intros z Hz. rewrite cast_list by lia. rewrite znth_tab by lia. rewrite XN. cases. f_equal; lia.
            + destruct (Z.ltb_spec k (- Z.of_nat h)); [|lia].
              eapply obind_good; [apply (IH1 h data0); auto; lia|]. intros t' W' L'.
              apply good_node'; auto; fold h; [apply generate_wf; lia|rewrite HL; apply cast_wf; lia| |].
              * intros z Hz. rewrite zeros_list by lia. rewrite XN. cases. rewrite O0; auto; lia.
              * rewrite HL. intros z Hz. rewrite cast_list, znth_tab by lia. rewrite L', znth_tab by lia. rewrite XN. cases. f_equal; lia. }
        destruct (Z.leb_spec (Z.of_nat n) k).
        { eapply good_ext; [apply zeros_good; lia|]. intros z Hz. rewrite XN. cases. rewrite O1; auto. lia. }
        destruct (Z.leb_spec (Z.of_nat h) k).
        { eapply obind_good; [apply (IH1 h (cast h data1)); auto; [apply cast_wf; lia|lia]|]. intros t' W' L'.
          apply good_node'; auto; fold h; [rewrite HL; apply generate_wf; lia| |].
          - intros z Hz. rewrite L', znth_tab by lia. rewrite XN. cases.
            rewrite cast_list by lia. destruct (Z.ltb_spec (z + (k - Z.of_nat h)) (Z.of_nat h)).
            + rewrite znth_tab by lia. f_equal; lia.
            + rewrite znth_out by (rewrite tab_length; lia). rewrite O1; auto; lia.
          - intros z Hz. rewrite zeros_list by lia. rewrite XN. cases. rewrite O1; auto; lia. }
        apply good_node; auto; fold h.
        * eapply good_ext; [apply (IH2 h); auto; lia|]. intros z Hz. cbn beta. rewrite XN. unfold win. cases; f_equal; lia.
        * rewrite HL. eapply good_ext; [apply (IH1 h); auto; lia|]. intros z Hz. cbn beta. rewrite XN. cases. f_equal; lia.
    - (* shifted_in *)
      cbn [shifted_in_f]. destruct t as [xs|data0 data1].
      + assert (N : native n = true) by (inversion W; auto). specialize (Hl N).
        rewrite (wf_isz _ _ W). 
        destruct (Z.leb_spec (- Z.of_nat n) k); [|lia]. destruct (Z.leb_spec k (Z.of_nat n)); [|lia]. cbn [andb].
        eapply leaf_shifted_in_good; eauto.
      + pose proof (wf_size _ _ W) as (S1 & S2 & S3). pose proof (wf_size _ _ Ws) as (T1 & T2 & T3).
        inversion W as [|n' l r E W0 W1]; subst n' l r.
        inversion Ws as [n' ys N'|n' in0 in1 E' V0 V1]; subst n' s; [congruence|].
        pose proof (not_native_ge2 n S3 E) as H2.
        destruct (pow2_halves n E H2 P) as (j & Ej & E0 & E1).
        assert (HL : right_size n = left_size n) by congruence.
        assert (HN : (n = left_size n + left_size n)%nat) by (cbn in Ej; lia).
        set (h := left_size n) in *.
        rewrite (wf_isz _ _ W), (wf_isz _ _ W0), S1, T1, (wf_sz _ _ W0), (wf_sz _ _ W1), HL in *.
        rewrite !Nat.eqb_refl. cbn [andb negb].
        assert (Ph : exists j, h = Nat.pow 2 j) by eauto.
        assert (h1 : (1 <= h)%nat) by lia.
        assert (XN : forall z, X (to_list (Node data0 data1)) z = if z <? Z.of_nat h then X (to_list data0) z else X (to_list data1) (z - Z.of_nat h))
          by (intros; eapply X_node; eauto).
        assert (XS : forall z, X (to_list (Node in0 in1)) z = if z <? Z.of_nat h then X (to_list in0) z else X (to_list in1) (z - Z.of_nat h))
          by (intros; eapply X_node; eauto).
        assert (Nh : native h = true -> forall k', - Z.of_nat h <= k' <= Z.of_nat h -> - Z.of_nat h <= k' <= Z.of_nat h) by auto.
        Ltac sub IH2 XN XS := eapply good_ext; [apply IH2; auto; lia|]; intros z Hz; cbn beta; unfold win; rewrite ?XN, ?XS; cases; f_equal; lia.
        destruct (Z.ltb_spec k 0).
        { destruct (Z.ltb_spec (- Z.of_nat h) k).
          { apply good_node; auto; fold h; rewrite ?HL.
            - sub (IH2 h data0 k in1) XN XS.
            - sub (IH2 h data1 k data0) XN XS. }
          destruct (Z.eqb_spec k (- Z.of_nat h)).
          { apply good_node'; auto; fold h; rewrite ?HL; auto; intros z Hz; unfold win; rewrite ?XN, ?XS; cases; f_equal; lia. }
          destruct (Z.ltb_spec (- Z.of_nat n) k).
          { apply good_node; auto; fold h; rewrite ?HL.
            - sub (IH2 h in1 (k + Z.of_nat h) in0) XN XS.
            - sub (IH2 h data0 (k + Z.of_nat h) in1) XN XS. }
          destruct (Z.eqb_spec k (- Z.of_nat n)).
          { eapply good_ext; [apply good_self; eauto|]. intros z Hz. unfold win. rewrite XN, !XS. cases; f_equal; lia. }
          destruct (Z.ltb_spec (- 2 * Z.of_nat n) k); [|lia].
          eapply good_ext; [apply (IH1 n); auto; lia|]. intros z Hz. cbn beta. unfold win.
          rewrite XN, !XS. pose proof (X_out _ _ (z + (k + Z.of_nat n)) V0) as OV.
          cases; try (f_equal; lia). apply OV. lia. }
        destruct (Z.eqb_spec k 0).
        { eapply good_ext; [apply good_self; exact W|]. intros z Hz. unfold win. cases; f_equal; lia. }
        destruct (Z.ltb_spec k (Z.of_nat h)).
        { apply good_node; auto; fold h; rewrite ?HL.
          - sub (IH2 h data0 k data1) XN XS.
          - sub (IH2 h data1 k in0) XN XS. }
        destruct (Z.eqb_spec k (Z.of_nat h)).
        { apply good_node'; auto; fold h; rewrite ?HL; auto; intros z Hz; unfold win; rewrite ?XN, ?XS; cases; f_equal; lia. }
        destruct (Z.ltb_spec k (Z.of_nat n)).
        { apply good_node; auto; fold h; rewrite ?HL.
          - sub (IH2 h data1 (k - Z.of_nat h) in0) XN XS.
          - sub (IH2 h in0 (k - Z.of_nat h) in1) XN XS. }
        destruct (Z.eqb_spec k (Z.of_nat n)).
        { eapply good_ext; [apply good_self; eauto|]. intros z Hz. unfold win. rewrite XN, !XS. cases; f_equal; lia. }
        destruct (Z.ltb_spec k (2 * Z.of_nat n)); [|lia].
        eapply good_ext; [apply (IH1 n); auto; lia|]. intros z Hz. cbn beta. unfold win.
        rewrite XN, !XS. pose proof (X_out _ _ (z + (k - Z.of_nat n) - Z.of_nat h) V1) as OV.
        cases; try (f_equal; lia). apply OV. lia.
  Qed.
End SA.
