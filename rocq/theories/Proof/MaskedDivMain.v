(** compound division and remainder under a mask (proofs). *)
From Coq Require Import ZArith List Bool Lia.
From Verif.Spec Require Import Seq CastSpec MaskSpec NativeSpec MaskedDivSpec.
From Verif.Model Require Import Word Fp FpArith SseReg SseMove SortNet SseInt SseBuild SseArith SseMask SseNative SimdArray SimdArrayOps Mem SseConvert
  AvxReg AvxMove AvxBuild AvxShuffle AvxMask AvxArith AvxConvert ScalarVec MaskedDiv.
Import ListNotations.
Local Open Scope Z_scope.
From Verif.Model Require Import SplitSize.
From Verif.Proof Require Import WordP SeqP DivP SplitSizeP SimdArrayP SimdArrayOpsP ScalarVecP SseBuildP SseNativeP AvxBuildP AvxNativeP AvxGatherP MaskedDivP.
From Verif.Proof Require ArrayMathMain.

Lemma div_widths b e : is_integer e = true -> widths_ok (div_native b e).
Proof. intros I. destruct b; cbn [div_native]; [apply scalar_widths|apply build_widths|apply abuild_widths]. Qed.
Lemma div_assign_native b e : native_assign_ok (div_native b e) (div_assign b e).
Proof. destruct b; cbn [div_native div_assign]; [apply scalar_assign_ok|apply sse_assign_native|apply avx_assign_native]. Qed.
(** a property of every leaf *)
Fixpoint leaves {A} (P : nat -> Prop) (t : sa A) : Prop := match t with Leaf xs => P (length xs) | Node l r => leaves P l /\ leaves P r end.
Lemma f2_app_inv {A B} (R : A -> B -> Prop) a : forall c b d, length a = length b -> Forall2 R (a ++ c) (b ++ d) -> Forall2 R a b /\ Forall2 R c d.
Proof.
  induction a as [|x a IH]; intros c [|y b] d L F; try discriminate L; cbn in F; [auto|]. inversion F as [|? ? ? ? H1 H2]; subst.
  destruct (IH c b d ltac:(now injection L) H2). auto.
Qed.
Section Tree.
  Context {A : Type} (native : nat -> bool) (f : list A -> list A -> option (list A)) (R : A * A -> A -> Prop) (P : nat -> Prop) (D : A -> A -> Prop).
  Lemma op2o_leaves : (forall xs ys, native (length xs) = true -> P (length xs) -> length ys = length xs -> exists zs, f xs ys = Some zs /\ length zs = length xs /\ Forall2 R (combine xs ys) zs) ->
    forall n t u, wf native n t -> wf native n u -> leaves P t -> exists r, op2o f t u = Some r /\ wf native n r /\ Forall2 R (combine (to_list t) (to_list u)) (to_list r).
  Proof using.
    intros F n t u W. revert u. induction W as [n xs N L|n l r N Wl IHl Wr IHr]; intros u Wu V; inversion Wu as [n' ys N' L'|n' l' r' N' Wl' Wr']; subst; try congruence; cbn [op2o].
    - destruct (F xs ys N V L') as (zs & -> & Lz & G). cbn [obind]. eexists. split; [reflexivity|]. split; [now apply wf_leaf|exact G].
    - destruct V as (Vl & Vr). destruct (IHl l' Wl' Vl) as (a & -> & A1 & A2). destruct (IHr r' Wr' Vr) as (c & -> & B1 & B2). cbn [obind]. eexists. split; [reflexivity|]. split; [apply wf_node; auto|].
      cbn [to_list]. rewrite ArrayMathMain.combine_app by (rewrite !ArrayMathMain.to_list_len; now apply (ArrayMathMain.wf_same _ _ _ _ Wl)). now apply Forall2_app.
  Qed.
  Lemma op2o_all : (forall xs ys, native (length xs) = true -> length ys = length xs -> Forall2 D xs ys -> exists zs, f xs ys = Some zs /\ length zs = length xs /\ Forall2 R (combine xs ys) zs) ->
    forall n t u, wf native n t -> wf native n u -> Forall2 D (to_list t) (to_list u) -> exists r, op2o f t u = Some r /\ wf native n r /\ Forall2 R (combine (to_list t) (to_list u)) (to_list r).
  Proof using.
    intros F n t u W. revert u. induction W as [n xs N L|n l r N Wl IHl Wr IHr]; intros u Wu V; inversion Wu as [n' ys N' L'|n' l' r' N' Wl' Wr']; subst; try congruence; cbn [op2o].
    - destruct (F xs ys N L' V) as (zs & -> & Lz & G). cbn [obind]. eexists. split; [reflexivity|]. split; [now apply wf_leaf|exact G].
    - assert (LL : length (to_list l) = length (to_list l')) by (rewrite !ArrayMathMain.to_list_len; now apply (ArrayMathMain.wf_same _ _ _ _ Wl)).
      cbn [to_list] in V. apply f2_app_inv in V; [|exact LL]. destruct V as (Vl & Vr).
      destruct (IHl l' Wl' Vl) as (a & -> & A1 & A2). destruct (IHr r' Wr' Vr) as (c & -> & B1 & B2). cbn [obind]. eexists. split; [reflexivity|]. split; [apply wf_node; auto|].
      cbn [to_list]. rewrite ArrayMathMain.combine_app by exact LL. now apply Forall2_app.
  Qed.
End Tree.
Section Fail.
  Context {A : Type} (native : nat -> bool) (f : list A -> list A -> option (list A)) (P : nat -> Prop).
  (** a failing leaf makes the whole operation fail *)
  Lemma op2o_none (Z : A -> Prop) : (forall xs ys, native (length xs) = true -> ~ P (length xs) -> length ys = length xs -> Forall Z ys -> f xs ys = None) ->
    (forall n, P n \/ ~ P n) ->
    forall n t u, wf native n t -> wf native n u -> ~ leaves P t -> Forall Z (to_list u) -> op2o f t u = None.
  Proof using.
    intros F dec n t u W. revert u. induction W as [n xs N L|n l r N Wl IHl Wr IHr]; intros u Wu V Hz; inversion Wu as [n' ys N' L'|n' l' r' N' Wl' Wr']; subst; try congruence; cbn [op2o].
    - now rewrite (F xs ys N V L' Hz).
    - cbn [to_list] in Hz. apply Forall_app in Hz. destruct Hz as (H1 & H2).
      assert (Dl : leaves P l \/ ~ leaves P l).
      { clear - dec. induction l as [xs|a IHa c IHc]; cbn; [apply dec|]. destruct IHa, IHc; tauto. }
      destruct Dl as [Dl|Dl].
      + rewrite (IHr r' Wr') by (auto; cbn in V; tauto). now destruct (op2o f l l').
      + now rewrite (IHl l' Wl' Dl H1).
  Qed.
End Fail.
Lemma wf_pos {A} native : widths_ok native -> forall n (t : sa A), wf native n t -> (1 <= n)%nat.
Proof. intros Hw n t W. now apply (wf_size native Hw n t). Qed.
Lemma pow2_mult8 k : (8 <= Nat.pow 2 k)%nat -> (Nat.pow 2 k mod 8 = 0)%nat.
Proof.
  intros H. destruct k as [|[|[|k]]]; try (cbn in H; lia). change (S (S (S k))) with (3 + k)%nat. rewrite Nat.pow_add_r. change (Nat.pow 2 3) with 8%nat.
  rewrite Nat.mul_comm. apply Nat.mod_mul. discriminate.
Qed.
Lemma mod8_split l r : (l mod 8 = 0)%nat -> ((l + r) mod 8 = 0)%nat -> (r mod 8 = 0)%nat.
Proof. intros Hl H. rewrite Nat.add_mod, Hl in H by discriminate. cbn [Nat.add] in H. now rewrite Nat.mod_mod in H by discriminate. Qed.
Lemma esize_int e : is_integer e = true -> esize e = 2%nat \/ esize e = 4%nat.
Proof. destruct e; intros H; try discriminate H; auto. Qed.
Lemma vector_dec b e n : vector_leaf b e n \/ ~ vector_leaf b e n.
Proof. unfold vector_leaf. destruct (Nat.eq_dec n 1), (Nat.eq_dec (esize e) 2), (Nat.eq_dec n (16 / esize e)); tauto. Qed.
Lemma native8 b e : is_integer e = true -> divides_in_floating_point b e 8 = true -> div_native b e 8 = true.
Proof. intros I S. destruct e; try discriminate I; destruct b as [|s|[] g]; try discriminate S; reflexivity. Qed.
Lemma safe_size b e n m : divides_in_floating_point b e n = true -> (m mod 8 = 0)%nat -> divides_in_floating_point b e m = true.
Proof. unfold divides_in_floating_point. intros H M. apply andb_prop in H. destruct H as (_ & H). now rewrite M, H. Qed.
Lemma safe_mod b e n : divides_in_floating_point b e n = true -> (n mod 8 = 0)%nat.
Proof. unfold divides_in_floating_point. intros H. apply andb_prop in H. destruct H as (H & _). now apply Nat.eqb_eq. Qed.
Lemma safe_leaves {A} b e n (t : sa A) : is_integer e = true -> divides_in_floating_point b e n = true -> wf (div_native b e) n t -> leaves (vector_leaf b e) t.
Proof.
  intros I S W. induction W as [n xs N L|n l r N Wl IHl Wr IHr]; cbn [leaves].
  - subst n. pose proof (safe_mod _ _ _ S) as M. pose proof (div_leaf_cases b e _ I N) as C. split.
    + intros E. rewrite E in M. discriminate M.
    + destruct (esize_int e I) as [E|E]; [now left|right]. rewrite E. change (16 / 4)%nat with 4%nat. intros E'. rewrite E' in M. discriminate M.
  - pose proof (wf_len _ (div_widths b e I) _ _ Wl) as Ll. pose proof (safe_mod _ _ _ S) as M.
    assert (N8 : n <> 8%nat) by (intros ->; rewrite (native8 b e I S) in N; discriminate N).
    assert (N0 : n <> 0%nat). { intros ->. unfold right_size in Wr. cbn in Wr. pose proof (wf_pos _ (div_widths b e I) _ _ Wr). lia. }
    assert (G : (16 <= n)%nat). { pose proof (Nat.div_mod n 8 ltac:(discriminate)). lia. }
    destruct (left_size_spec n) as (k & E & H1 & H2); [lia|]. assert (M1 : (left_size n mod 8 = 0)%nat) by (rewrite E in *; apply pow2_mult8; lia).
    assert (M2 : (right_size n mod 8 = 0)%nat) by (apply (mod8_split (left_size n)); [exact M1|]; unfold right_size; replace (left_size n + (n - left_size n))%nat with n by lia; exact M).
    split; [apply IHl|apply IHr]; eapply safe_size; eauto.
Qed.
Lemma unsafe_leaves {A} b e n (t : sa A) : is_integer e = true -> divides_in_floating_point b e n = false -> wf (div_native b e) n t -> ~ leaves (vector_leaf b e) t.
Proof.
  intros I S W. induction W as [n xs N L|n l r N Wl IHl Wr IHr]; cbn [leaves].
  - subst n. intros (V1 & V2). destruct (div_leaf_cases b e _ I N) as [E|[(N1 & E & B)|(N1 & N2 & E & g & B)]]; [contradiction| |].
    + destruct V2 as [V2|V2]; [|contradiction]. rewrite V2 in E. rewrite E in S. unfold divides_in_floating_point in S. rewrite V2 in S. destruct b as [|s|[] g]; [now apply B|discriminate S..].
    + subst b. rewrite E in S. destruct (esize_int e I) as [E'|E']; rewrite E' in S; discriminate S.
  - assert (N2 : (2 <= n)%nat).
    { pose proof (wf_pos _ (div_widths b e I) _ _ Wr). unfold right_size in *. destruct n as [|[|n]]; [cbn in *; lia| |lia]. pose proof (proj1 (div_widths b e I)). congruence. }
    pose proof (left_size_lt n N2) as LT. unfold divides_in_floating_point in S. apply andb_false_iff in S. intros (Vl & Vr). destruct S as [S|S].
    + apply Nat.eqb_neq in S. destruct (Nat.eq_dec (left_size n mod 8) 0) as [M|M].
      * apply IHr; [|exact Vr]. unfold divides_in_floating_point. apply andb_false_iff. left. apply Nat.eqb_neq. intros M2. apply S. replace n with (left_size n + right_size n)%nat by (unfold right_size; lia).
        rewrite Nat.add_mod, M, M2 by discriminate. reflexivity.
      * apply IHl; [|exact Vl]. unfold divides_in_floating_point. apply andb_false_iff. left. now apply Nat.eqb_neq.
    + apply IHl; [|exact Vl]. unfold divides_in_floating_point. apply andb_false_iff. now right.
Qed.
(** selecting the results *)
Lemma select_ok b e (Q : elt e -> elt e -> Z) n (x y : sa (elt e)) (k : sa bool) (r : sa (elt e)) : is_integer e = true -> let W := div_native b e in
  wf W n x -> wf W n y -> wf W n k -> wf W n r ->
  Forall2 (fun p z => divides_ok e (fst p) (snd p) -> int_value e z = Q (fst p) (snd p)) (combine (to_list x) (to_list y)) (to_list r) ->
  (forall i, 0 <= i < Z.of_nat n -> znth false (to_list k) i = true -> divisible e (znth (w0 _) (to_list x) i) (znth (w0 _) (to_list y) i)) ->
  exists s, assign (div_assign b e) x r k = Some s /\ wf W n s /\
    forall i, 0 <= i < Z.of_nat n ->
      if znth false (to_list k) i then int_value e (znth (w0 _) (to_list s) i) = Q (znth (w0 _) (to_list x) i) (znth (w0 _) (to_list y) i)
      else znth (w0 _) (to_list s) i = znth (w0 _) (to_list x) i.
Proof.
  intros I W Wx Wy Wk Wr F D. destruct (assign_ok W (div_widths b e I) _ (div_assign_native b e) n x r k Wx Wr Wk) as (s & E & Ws & L). exists s. split; [exact E|]. split; [exact Ws|]. intros i Hi.
  pose proof (wf_len W (div_widths b e I) _ _ Wx) as Lx. pose proof (wf_len W (div_widths b e I) _ _ Wy) as Ly. pose proof (wf_len W (div_widths b e I) _ _ Wk) as Lk. pose proof (wf_len W (div_widths b e I) _ _ Wr) as Lr.
  assert (G : znth (w0 _) (to_list s) i = if znth false (to_list k) i then znth (w0 _) (to_list r) i else znth (w0 _) (to_list x) i).
  { rewrite L. unfold masked_update_spec. exact (znth_map3 _ _ _ _ (fun (b0 : bool) a o => if b0 then a else o) false (w0 (esize e)) (w0 (esize e)) (w0 (esize e)) (to_list k) (to_list r) (to_list x) i ltac:(lia) (eq_trans Lk (eq_sym Lr)) (eq_trans Lr (eq_sym Lx))). }
  specialize (D i Hi). destruct (znth false (to_list k) i); [|exact G]. rewrite G.
  assert (LC : length (combine (to_list x) (to_list y)) = n) by (rewrite combine_length, Lx, Ly; apply Nat.min_id).
  assert (H0 : 0 <= i < Z.of_nat (length (combine (to_list x) (to_list y)))) by (rewrite LC; exact Hi). assert (H1 : 0 <= i < Z.of_nat (length (to_list x))) by (rewrite Lx; exact Hi).
  pose proof (forall2_znth _ ((w0 (esize e), w0 (esize e)) : elt e * elt e) (w0 (esize e) : elt e) _ _ F i H0) as H.
  pose proof (znth_combine (w0 (esize e) : elt e) (w0 (esize e) : elt e) (to_list x) (to_list y) i (eq_trans Lx (eq_sym Ly)) H1) as C. unfold elt in *. rewrite C in H. cbn [fst snd] in H. apply H. exact (D eq_refl).
Qed.

Lemma C70_all_main :
  forall b e n (x y : sa (elt e)) (k : sa bool), is_integer e = true -> let W := div_native b e in
    wf W n x -> wf W n y -> wf W n k -> Forall2 (divisible e) (to_list x) (to_list y) ->
    (exists r, masked_div b e x y k = Some r /\ wf W n r /\
      forall i, 0 <= i < Z.of_nat n ->
        let xi := znth (w0 _) (to_list x) i in let yi := znth (w0 _) (to_list y) i in let ri := znth (w0 _) (to_list r) i in
        if znth false (to_list k) i then int_value e ri = Z.quot (int_value e xi) (int_value e yi) else ri = xi) /\
    (exists r, masked_mod b e x y k = Some r /\ wf W n r /\
      forall i, 0 <= i < Z.of_nat n ->
        let xi := znth (w0 _) (to_list x) i in let yi := znth (w0 _) (to_list y) i in let ri := znth (w0 _) (to_list r) i in
        if znth false (to_list k) i then int_value e ri = Z.rem (int_value e xi) (int_value e yi) else ri = xi).
Proof.
  intros b e n x y k I W Wx Wy Wk D.
  assert (D' : forall i, 0 <= i < Z.of_nat n -> znth false (to_list k) i = true -> divisible e (znth (w0 _) (to_list x) i) (znth (w0 _) (to_list y) i)).
  { intros i Hi _. apply (forall2_znth (divisible e)); [exact D|]. rewrite (wf_len W (div_widths b e I) _ _ Wx). exact Hi. }
  split; unfold masked_div, masked_mod, a_div, a_mod.
  - destruct (op2o_all W (leaf_idiv b e) (div_rel e) (divides_ok e) (any_idiv b e I) n x y Wx Wy D) as (r & -> & Wr & F). cbn [obind]. exact (select_ok b e (fun p q => Z.quot (int_value e p) (int_value e q)) n x y k r I Wx Wy Wk Wr F D').
  - destruct (op2o_all W (leaf_imod b e) (mod_rel e) (divides_ok e) (any_imod b e I) n x y Wx Wy D) as (r & -> & Wr & F). cbn [obind]. exact (select_ok b e (fun p q => Z.rem (int_value e p) (int_value e q)) n x y k r I Wx Wy Wk Wr F D').
Qed.

Lemma C70_partial_main :
  forall b e n (x y : sa (elt e)) (k : sa bool), is_integer e = true -> divides_in_floating_point b e n = true -> let W := div_native b e in
    wf W n x -> wf W n y -> wf W n k ->
    (forall i, 0 <= i < Z.of_nat n -> znth false (to_list k) i = true -> divisible e (znth (w0 _) (to_list x) i) (znth (w0 _) (to_list y) i)) ->
    (exists r, masked_div b e x y k = Some r /\ wf W n r /\
      forall i, 0 <= i < Z.of_nat n ->
        let xi := znth (w0 _) (to_list x) i in let yi := znth (w0 _) (to_list y) i in let ri := znth (w0 _) (to_list r) i in
        if znth false (to_list k) i then int_value e ri = Z.quot (int_value e xi) (int_value e yi) else ri = xi) /\
    (exists r, masked_mod b e x y k = Some r /\ wf W n r /\
      forall i, 0 <= i < Z.of_nat n ->
        let xi := znth (w0 _) (to_list x) i in let yi := znth (w0 _) (to_list y) i in let ri := znth (w0 _) (to_list r) i in
        if znth false (to_list k) i then int_value e ri = Z.rem (int_value e xi) (int_value e yi) else ri = xi).
Proof.
  intros b e n x y k I S W Wx Wy Wk D. pose proof (safe_leaves b e n x I S Wx) as V. split; unfold masked_div, masked_mod, a_div, a_mod.
  - destruct (op2o_leaves W (leaf_idiv b e) (div_rel e) (vector_leaf b e) (vector_idiv b e I) n x y Wx Wy V) as (r & -> & Wr & F). cbn [obind]. exact (select_ok b e (fun p q => Z.quot (int_value e p) (int_value e q)) n x y k r I Wx Wy Wk Wr F D).
  - destruct (op2o_leaves W (leaf_imod b e) (mod_rel e) (vector_leaf b e) (vector_imod b e I) n x y Wx Wy V) as (r & -> & Wr & F). cbn [obind]. exact (select_ok b e (fun p q => Z.rem (int_value e p) (int_value e q)) n x y k r I Wx Wy Wk Wr F D).
Qed.

Lemma C70_refuted_main :
  forall b e n (x y : sa (elt e)) (k : sa bool), is_integer e = true -> divides_in_floating_point b e n = false -> let W := div_native b e in
    wf W n x -> wf W n y -> wf W n k -> Forall (fun v => int_value e v = 0) (to_list y) ->
    masked_div b e x y k = None /\ masked_mod b e x y k = None.
Proof.
  intros b e n x y k I S W Wx Wy Wk Z. pose proof (unsafe_leaves b e n x I S Wx) as V. unfold masked_div, masked_mod, a_div, a_mod. split.
  - rewrite (op2o_none W (leaf_idiv b e) (vector_leaf b e) (fun v => int_value e v = 0) (fun xs ys N P L H => proj1 (trap_leaf b e I xs ys N P L H)) (vector_dec b e) n x y Wx Wy V Z). reflexivity.
  - rewrite (op2o_none W (leaf_imod b e) (vector_leaf b e) (fun v => int_value e v = 0) (fun xs ys N P L H => proj2 (trap_leaf b e I xs ys N P L H)) (vector_dec b e) n x y Wx Wy V Z). reflexivity.
Qed.

Lemma C70_scalar_main :
  forall e (x y : elt e) (k : bool), is_integer e = true -> (k = true -> divisible e x y) ->
    (exists r, s_where_div e x y k = Some r /\ if k then int_value e r = Z.quot (int_value e x) (int_value e y) else r = x) /\
    (exists r, s_where_mod e x y k = Some r /\ if k then int_value e r = Z.rem (int_value e x) (int_value e y) else r = x).
Proof.
  intros e x y k I D. unfold s_where_div, s_where_mod. destruct k; [|split; eexists; split; reflexivity]. specialize (D eq_refl).
  unfold s_idiv, s_imod. rewrite (s_defined e x y D). destruct D as (N & R). split; eexists; (split; [reflexivity|]); apply int_value_mkw; [exact R|now apply rem_in_range].
Qed.

Lemma C70_scalar_refuted_main :
  forall e (x y : elt e) (k : bool), is_integer e = true ->
    let undefined := int_value e y = 0 \/ (e = Int /\ int_value e x = -2147483648 /\ int_value e y = -1) in
    (s_call_div e x y k = None <-> undefined) /\ (s_call_mod e x y k = None <-> undefined) /\
    (s_where_div e x y k = None <-> k = true /\ undefined) /\ (s_where_mod e x y k = None <-> k = true /\ undefined).
Proof.
  intros e x y k I undefined.
  assert (D : cxx_defined e x y = false <-> undefined) by (unfold cxx_defined, undefined; destruct (Z.eqb_spec (int_value e y) 0) as [Y|Y]; cbn [orb negb]; [tauto|];
    destruct e; try discriminate I; change (- 2 ^ 31) with (-2147483648); try destruct (Z.eqb_spec (int_value Int x) (-2147483648)); try destruct (Z.eqb_spec (int_value Int y) (-1)); cbn [andb negb]; intuition congruence).
  unfold s_call_div, s_call_mod, s_where_div, s_where_mod, s_idiv, s_imod. destruct (cxx_defined e x y); destruct k; cbv beta iota delta [obind]; (split; [|split; [|split]]); (split; [intros H|intros H]); try discriminate H; try reflexivity; try (split; [reflexivity|]); try (apply D; reflexivity); exfalso; try (destruct H as [H0 H]; try discriminate H0); apply D in H; discriminate H.
Qed.
