(** Loads and stores of the Scalar build. *)
From Coq Require Import ZArith List Bool Lia Arith.
From Verif.Spec Require Import Seq NativeSpec FloatSpec RoundSpec CastSpec ByteMemSpec LoadSpec ScalarLoadSpec.
From Verif.Model Require Import Word Fp FpArith SplitSize SseReg SseMove SortNet SseInt SseBuild SimdArray SimdArrayOps Mem ScalarVec LoadStore ScalarLoad.
From Verif.Proof Require Import SeqP SplitSizeP SimdArrayP SimdArrayOpsP WordP FpP FpArithP FpIntP SseIntP SseMoveP SseVecP SseBuildP ConvertP ConvertRegP ConvertMain ScalarVecP LoadStoreP StoreP.
From Verif.Proof Require NativeCastP.
Import ListNotations.
Local Open Scope Z_scope.

Lemma int_limits e z : is_integer e = true -> (z <? int_min e) || (int_max e <? z) = false <-> in_range e z.
Proof.
  intros I. rewrite orb_false_iff, !Z.ltb_ge. unfold in_range. destruct e; try discriminate I; cbn [is_signed esize int_min int_max];
    repeat match goal with |- context [8 * Z.of_nat ?n] => let v := eval vm_compute in (8 * Z.of_nat n) in change (8 * Z.of_nat n) with v end; lia.
Qed.
Lemma fp_to_int_iff u e (x : elt u) : is_integer u = false -> is_integer e = true ->
  (fp_to_int e x <> None <-> is_Finite x = true /\ in_range e (Z.quot (fvalue x) (fone (esize u)))) /\
  (forall y, fp_to_int e x = Some y -> cast_ok u e x y).
Proof.
  intros I J. pose proof (fpw u I) as Hw. rewrite (trunc_units Hw). unfold fp_to_int. rewrite <- orb_assoc.
  assert (C : is_Finite x = negb (is_nan x || is_inf x)).
  { rewrite <- (nan_ok Hw), <- (inf_ok Hw). unfold is_Finite, is_NaN, is_Inf. destruct (all_ones_exponent x), (fraction x =? 0); reflexivity. }
  split.
  - rewrite C. destruct (is_nan x || is_inf x); cbn [orb negb]; [split; [congruence|intros [? _]; discriminate]|].
    rewrite <- (int_limits e _ J). destruct (_ || _); [split; [congruence|intros [_ ?]; discriminate]|split; [auto|congruence]].
  - intros y. clear C. destruct (is_nan x || is_inf x); cbn [orb]; [discriminate|]. destruct ((round_int ToZero x <? int_min e) || (int_max e <? round_int ToZero x)); [discriminate|]. intros H. injection H as <-.
    unfold cast_ok. rewrite I, J, (trunc_units Hw). intros _ R'. now apply NativeCastP.int_value_mkw.
Qed.

(** the conversion of one value *)
Lemma convert_iff u e (x : elt u) :
  (scalar_convert e (MElt u) (enc x) <> None <-> conversion_defined u e x) /\
  (forall y, scalar_convert e (MElt u) (enc x) = Some y -> cast_ok u e x y).
Proof.
  destruct (is_integer u) eqn:I.
  - assert (E : scalar_convert e (MElt u) (enc x) = Some (int_to e (int_value u x))).
    { unfold scalar_convert. destruct u; try discriminate I; cbn [esize] in *; rewrite dec_enc; reflexivity. }
    rewrite E. split; [split; [left; exact I|discriminate]|]. intros y H. injection H as <-. destruct (is_integer e) eqn:J.
    + replace (int_to e (int_value u x)) with (mkw (esize e) (int_value u x)) by (destruct e; try discriminate J; reflexivity). apply cast_int_int; auto. apply (zero_mod (esize e)).
    + pose proof (cast_int_fp u e x I J) as C. destruct e; try discriminate J; exact C.
  - destruct (is_integer e) eqn:J.
    + assert (E : scalar_convert e (MElt u) (enc x) = fp_to_int e x).
      { unfold scalar_convert. destruct u; try discriminate I; cbn [esize] in *; rewrite dec_enc; destruct e; try discriminate J; reflexivity. }
      rewrite E. destruct (fp_to_int_iff u e x I J) as [H1 H2]. split; [|exact H2]. rewrite H1. unfold conversion_defined. rewrite I, J. split; [auto|intros [?|[?|?]]; try discriminate; auto].
    + split; [split; [right; left; exact J|]|].
      * intros _. unfold scalar_convert. destruct u; try discriminate I; destruct e; try discriminate J; discriminate.
      * unfold scalar_convert. destruct u; try discriminate I; cbn [esize] in *; rewrite dec_enc; destruct e; try discriminate J; intros y H; injection H as <-.
        -- exact (cast_fp_same Float x eq_refl).
        -- exact (cast_float_double x).
        -- exact (cast_double_float x).
        -- exact (cast_fp_same Double x eq_refl).
Qed.
Lemma convert_element mt e v : 0 <= v < 2 ^ (8 * Z.of_nat (mt_size mt)) ->
  (scalar_convert e mt (enc (mkw (mt_size mt) v)) <> None <-> element_defined mt e v) /\
  (forall y, scalar_convert e mt (enc (mkw (mt_size mt) v)) = Some y -> converted mt e v y).
Proof.
  intros H. destruct mt as [| |u].
  - split; [split; [exact (fun _ => I)|intros _; unfold scalar_convert; discriminate]|]. unfold scalar_convert. cbn [mt_size]. rewrite dec_enc. intros y E. injection E as <-. exact (mt_fn_ok MSChar e v H).
  - split; [split; [exact (fun _ => I)|intros _; unfold scalar_convert; discriminate]|]. unfold scalar_convert. cbn [mt_size]. rewrite dec_enc. intros y E. injection E as <-. exact (mt_fn_ok MUChar e v H).
  - apply (convert_iff u e (mkw (esize u) v)).
Qed.

Lemma scalar_load_element e mt m a v : narrowing_load e mt = false -> number_at m a (mt_size mt) v ->
  (scalar_load e mt m a <> None <-> element_defined mt e v) /\ (forall y, scalar_load e mt m a = Some y -> converted mt e v y).
Proof.
  intros S H. assert (C : load_concept e mt = true).
  { destruct mt as [| |u]; auto. unfold narrowing_load in S. unfold load_concept. destruct (is_integer u), (is_integer e); cbn in *; auto. apply Nat.ltb_ge in S. now apply Nat.leb_le. }
  unfold scalar_load. rewrite C, (number_load _ _ _ _ H). cbn [obind]. rewrite <- enc_mkw. apply convert_element. exact (proj1 H).
Qed.

(** * SimdArray *)
Lemma scalar_tree_load e mt m : narrowing_load e mt = false -> forall fuel n a vs, (1 <= n <= fuel)%nat -> length vs = n -> elements_at m a mt vs ->
  (Forall (element_defined mt e) vs ->
     exists t, load_bytes_f scalar_native (fun _ p => option_map (fun x => [x]) (scalar_load e mt m p)) (mt_size mt) fuel n a = Some t /\
               wf scalar_native n t /\ Forall2 (converted mt e) vs (to_list t)) /\
  (Exists (fun v => ~ element_defined mt e v) vs ->
     load_bytes_f scalar_native (fun _ p => option_map (fun x => [x]) (scalar_load e mt m p)) (mt_size mt) fuel n a = None).
Proof.
  intros S. induction fuel as [|fuel IH]; intros n a vs Hn L H; [lia|]. cbn [load_bytes_f]. destruct (scalar_native n) eqn:E.
  - apply Nat.eqb_eq in E. subst n. destruct vs as [|v [|]]; try discriminate E. pose proof (H 0 ltac:(cbn; lia)) as H0. cbn [znth Z.to_nat nth] in H0. rewrite Z.mul_0_l, Z.add_0_r in H0.
    destruct (scalar_load_element e mt m a v S H0) as [D V]. split.
    + intros F. inversion F as [|? ? F1 ?]; subst. apply D in F1. destruct (scalar_load e mt m a) as [y|]; [|congruence]. exists (Leaf [y]). cbn [option_map]. split; [reflexivity|].
      split; [now constructor|]. cbn [to_list]. constructor; [now apply V|constructor].
    + intros F. destruct (scalar_load e mt m a) as [y|]; [|reflexivity]. inversion F as [? ? F1|? ? F1]; subst; [|inversion F1]. exfalso. apply F1, D. discriminate.
  - pose proof (not_native_ge2 scalar_native scalar_widths n ltac:(lia) E) as H2. destruct (right_left n H2) as [R1 R2].
    pose proof (left_size_lt n H2). pose proof (left_size_pos n H2).
    assert (L2 : length vs = (left_size n + right_size n)%nat) by lia. destruct (split_n _ _ _ L2) as (x & y & -> & Lx & Ly).
    assert (Hx : elements_at m a mt x).
    { intros i Hi. specialize (H i ltac:(rewrite app_length; lia)). rewrite StoreP.znth_app_l in H by lia. exact H. }
    assert (Hy : elements_at m (a + Z.of_nat (left_size n) * Z.of_nat (mt_size mt)) mt y).
    { intros i Hi. specialize (H (Z.of_nat (length x) + i) ltac:(rewrite app_length; lia)). rewrite StoreP.znth_app_r in H by lia.
      replace (Z.of_nat (length x) + i - Z.of_nat (length x)) with i in H by lia.
      replace (a + Z.of_nat (left_size n) * Z.of_nat (mt_size mt) + i * Z.of_nat (mt_size mt)) with (a + (Z.of_nat (length x) + i) * Z.of_nat (mt_size mt)) by (rewrite Lx; ring). exact H. }
    destruct (IH (left_size n) a x ltac:(lia) Lx Hx) as [A1 A2]. destruct (IH (right_size n) _ y ltac:(lia) Ly Hy) as [B1 B2]. split.
    + intros F. apply Forall_app in F. destruct F as [Fx Fy]. destruct (A1 Fx) as (t0 & E0 & W0 & T0). destruct (B1 Fy) as (t1 & E1 & W1 & T1).
      rewrite E0. cbn [obind]. rewrite E1. cbn [obind]. eexists. split; [reflexivity|]. split; [now constructor|]. cbn [to_list]. now apply Forall2_app.
    + intros F. apply Exists_app in F. destruct F as [F|F]; [now rewrite (A2 F)|]. rewrite (B2 F). destruct (load_bytes_f _ _ _ fuel (left_size n) a); reflexivity.
Qed.

(** * Stores *)
Definition conv (e u : etype) (x : elt e) : elt u := match scalar_convert u (MElt e) (enc x) with Some y => y | None => w0 _ end.
Lemma conv_cast e u x : cast_ok e u x (conv e u x).
Proof.
  unfold conv. destruct (convert_iff e u x) as [H1 H2]. destruct (scalar_convert u (MElt e) (enc x)) as [y|]; [now apply H2|].
  unfold cast_ok. unfold conversion_defined in H1. destruct (is_integer e) eqn:I; [exfalso; apply (proj2 H1); auto|]. destruct (is_integer u) eqn:J; [|exfalso; apply (proj2 H1); auto].
  intros F R. exfalso. apply (proj2 H1); auto.
Qed.
Lemma cast_all e u l : Forall2 (cast_ok e u) l (map (conv e u) l).
Proof. induction l; constructor; auto using conv_cast. Qed.
Lemma conv_defined e u x : conversion_defined e u x -> scalar_convert u (MElt e) (enc x) = Some (conv e u x).
Proof. intros D. apply (convert_iff e u x) in D. unfold conv. destruct (scalar_convert u (MElt e) (enc x)); congruence. Qed.

(** all selected values have a defined conversion *)
Definition sel_ok (e u : etype) (xs : list (elt e)) (ks : list bool) : Prop :=
  forall i, 0 <= i < Z.of_nat (length xs) -> znth false ks i = true -> conversion_defined e u (znth (w0 _) xs i).
Lemma sel_app e u x y kx ky : length x = length kx -> sel_ok e u (x ++ y) (kx ++ ky) -> sel_ok e u x kx /\ sel_ok e u y ky.
Proof.
  intros L H. split; intros i Hi K.
  - specialize (H i). rewrite app_length in H. rewrite (StoreP.znth_app_l false) in H by lia. rewrite (StoreP.znth_app_l (w0 _ : elt e) x y) in H by (apply (proj2 Hi)). apply H; auto. lia.
  - specialize (H (Z.of_nat (length x) + i)). rewrite app_length in H. rewrite (StoreP.znth_app_r false) in H by lia. rewrite (StoreP.znth_app_r (w0 _ : elt e) x y) in H by (unfold elt in *; lia).
    replace (Z.of_nat (@length (elt e) x) + i - Z.of_nat (@length (elt e) x)) with i in H by lia. replace (Z.of_nat (length x) + i - Z.of_nat (length kx)) with i in H by lia. apply H; auto. lia.
Qed.
Lemma scalar_masked_upd e u n t : wf scalar_native n t -> forall k, wf scalar_native n k -> forall m a, valid m a (spread (esize u) (to_list k)) -> sel_ok e u (to_list t) (to_list k) ->
  exists m', scalar_array_store_masked e u t k m a = Some m' /\ upd m a (pack (map (conv e u) (to_list t))) (spread (esize u) (to_list k)) m'.
Proof.
  unfold scalar_array_store_masked. intros W. induction W as [n xs N L|n l r N Wl IHl Wr IHr]; intros k Wk m a V D; inversion Wk as [? ks N' L'|? k0 k1 N' W0 W1]; subst; try congruence; cbn [store_bytes_masked to_list] in *.
  - apply Nat.eqb_eq in N. destruct xs as [|x [|]]; try discriminate N. destruct ks as [|b [|]]; try discriminate L'. cbn [scalar_store_masked scalar_store map]. rewrite pack_one. unfold spread in *. cbn [map concat] in *. rewrite app_nil_r in *.
    destruct b.
    + rewrite (conv_defined e u x) by (apply (D 0); [cbn; lia|reflexivity]). cbn [obind]. now apply single_upd.
    + exists m. split; [reflexivity|]. apply upd_none. apply enc_length.
  - destruct (wf_size scalar_native scalar_widths _ _ Wl) as (Sl & Ll & Pl). destruct (wf_size scalar_native scalar_widths _ _ W0) as (Sk & Lk & _).
    rewrite spread_app in *. apply valid_app in V. rewrite spread_length, Lk in V. destruct V as [V0 V1]. apply sel_app in D; [|congruence]. destruct D as [D0 D1].
    destruct (IHl k0 W0 m a V0 D0) as (m1 & E1 & U1). rewrite E1. cbn [obind]. rewrite Sl.
    rewrite Nat2Z.inj_mul in V1.
    destruct (IHr k1 W1 m1 (a + Z.of_nat (left_size n) * Z.of_nat (esize u))) as (m2 & E2 & U2); [now apply (valid_upd _ _ _ _ _ _ _ U1)|exact D1|].
    exists m2. split; [exact E2|]. rewrite map_app, pack_app_. eapply upd_app; [exact U1|]. rewrite pack_length, map_length, Ll. replace (Z.of_nat (esize u * left_size n)) with (Z.of_nat (left_size n) * Z.of_nat (esize u)) by lia. exact U2.
Qed.
Lemma scalar_array_masked e u n t k m a : wf scalar_native n t -> wf scalar_native n k -> writable m a (esize u) (to_list k) -> sel_ok e u (to_list t) (to_list k) ->
  exists ys m', scalar_array_store_masked e u t k m a = Some m' /\ Forall2 (cast_ok e u) (to_list t) ys /\ stored m a ys (to_list k) m'.
Proof.
  intros W Wk V D. destruct (scalar_masked_upd e u n t W k Wk m a (writable_valid _ _ _ _ (esize_pos u) V) D) as (m' & E & U).
  exists (map (conv e u) (to_list t)), m'. split; [exact E|]. split.
  - apply cast_all.
  - apply upd_stored; [apply esize_pos| |exact U]. rewrite map_length, (wf_len _ scalar_widths _ _ W). symmetry. apply (wf_len _ scalar_widths _ _ Wk).
Qed.
(** an unmasked store is a store of all entries *)
Lemma store_full e u n t : wf scalar_native n t -> forall m a, exists k, wf scalar_native n k /\ to_list k = repeat true n /\ scalar_array_store e u t m a = scalar_array_store_masked e u t k m a.
Proof.
  unfold scalar_array_store, scalar_array_store_masked. intros W m a. 
  assert (K : exists k, wf scalar_native n k /\ to_list k = repeat true n /\ forall m a, store_bytes (scalar_store e u) (esize u) t m a = store_bytes_masked (scalar_store_masked e u) (esize u) t k m a).
  { induction W as [n xs N L|n l r N Wl IHl Wr IHr].
    - apply Nat.eqb_eq in N. rewrite N in *. destruct xs as [|x [|]]; try discriminate L. exists (Leaf [true]). split; [now constructor|]. split; reflexivity.
    - destruct IHl as (k0 & K0 & T0 & E0). destruct IHr as (k1 & K1 & T1 & E1). exists (Node k0 k1). split; [now constructor|]. split.
      + cbn [to_list]. rewrite T0, T1, <- repeat_app. f_equal. destruct (wf_size scalar_native scalar_widths _ _ Wl) as (Sl & Ll & Pl). destruct (wf_size scalar_native scalar_widths _ _ Wr) as (Sr & Lr & Pr).
        assert (H2 : (2 <= n)%nat). { apply (not_native_ge2 scalar_native scalar_widths); auto. unfold right_size in Pr. lia. }
        destruct (right_left n H2). lia.
      + intros m' a'. cbn [store_bytes store_bytes_masked]. rewrite E0. destruct (store_bytes_masked _ _ l k0 m' a'); cbn [obind]; [apply E1|reflexivity]. }
  destruct K as (k & K1 & K2 & K3). exists k. auto.
Qed.
Lemma scalar_array_all e u n t m a : wf scalar_native n t -> readable m a (n * esize u) -> Forall (conversion_defined e u) (to_list t) ->
  exists ys m', scalar_array_store e u t m a = Some m' /\ Forall2 (cast_ok e u) (to_list t) ys /\ stored m a ys (repeat true n) m'.
Proof.
  intros W V D. destruct (store_full e u n t W m a) as (k & K & T & ->). rewrite <- T. apply (scalar_array_masked e u n); auto.
  - rewrite T. now apply writable_all.
  - intros i Hi _. rewrite Forall_forall in D. apply D. assert (E : forall (l : list (elt e)) d, (0 <= i < Z.of_nat (length l)) -> In (znth d l i) l) by (intros l d Hl; rewrite (SeqP.znth_in _ d l i Hl); apply nth_In; lia).
    apply E. exact Hi.
Qed.
