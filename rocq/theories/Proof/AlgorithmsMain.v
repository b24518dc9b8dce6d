(** simd_for_each, apply, call, fill and callWithValuesSorted (proofs). *)
From Coq Require Import ZArith List Bool Lia Permutation.
From Verif.Spec Require Import Seq NativeSpec MaskSpec FloatSpec MemSpec AlgorithmSpec.
From Verif.Model Require Import Word Fp SplitSize SimdArray SimdArrayOps ScalarVec Mem SseMove SseBuild BitScan SseMask Algorithms.
Import ListNotations.
Local Open Scope Z_scope.
From Verif.Proof Require Import SeqP SplitSizeP SimdArrayP SimdArrayOpsP FpP SseMoveP SseMaskP SseBuildP SseBuildMain BitScanP WordP AlgorithmsP.

Lemma map_singles {A} (g : A -> A) (xs : list A) : map (map g) (map (fun x => [x]) xs) = map (fun x => [x]) (map g xs).
Proof. rewrite !map_map. reflexivity. Qed.
Lemma blocks_map {A} w (g : A -> A) : (1 <= w)%nat -> forall xs, map (map g) (blocks w xs) = blocks w (map g xs).
Proof.
  intros Hw. apply (blocks_ind w); [exact Hw| |].
  - intros xs H. rewrite !blocks_small by (rewrite ?map_length; auto). apply map_singles.
  - intros xs H IH. rewrite (blocks_step w xs) by auto. rewrite (blocks_step w (map g xs)) by (rewrite ?map_length; auto).
    cbn [map]. rewrite IH, firstn_map, skipn_map. reflexivity.
Qed.
Lemma run_calls_pure {X Y} (h : X -> Y) : forall xs, run_calls (fun (s : unit) x => (s, h x)) tt xs = (tt, map h xs).
Proof. induction xs as [|x xs IH]; [reflexivity|]. cbn [run_calls map]. now rewrite IH. Qed.
Lemma feq_sym {w} (a b : word w) : feq a b = true -> feq b a = true.
Proof. unfold feq. rewrite !andb_true_iff, !Z.eqb_eq. intuition. Qed.
Lemma feq_trans {w} (a b c : word w) : feq a b = true -> feq b c = true -> feq a c = true.
Proof. unfold feq. rewrite !andb_true_iff, !Z.eqb_eq. intuition congruence. Qed.
Lemma run_heads_ext {A} (f g : A -> A -> bool) xs : (forall a b, f a b = g a b) -> run_heads f xs = run_heads g xs.
Proof. intros H. destruct xs as [|x rest]; [reflexivity|]. unfold run_heads. do 2 f_equal. apply filter_ext. intros p. now rewrite H. Qed.

Lemma C28_blocks_main :
  forall (A : Type) w (xs : list A), (1 <= w)%nat ->
    concat (blocks w xs) = xs /\ map (@length A) (blocks w xs) = repeat w (length xs / w) ++ repeat 1%nat (length xs mod w).
Proof.
  intros A w xs Hw. split; [now apply blocks_concat|now apply blocks_lengths].
Qed.

Lemma C28_for_each_main :
  forall (A S : Type) w mut (f : S -> list A -> S * list A) (m : memory A) first xs s,
    (1 <= w)%nat -> (forall s v, length (snd (f s v)) = length v) -> holds m first xs ->
    exists m', simd_for_each w mut f (length xs) first (first + Z.of_nat (length xs)) s m =
                 Some (fst (run_calls f s (blocks w xs)), m') /\
      if mut : bool then replaced m first (concat (snd (run_calls f s (blocks w xs)))) m' else m' = m.
Proof.
  intros A S w mut f m first xs s Hw Hlen H. apply cells_holds in H.
  destruct (for_each_ok w mut f Hw Hlen xs (length xs) first s m H (le_n _)) as (m' & E & R).
  exists m'. split; [exact E|]. unfold after in R. destruct mut; [now apply overwritten_replaced|exact R].
Qed.

Lemma C28_for_each_n_main :
  forall (A S : Type) w mut (f : S -> list A -> S * list A) (m : memory A) first xs s,
    (1 <= w)%nat -> (forall s v, length (snd (f s v)) = length v) -> holds m first xs -> Z.of_nat (length xs) < 2 ^ 63 ->
    exists m', simd_for_each_n w mut f (length xs) first (Z.of_nat (length xs)) s m =
                 Some (fst (run_calls f s (blocks w xs)), m') /\
      if mut : bool then replaced m first (concat (snd (run_calls f s (blocks w xs)))) m' else m' = m.
Proof.
  intros A S w mut f m first xs s Hw Hlen H HL. apply cells_holds in H.
  destruct (for_each_n_ok w mut f Hw Hlen xs (length xs) first s m H (le_n _) HL) as (m' & E & R).
  exists m'. split; [exact E|]. unfold after in R. destruct mut; [now apply overwritten_replaced|exact R].
Qed.

Lemma C28_elementwise_main :
  forall (A : Type) w (g : A -> A) (m : memory A) first xs, (1 <= w)%nat -> holds m first xs -> Z.of_nat (length xs) < 2 ^ 63 ->
    (exists m', simd_for_each w true (fun s v => (s, map g v)) (length xs) first (first + Z.of_nat (length xs)) tt m = Some (tt, m') /\
       replaced m first (map g xs) m') /\
    (exists m', simd_for_each_n w true (fun s v => (s, map g v)) (length xs) first (Z.of_nat (length xs)) tt m = Some (tt, m') /\
       replaced m first (map g xs) m').
Proof.
  intros A w g m first xs Hw H HL.
  assert (C : concat (snd (run_calls (fun (s : unit) v => (s, map g v)) tt (blocks w xs))) = map g xs)
    by (rewrite run_calls_pure; cbn [snd]; rewrite blocks_map by auto; now apply blocks_concat).
  apply cells_holds in H. split.
  - destruct (for_each_ok w true (fun (s : unit) v => (s, map g v)) Hw ltac:(intros; apply map_length) xs (length xs) first tt m H (le_n _)) as (m' & E & R).
    exists m'. rewrite run_calls_pure in E. split; [exact E|]. unfold after in R. rewrite C in R. now apply overwritten_replaced.
  - destruct (for_each_n_ok w true (fun (s : unit) v => (s, map g v)) Hw ltac:(intros; apply map_length) xs (length xs) first tt m H (le_n _) HL) as (m' & E & R).
    exists m'. rewrite run_calls_pure in E. split; [exact E|]. unfold after in R. rewrite C in R. now apply overwritten_replaced.
Qed.

Lemma C28_pointers_main :
  forall (A S : Type) w mut (f : S -> list A -> S * list A) (m : memory A) lo hi first n s,
    lo <= first + Z.of_nat n - Z.of_nat w -> first + Z.of_nat n < hi + Z.of_nat w -> first + Z.of_nat n <= hi ->
    simd_for_each_ptr w mut f lo hi n first (first + Z.of_nat n) s m = simd_for_each w mut f n first (first + Z.of_nat n) s m.
Proof.
  intros A S w mut f m lo hi first n s H1 H2 H3. unfold simd_for_each_ptr, simd_for_each, ptr_add.
  destruct (Z.leb_spec lo (first + Z.of_nat n + - Z.of_nat w)), (Z.leb_spec (first + Z.of_nat n + - Z.of_nat w) hi); try lia. cbn [andb obind].
  destruct (Z.leb_spec lo (first + Z.of_nat n + - Z.of_nat w + 1)), (Z.leb_spec (first + Z.of_nat n + - Z.of_nat w + 1) hi); try lia. cbn [andb obind].
  reflexivity.
Qed.

Lemma C28_pointers_refuted_main :
  forall (A S : Type) w mut (f : S -> list A -> S * list A) (m : memory A) first n s, (n < w)%nat ->
    simd_for_each_ptr w mut f first (first + Z.of_nat n) n first (first + Z.of_nat n) s m = None.
Proof.
  intros A S w mut f m first n s H. unfold simd_for_each_ptr, ptr_add.
  destruct (Z.leb_spec first (first + Z.of_nat n + - Z.of_nat w)); [lia|]. reflexivity.
Qed.

Lemma C43_values_of_sorted_main :
  forall e (xs : list (elt e)), is_integer e = true -> sorted_spec (e_le e) xs ->
    let called := call_with_values_sorted (entry_ne e) xs in
    NoDup called /\ (forall v, In v called <-> In v xs) /\ sorted_spec (e_le e) called.
Proof.
  intros e xs He Hs called.
  assert (E : called = call_with_values_sorted (fun a b => negb (uval a =? uval b)) xs) by (destruct e; try discriminate He; reflexivity).
  rewrite E. clear E called.
  assert (EQ : forall a b : elt e, (uval a =? uval b) = true <-> a = b) by (intros a b; rewrite Z.eqb_eq; split; [apply word_ext|now intros ->]).
  destruct (sorted_values (fun a b => uval a =? uval b) (e_le e) EQ (to_antisym _ (e_le_total e He)) xs Hs) as [N I].
  split; [exact N|]. split; [exact I|].
  destruct xs as [|x rest]; [exact Logic.I|]. cbn [call_with_values_sorted]. clear N I. destruct Hs as [H1 H2]. split.
  - intros y Hy. apply H1. eapply values_in, Hy.
  - revert x H1. induction rest as [|y rest IH]; intros x H1; [exact Logic.I|]. cbn [values_loop]. destruct H2 as [H3 H4].
    destruct (negb (uval y =? uval x)).
    + split; [|now apply IH]. intros z Hz. apply H3. eapply values_in, Hz.
    + apply IH; [exact H4|]. intros z Hz. apply H1. now right.
Qed.

Lemma C43_values_main :
  forall e (xs : list (elt e)),
    call_with_values_sorted (entry_ne e) xs =
      run_heads (fun a b => if is_integer e then uval a =? uval b else negb (is_NaN a) && negb (is_NaN b) && (fvalue a =? fvalue b)) xs.
Proof.
  intros e xs. destruct (is_integer e) eqn:He.
  - transitivity (call_with_values_sorted (fun a b => negb ((fun a b : elt e => uval a =? uval b) a b)) xs); [destruct e; try discriminate He; reflexivity|].
    apply call_values_ok; intros *; rewrite ?Z.eqb_eq; congruence.
  - assert (Hw : esize e = 4%nat \/ esize e = 8%nat) by (destruct e; try discriminate He; auto).
    transitivity (call_with_values_sorted (fun a b => negb (feq a b)) xs); [destruct e; try discriminate He; reflexivity|].
    rewrite (call_values_ok feq feq_sym feq_trans). apply run_heads_ext. intros a b. exact (feq_ok Hw a b).
Qed.

Lemma C43_apply_main :
  forall (A S : Type) (zero : A) (f : S -> A -> S * A) native n t s, widths_ok native -> wf native n t ->
    fst (apply zero f t s) = fst (run_calls f s (to_list t)) /\
    to_list (snd (apply zero f t s)) = snd (run_calls f s (to_list t)) /\ wf native n (snd (apply zero f t s)).
Proof.
  intros A S zero f native n t s W Wt. now apply tree_apply_ok.
Qed.

Lemma C43_apply_masked_main :
  forall (S : Type) e (f : S -> elt e -> S * elt e) n t k s,
    wf (sse_native (esize e)) n t -> wf (sse_native (esize e)) n k ->
    exists t', apply_mask (w0 (esize e)) f (esize e) t k s = Some (fst (run_selected f s (to_list k) (to_list t)), t') /\
      to_list t' = snd (run_selected f s (to_list k) (to_list t)) /\ wf (sse_native (esize e)) n t'.
Proof.
  intros S e f n t k s Wt Wk. apply tree_apply_mask_ok; auto; [destruct e; unfold width_ok; cbn; auto|apply build_widths].
Qed.

Lemma C43_call_main :
  forall (A : Type) (zero : A) xs ks w, (w = 2 \/ w = 4 \/ w = 8)%nat -> length xs = (16 / w)%nat -> length ks = length xs ->
    v_call zero xs = xs /\
    v_call_mask zero xs (m_to_int w (mask_reg w ks)) = Some (map fst (filter snd (combine xs ks))).
Proof.
  intros A zero xs ks w Hw L Lk. split; [apply call_ok|].
  assert (E : m_to_int w (mask_reg w ks) = to_int_spec ks) by (apply m_to_int_ok; [exact Hw|congruence]). rewrite E.
  apply call_mask_ok; [exact Lk|]. rewrite L. destruct Hw as [->|[->| ->]]; cbn; lia.
Qed.

Lemma C43_fill_main :
  forall (A S : Type) (g : S -> Z -> S * A) xs s, v_fill g xs s = run_calls g s (tab (length xs) (fun i => i)).
Proof.
  intros A S g xs s. apply fill_ok.
Qed.
