(** Vc::Memory and aligned allocation (proofs). *)
From Coq Require Import ZArith List Bool Lia.
From Verif.Spec Require Import Seq MemSpec.
From Verif.Model Require Import SimdArray Mem MemoryClass Malloc.
Import ListNotations.
Local Open Scope Z_scope.
From Verif.Proof Require Import SeqP AlgorithmsP MemoryP.

Lemma repeat_cells {A} (m : memory A) base n (xs : list A) k : cells m base xs -> (k + n <= length xs)%nat -> cells m (base + Z.of_nat k) (firstn n (skipn k xs)).
Proof.
  intros C H. rewrite <- (firstn_skipn k xs) in C. apply cells_app in C. destruct C as [_ C]. rewrite firstn_length_le in C by lia.
  rewrite <- (firstn_skipn n (skipn k xs)) in C. apply cells_app in C. apply C.
Qed.
Lemma holds_ext {A} (m m' : memory A) base xs : (forall a, base <= a < base + Z.of_nat (length xs) -> m' a = m a) -> holds m base xs -> holds m' base xs.
Proof. intros E H i Hi. rewrite E by lia. now apply H. Qed.
Lemma holds_nth {A} (d : A) (m : memory A) base xs k : holds m base xs -> 0 <= k < Z.of_nat (length xs) -> m (base + k) = Some (znth d xs k).
Proof.
  intros H Hk. rewrite <- (nth_error_in d xs k Hk). rewrite <- (H (Z.to_nat k)) by lia. f_equal. lia.
Qed.
Lemma store_last_ok {A} (z : A) width (m : memory A) base count xs v : length xs = (count * width)%nat -> (1 <= count)%nat -> Z.of_nat (count * width) < 2 ^ 63 ->
  length v = width -> holds m base xs ->
  exists m', store_last width m base (Z.of_nat count) v = Some m' /\ replaced m (base + (Z.of_nat count - 1) * Z.of_nat width) v m'.
Proof.
  intros L Hc S Lv H. apply cells_holds in H. unfold store_last.
  destruct (store_vector_ok width m base (count - 1) (vec width xs (count - 1)) v) as (m' & E & O); [nia|rewrite (vec_length width xs count); lia| |].
  - apply cells_vec with count; auto. lia.
  - exists m'. replace (Z.of_nat count - 1) with (Z.of_nat (count - 1)) by lia. split; [exact E|]. apply overwritten_replaced.
    replace (Z.of_nat (count - 1) * Z.of_nat width) with (Z.of_nat ((count - 1) * width)) by lia. exact O.
Qed.
Lemma replaced_zero {A} (z : A) width m b m' : replaced m b (repeat z width) m' -> forall a, b <= a < b + Z.of_nat width -> m' a = Some z.
Proof.
  intros [H _] a Ha. replace a with (b + Z.of_nat (Z.to_nat (a - b))) by lia. rewrite (H (Z.to_nat (a - b))) by (rewrite repeat_length; lia).
  rewrite nth_error_repeat; [reflexivity|lia].
Qed.
Lemma offset_id z : 0 <= z < 2 ^ 63 -> offset z = z.
Proof. apply offset_small. Qed.

Lemma C29_padding_main :
  forall k w n, w = (2 ^ k)%nat -> Z.of_nat w < 2 ^ 62 -> 0 <= n < 2 ^ 62 ->
    padded_size w n = vectors_count w n * Z.of_nat w /\ n <= padded_size w n < n + Z.of_nat w.
Proof.
  intros k w n Hw H1 H2. destruct (padded_facts k w n Hw H1 H2) as (A & B & _). auto.
Qed.

Lemma C29_padding_refuted_main :
  vectors_count 12 4 = 0 /\ vectors_count 12 13 * 12 < 13.
Proof.
  vm_compute. auto.
Qed.

Lemma C29_vectors_partition_main :
  forall (A : Type) (d : A) w count (m : memory A) base xs i,
    length xs = (count * w)%nat -> Z.of_nat (count * w) < 2 ^ 63 -> holds m base xs -> (i < count)%nat ->
    load_vector w m base (Z.of_nat i) = Some (tab w (fun j => znth d xs (Z.of_nat i * Z.of_nat w + j))) /\
    forall j, 0 <= j < Z.of_nat w -> m (base + (Z.of_nat i * Z.of_nat w + j)) = Some (znth d xs (Z.of_nat i * Z.of_nat w + j)).
Proof.
  intros A d w count m base xs i L S H Hi. split.
  - pose proof H as C. apply cells_holds in C.
    rewrite (load_vector_ok w m base i (vec w xs i)); [|nia|now apply (vec_length w xs count)|now apply cells_vec with count].
    f_equal. rewrite <- (tab_znth _ d (vec w xs i)). rewrite (vec_length w xs count) by auto. apply tab_ext. intros j Hj. unfold vec.
    unfold znth. rewrite firstn_length_le by (rewrite skipn_length; nia).
    destruct (Z.leb_spec 0 j), (Z.ltb_spec j (Z.of_nat w)); try lia.
    destruct (Z.leb_spec 0 (Z.of_nat i * Z.of_nat w + j)), (Z.ltb_spec (Z.of_nat i * Z.of_nat w + j) (Z.of_nat (length xs))); try nia. cbn [andb].
    transitivity (nth (Z.to_nat j) (skipn (i * w) xs) d).
    + pose proof (app_nth1 (firstn w (skipn (i * w) xs)) (skipn w (skipn (i * w) xs)) d (n := Z.to_nat j)) as Q.
      rewrite firstn_skipn in Q. symmetry. apply Q. rewrite firstn_length_le; [lia|rewrite skipn_length; nia].
    + replace (Z.to_nat (Z.of_nat i * Z.of_nat w + j)) with (i * w + Z.to_nat j)%nat by nia.
      pose proof (app_nth2 (firstn (i * w) xs) (skipn (i * w) xs) d (n := i * w + Z.to_nat j)) as Q.
      rewrite firstn_skipn, firstn_length_le in Q by nia. rewrite Q by nia. f_equal. lia.
  - intros j Hj. apply holds_nth; [exact H|nia].
Qed.

Lemma C29_vector_at_main :
  forall (A : Type) w (m : memory A) base xs i shift,
    Z.of_nat (length xs) < 2 ^ 63 -> holds m base xs ->
    (0 <= i /\ i + Z.of_nat w <= Z.of_nat (length xs) -> load_vector_at w m base i = Some (firstn w (skipn (Z.to_nat i) xs))) /\
    (let s := i * Z.of_nat w + shift in
     0 <= s /\ s + Z.of_nat w <= Z.of_nat (length xs) -> load_vector_shift w m base i shift = Some (firstn w (skipn (Z.to_nat s) xs))).
Proof.
  intros A w m base xs i shift S H. apply cells_holds in H.
  assert (G : forall s, 0 <= s /\ s + Z.of_nat w <= Z.of_nat (length xs) -> mem_load m (base + offset s) w = Some (firstn w (skipn (Z.to_nat s) xs))).
  { intros s [H1 H2]. rewrite offset_id by lia. pose proof (repeat_cells m base w xs (Z.to_nat s) H ltac:(lia)) as C. unfold cells in C.
    rewrite firstn_length_le in C by (rewrite skipn_length; lia). now rewrite Z2Nat.id in C by lia. }
  split; [apply G|]. intros s Hs. now apply G.
Qed.

Lemma C29_constructor_main :
  forall (A : Type) (zero : A) k w n (m : memory A) base xs,
    w = (2 ^ k)%nat -> Z.of_nat w < 2 ^ 62 -> 1 <= n < 2 ^ 62 -> Z.of_nat (length xs) = padded_size w n -> holds m base xs ->
    ctor zero w false m base n = Some m /\
    exists m', ctor zero w true m base n = Some m' /\ ctor_dynamic zero w m base n = Some m' /\
      (forall a, base + n <= a < base + padded_size w n -> m' a = Some zero) /\
      (forall a, a < base + padded_size w n - Z.of_nat w \/ base + padded_size w n <= a -> m' a = m a).
Proof.
  intros A zero k w n m base xs Hw H1 H2 L H. destruct (padded_facts k w n Hw H1 ltac:(lia)) as (E & B & C & D). specialize (D ltac:(lia)).
  split; [reflexivity|]. unfold ctor, ctor_dynamic.
  destruct (store_last_ok zero w m base (Z.to_nat (vectors_count w n)) xs (repeat zero w)) as (m' & E1 & R); [nia|lia|nia|apply repeat_length|exact H|].
  rewrite Z2Nat.id in E1, R by lia. exists m'. split; [exact E1|]. split; [exact E1|]. split.
  - intros a Ha. apply (replaced_zero zero w _ _ _ R). nia.
  - intros a Ha. destruct R as [_ R]. apply R. rewrite repeat_length. nia.
Qed.

Lemma C29_constructor_refuted_main :
  forall (A : Type) (zero : A) k w (m : memory A) base, w = (2 ^ k)%nat -> Z.of_nat w < 2 ^ 62 ->
    (m (base - Z.of_nat w) = None -> ctor_dynamic zero w m base 0 = None) /\
    (forall xs, length xs = w -> holds m (base - Z.of_nat w) xs ->
       exists m', ctor_dynamic zero w m base 0 = Some m' /\ replaced m (base - Z.of_nat w) (repeat zero w) m').
Proof.
  intros A zero k w m base Hw H1. assert (P : 0 < Z.of_nat w) by (rewrite Hw, Nat2Z.inj_pow; apply Z.pow_pos_nonneg; lia).
  assert (E : ctor_dynamic zero w m base 0 = mem_store m (base - Z.of_nat w) (repeat zero w)).
  { unfold ctor_dynamic, store_last, store_vector, vec_addr. f_equal.
    assert (V : vectors_count w 0 = 0) by (unfold vectors_count, padded_size; rewrite Z.land_0_l; apply Z.div_0_l; lia). rewrite V.
    unfold offset, size_t. replace ((0 - 1) * Z.of_nat w) with (2 ^ 64 - Z.of_nat w + (-1) * 2 ^ 64) by lia. rewrite Z.mod_add by lia.
    rewrite Z.mod_small by lia. destruct (Z.ltb_spec (2 ^ 64 - Z.of_nat w) (2 ^ 63)); lia. }
  rewrite E. split.
  - intros N. destruct w as [|w']; [cbn in P; lia|]. cbn [repeat mem_store mem_write]. unfold mem_write. now rewrite N.
  - intros xs L H. apply cells_holds in H. destruct (store_overwrites m _ xs (repeat zero w) H) as (m' & E' & O); [now rewrite repeat_length|].
    exists m'. split; [exact E'|]. now apply overwritten_replaced.
Qed.

Lemma C29_initializer_list_main :
  forall (A : Type) (zero : A) k w n (m : memory A) base xs init,
    w = (2 ^ k)%nat -> Z.of_nat w < 2 ^ 62 -> 1 <= n < 2 ^ 62 -> Z.of_nat (length xs) = padded_size w n -> holds m base xs ->
    Z.of_nat (length init) <= n ->
    exists m', ctor_list zero w m base n init = Some m' /\ holds m' base init /\
      (forall a, base + n <= a < base + padded_size w n -> m' a = Some zero) /\
      (forall a, a < base \/ base + padded_size w n <= a -> m' a = m a).
Proof.
  intros A zero k w n m base xs init Hw H1 H2 L H Li. destruct (padded_facts k w n Hw H1 ltac:(lia)) as (E & B & C & D). specialize (D ltac:(lia)).
  unfold ctor_list.
  destruct (store_last_ok zero w m base (Z.to_nat (vectors_count w n)) xs (repeat zero w)) as (m1 & E1 & R); [nia|lia|nia|apply repeat_length|exact H|].
  rewrite Z2Nat.id in E1, R by lia. rewrite E1. cbn [obind].
  assert (Cn : exists ys, length ys = length init /\ cells m1 base ys).
  { exists (map (fun i => match m1 (base + Z.of_nat i) with Some v => v | None => zero end) (seq 0 (length init))). split; [now rewrite map_length, seq_length|].
    apply cells_holds. intros i Hi. rewrite map_length, seq_length in Hi.
    assert (M : m1 (base + Z.of_nat i) <> None).
    { destruct (Z_lt_dec (Z.of_nat i) (padded_size w n - Z.of_nat w)) as [Q|Q].
      - destruct R as [_ R]. rewrite R by (rewrite repeat_length; nia). rewrite (holds_nth zero m base xs) by (auto; lia). discriminate.
      - rewrite (replaced_zero zero w _ _ _ R) by nia. discriminate. }
    rewrite nth_error_map, (nth_error_nth' _ 0%nat) by (rewrite seq_length; lia). rewrite seq_nth by lia. cbn [option_map Nat.add].
    destruct (m1 (base + Z.of_nat i)); [reflexivity|congruence]. }
  destruct Cn as (ys & Ly & Cy). destruct (store_overwrites m1 base ys init Cy (eq_sym Ly)) as (m' & E2 & O). exists m'. split; [exact E2|].
  apply overwritten_replaced in O. destruct O as [O1 O2]. split; [exact O1|]. split.
  - intros a Ha. rewrite O2 by lia. apply (replaced_zero zero w _ _ _ R). nia.
  - intros a Ha. rewrite O2 by lia. destruct R as [_ R]. apply R. rewrite repeat_length. nia.
Qed.

Lemma C29_two_dimensions_main :
  forall k w rows columns base, w = (2 ^ k)%nat -> Z.of_nat w < 2 ^ 62 -> 0 <= columns < 2 ^ 62 -> 0 <= rows ->
    rows * padded_size w columns < 2 ^ 63 ->
    vectors_count_2d w rows columns * Z.of_nat w = rows * padded_size w columns /\
    (forall x y, 0 <= x < rows -> 0 <= y < columns ->
       base <= row_base w base columns x + y < base + vectors_count_2d w rows columns * Z.of_nat w) /\
    (forall x y x' y', 0 <= x < rows -> 0 <= y < columns -> 0 <= x' < rows -> 0 <= y' < columns ->
       row_base w base columns x + y = row_base w base columns x' + y' -> x = x' /\ y = y') /\
    (forall x i, 0 <= x < rows -> 0 <= i < vectors_count w columns ->
       vec_addr w (row_base w base columns x) i = vec_addr w base (x * vectors_count w columns + i)).
Proof.
  intros k w rows columns base Hw H1 H2 H3 H4. destruct (padded_facts k w columns Hw H1 H2) as (E & B & C & _).
  unfold vectors_count_2d, row_base. split; [nia|]. split; [|split].
  - intros x y Hx Hy. nia.
  - intros x y x' y' Hx Hy Hx' Hy' Q. assert (x = x') by nia. subst x'. split; [reflexivity|lia].
  - intros x i Hx Hi. unfold vec_addr. rewrite !offset_id by nia. nia.
Qed.

Lemma C29_alignment_main :
  forall al es w base_bytes i, 0 < al -> (Z.of_nat w * es) mod al = 0 -> base_bytes mod al = 0 ->
    0 <= i * Z.of_nat w < 2 ^ 63 -> (base_bytes + es * (vec_addr w 0 i)) mod al = 0.
Proof.
  intros al es w b i Hal H1 H2 H3. unfold vec_addr. rewrite offset_id by lia. replace (es * (0 + i * Z.of_nat w)) with (i * (Z.of_nat w * es)) by lia.
  rewrite Z.add_mod, H2, Z.mul_mod, H1 by lia. rewrite Z.mul_0_r, Z.mod_0_l by lia. reflexivity.
Qed.

Lemma C30_copy_main :
  forall (A : Type) w count (m : memory A) dst src old xs,
    Z.of_nat (count * w) < 2 ^ 63 -> length old = (count * w)%nat -> length xs = (count * w)%nat ->
    holds m dst old -> holds m src xs -> dst = src \/ dst + Z.of_nat (count * w) <= src \/ src + Z.of_nat (count * w) <= dst ->
    exists m', copy_vectors w m dst src (Z.of_nat count) = Some m' /\ replaced m dst xs m'.
Proof.
  intros A w count m dst src old xs S L1 L2 C1 C2 D. apply cells_holds in C1, C2.
  destruct (copy_vectors_ok w count m dst old S L1 C1 src xs L2 C2 ltac:(lia)) as (m' & E & O). exists m'. split; [exact E|now apply overwritten_replaced].
Qed.

Lemma C30_operator_assign_main :
  forall (A : Type) w count (m : memory A) (op : A -> A -> A) dst rhs xs ys,
    Z.of_nat (count * w) < 2 ^ 63 -> length xs = (count * w)%nat -> length ys = (count * w)%nat ->
    holds m dst xs -> holds m rhs ys -> dst = rhs \/ dst + Z.of_nat (count * w) <= rhs \/ rhs + Z.of_nat (count * w) <= dst ->
    exists m', op_assign w op m dst rhs (Z.of_nat count) = Some m' /\ replaced m dst (map2 op xs ys) m'.
Proof.
  intros A w count m op dst rhs xs ys S L1 L2 C1 C2 D. apply cells_holds in C1, C2.
  destruct (op_assign_ok w count m dst xs S L1 C1 op rhs ys L2 C2 ltac:(lia)) as (m' & E & O). exists m'. split; [exact E|now apply overwritten_replaced].
Qed.

Lemma C30_operator_assign_scalar_main :
  forall (A : Type) w count (m : memory A) (op : A -> A -> A) (zero s : A) dst xs v,
    Z.of_nat (count * w) < 2 ^ 63 -> length xs = (count * w)%nat -> holds m dst xs -> length v = w ->
    (exists m', op_assign_scalar w op m dst (Z.of_nat count) s = Some m' /\ replaced m dst (map (fun x => op x s) xs) m') /\
    (exists m', assign_vector w m dst (Z.of_nat count) v = Some m' /\ replaced m dst (concat (repeat v count)) m') /\
    (exists m', set_zero zero w m dst (Z.of_nat count) = Some m' /\ replaced m dst (concat (repeat (repeat zero w) count)) m').
Proof.
  intros A w count m op zero s dst xs v S L1 C1 Lv. apply cells_holds in C1. split; [|split].
  - destruct (op_assign_scalar_ok w count m dst xs S L1 C1 op s) as (m' & E & O). exists m'. split; [exact E|now apply overwritten_replaced].
  - destruct (assign_vector_ok w count m dst xs S L1 C1 v Lv) as (m' & E & O). exists m'. split; [exact E|now apply overwritten_replaced].
  - destruct (assign_vector_ok w count m dst xs S L1 C1 (repeat zero w)) as (m' & E & O); [apply repeat_length|]. exists m'. split; [exact E|now apply overwritten_replaced].
Qed.

Lemma C30_assign_pointer_main :
  forall (A : Type) (m : memory A) dst src old xs,
    length old = length xs -> holds m dst old -> holds m src xs ->
    exists m', assign_pointer m dst (Z.of_nat (length xs)) src = Some m' /\ replaced m dst xs m'.
Proof.
  intros A m dst src old xs L C1 C2. apply cells_holds in C1, C2. unfold assign_pointer. rewrite Nat2Z.id. unfold cells in C2. rewrite C2. cbn [obind].
  destruct (store_overwrites m dst old xs C1 (eq_sym L)) as (m' & E & O). exists m'. split; [exact E|now apply overwritten_replaced].
Qed.

Lemma C31_comparison_partial_main :
  forall (A : Type) w count (rel : A -> A -> bool) (m : memory A) a b xs ys,
    Z.of_nat (count * w) < 2 ^ 63 -> length xs = (count * w)%nat -> length ys = (count * w)%nat ->
    holds m a xs -> holds m b ys ->
    exists r, memory_rel w rel m a b (Z.of_nat count) = Some r /\
      (r = true <-> forall i, (i < count * w)%nat -> forall x y, nth_error xs i = Some x -> nth_error ys i = Some y -> rel x y = true).
Proof.
  intros A w count rel m a b xs ys S L1 L2 C1 C2. apply cells_holds in C1, C2. unfold memory_rel. rewrite Nat2Z.id.
  pose proof (compare_ok (fun b => b) rel w count m a b xs ys S L1 L2 C1 C2) as Q. eexists. split; [exact Q|]. clear Q.
  rewrite <- L1 in L2 |- *. clear - L2. revert ys L2. induction xs as [|x xs IH]; intros [|y ys] L; try discriminate.
  - split; [intros _ i Hi; cbn in Hi; lia|reflexivity].
  - cbn [map2 forallb]. rewrite andb_true_iff. injection L as L. rewrite (IH ys L). split.
    + intros [H1 H2] i Hi x' y' E1 E2. destruct i as [|i]; cbn in E1, E2; [congruence|]. cbn in Hi. apply (H2 i); auto; lia.
    + intros H. split; [apply (H 0%nat); cbn; auto; lia|]. intros i Hi x' y' E1 E2. apply (H (S i)); cbn; auto; lia.
Qed.

Lemma C31_equality_refuted_main :
  let m0 : memory Z := fun a => if (0 <=? a) && (a <? 8) then Some 77 else None in
  exists m1 m2 m3, ctor_list 0 4 m0 0 3 [1; 2; 3] = Some m1 /\ ctor_list 0 4 m1 4 3 [0; 1; 2] = Some m2 /\
    op_assign_scalar 4 Z.add m2 4 (vectors_count 4 3) 1 = Some m3 /\
    map m3 [0; 1; 2] = map m3 [4; 5; 6] /\ memory_rel 4 Z.eqb m3 0 4 (vectors_count 4 3) = Some false.
Proof.
  intros m0. destruct (ctor_list 0 4 m0 0 3 [1; 2; 3]) as [m1|] eqn:E1; [|vm_compute in E1; discriminate E1].
  destruct (ctor_list 0 4 m1 4 3 [0; 1; 2]) as [m2|] eqn:E2.
  2:{ assert (Q : obind (ctor_list 0 4 m0 0 3 [1; 2; 3]) (fun m1 => ctor_list 0 4 m1 4 3 [0; 1; 2]) <> None) by (vm_compute; discriminate). rewrite E1 in Q. cbn [obind] in Q. congruence. }
  destruct (op_assign_scalar 4 Z.add m2 4 (vectors_count 4 3) 1) as [m3|] eqn:E3.
  2:{ assert (Q : obind (obind (ctor_list 0 4 m0 0 3 [1; 2; 3]) (fun m1 => ctor_list 0 4 m1 4 3 [0; 1; 2])) (fun m2 => op_assign_scalar 4 Z.add m2 4 (vectors_count 4 3) 1) <> None)
        by (vm_compute; discriminate). rewrite E1 in Q. cbn [obind] in Q. rewrite E2 in Q. cbn [obind] in Q. congruence. }
  exists m1, m2, m3. split; [reflexivity|]. split; [exact E2|]. split; [exact E3|].
  assert (Q : option_map (fun m3 => (map m3 [0; 1; 2], map m3 [4; 5; 6], memory_rel 4 Z.eqb m3 0 4 (vectors_count 4 3)))
    (obind (obind (ctor_list 0 4 m0 0 3 [1; 2; 3]) (fun m1 => ctor_list 0 4 m1 4 3 [0; 1; 2])) (fun m2 => op_assign_scalar 4 Z.add m2 4 (vectors_count 4 3) 1)) =
    Some ([Some 1; Some 2; Some 3], [Some 1; Some 2; Some 3], Some false)) by (vm_compute; reflexivity).
  rewrite E1 in Q. cbn [obind] in Q. rewrite E2 in Q. cbn [obind] in Q. rewrite E3 in Q. cbn [option_map] in Q.
  pose proof (f_equal (fun o => match o with Some (x, _, _) => x | None => [] end) Q) as Q1.
  pose proof (f_equal (fun o => match o with Some (_, x, _) => x | None => [] end) Q) as Q2.
  pose proof (f_equal (fun o => match o with Some (_, _, x) => x | None => None end) Q) as Q3. cbv beta iota in Q1, Q2, Q3. clear Q.
  split; [exact (eq_trans Q1 (eq_sym Q2))|exact Q3].
Qed.

Lemma C31_not_equal_refuted_main :
  (forall (A : Type) w count (eq : A -> A -> bool) (m : memory A) a b xs ys,
    Z.of_nat (count * w) < 2 ^ 63 -> length xs = (count * w)%nat -> length ys = (count * w)%nat -> holds m a xs -> holds m b ys ->
    memory_ne w eq m a b (Z.of_nat count) = Some (forallb negb (map2 eq xs ys))) /\
  (let m : memory Z := fun a => znth None (map Some [1; 2; 1; 3]) a in
   memory_rel 2 Z.eqb m 0 2 1 = Some false /\ memory_ne 2 Z.eqb m 0 2 1 = Some false).
Proof.
  split; [|vm_compute; auto]. intros A w count eq m a b xs ys S L1 L2 C1 C2. apply cells_holds in C1, C2. unfold memory_ne. rewrite Nat2Z.id.
  exact (compare_ok negb eq w count m a b xs ys S L1 L2 C1 C2).
Qed.

Lemma next_multiple_ok x v : 0 < x -> 0 <= v -> v + x <= 2 ^ 64 ->
  v <= next_multiple_of x v < v + x /\ next_multiple_of x v mod x = 0.
Proof.
  intros Hx Hv H. unfold next_multiple_of. pose proof (Z.mod_pos_bound v x Hx) as MB. pose proof (Z.div_mod v x ltac:(lia)) as DM.
  destruct (Z.ltb_spec 0 (v mod x)) as [Q|Q].
  - destruct (Z.eq_dec (v + x) (2 ^ 64)) as [E|E].
    + unfold size_t. rewrite E, Z.mod_same by lia. replace (0 - v mod x) with ((2 ^ 64 - v mod x) + (-1) * 2 ^ 64) by lia. rewrite Z.mod_add by lia.
      rewrite Z.mod_small by lia. split; [lia|]. rewrite <- E. replace (v + x - v mod x) with ((v / x + 1) * x) by lia. apply Z.mod_mul. lia.
    + unfold size_t. rewrite (Z.mod_small (v + x)) by lia. rewrite Z.mod_small by lia. split; [lia|].
      replace (v + x - v mod x) with ((v / x + 1) * x) by lia. apply Z.mod_mul. lia.
  - split; lia.
Qed.
Lemma next_multiple_bound x v : 0 <= v < 2 ^ 64 -> 0 <= next_multiple_of x v < 2 ^ 64.
Proof. intros H. unfold next_multiple_of. destruct (0 <? v mod x); [apply Z.mod_pos_bound; lia|lia]. Qed.

Lemma C32_malloc_main :
  forall (posix_memalign : Z -> Z -> option Z) (owned : Z -> Z -> Prop) va j sizeof_t a n p,
    (forall k s q, 8 <= 2 ^ k -> 0 <= s < 2 ^ 64 -> posix_memalign (2 ^ k) s = Some q -> q mod 2 ^ k = 0 /\ owned q s) ->
    va = 2 ^ j -> 0 <= j <= 60 -> 0 <= n -> 1 <= sizeof_t -> n * sizeof_t + alignment_of va a <= 2 ^ 64 ->
    malloc posix_memalign va sizeof_t a n = Some p ->
    p mod alignment_of va a = 0 /\
    exists s, owned p s /\ n * sizeof_t <= s < n * sizeof_t + alignment_of va a /\ s mod alignment_of va a = 0.
Proof.
  intros posix owned va j st a n p HC Hva Hj Hn Hs HB HM.
  assert (AL : exists k, 0 <= k <= 60 /\ alignment_of va a = 2 ^ k).
  { destruct a; cbn [alignment_of]; [exists j|exists 6|exists 12]; (split; [lia|auto]). }
  destruct AL as (k & Hk & EK). rewrite EK in *. unfold malloc, malloc_bytes, aligned_malloc in HM. rewrite EK in HM.
  assert (P : 0 < 2 ^ k) by (apply Z.pow_pos_nonneg; lia).
  assert (SZ : size_t (n * st) = n * st) by (unfold size_t; apply Z.mod_small; nia). rewrite SZ in HM.
  pose proof (next_multiple_ok (2 ^ k) (n * st) P ltac:(nia) HB) as [N1 N2].
  pose proof (next_multiple_bound (2 ^ k) (n * st) ltac:(nia)) as NB.
  assert (HA : p mod 2 ^ k = 0 /\ owned p (next_multiple_of (2 ^ k) (n * st))).
  { destruct (Z.ltb_spec (2 ^ k) 8) as [Q|Q].
    - change 8 with (2 ^ 3) in HM. destruct (HC 3 _ p ltac:(lia) NB HM) as [H1 H2]. split; [|exact H2].
      assert (K3 : k <= 3). { destruct (Z_le_dec k 3); [auto|]. pose proof (Z.pow_le_mono_r 2 4 k ltac:(lia) ltac:(lia)). lia. }
      change (2 ^ 3) with 8 in H1. assert (E8 : 8 = 2 ^ k * 2 ^ (3 - k)) by (rewrite <- Z.pow_add_r by lia; replace (k + (3 - k)) with 3 by lia; reflexivity).
      apply Z.mod_divide; [lia|]. apply Z.divide_trans with 8; [exists (2 ^ (3 - k)); lia|]. apply Z.mod_divide; [lia|exact H1].
    - exact (HC k _ p Q NB HM). }
  destruct HA as [HA HO]. split; [exact HA|]. exists (next_multiple_of (2 ^ k) (n * st)). auto.
Qed.

Lemma C32_malloc_refuted_main :
  forall (posix_memalign : Z -> Z -> option Z) va sizeof_t a n j, va = 2 ^ j -> 0 <= j <= 60 -> 0 <= n -> 1 <= sizeof_t ->
    2 ^ 64 - alignment_of va a < n * sizeof_t -> (n * sizeof_t) mod alignment_of va a <> 0 \/ 2 ^ 64 <= n * sizeof_t ->
    exists al s, malloc posix_memalign va sizeof_t a n = posix_memalign al s /\ 0 <= s < n * sizeof_t.
Proof.
  intros posix va st a n j Hva Hj Hn Hs HB HM. unfold malloc, malloc_bytes, aligned_malloc.
  assert (AL : exists k, 0 <= k <= 60 /\ alignment_of va a = 2 ^ k).
  { destruct a; cbn [alignment_of]; [exists j|exists 6|exists 12]; (split; [lia|auto]). }
  destruct AL as (k & Hk & EK). rewrite EK in *. assert (P : 0 < 2 ^ k) by (apply Z.pow_pos_nonneg; lia).
  assert (PK : 2 ^ k <= 2 ^ 60) by (apply Z.pow_le_mono_r; lia).
  eexists. eexists. split; [reflexivity|]. destruct (Z_le_dec (2 ^ 64) (n * st)) as [Q|Q].
  - pose proof (next_multiple_bound (2 ^ k) (size_t (n * st)) ltac:(apply Z.mod_pos_bound; lia)). lia.
  - destruct HM as [HM|HM]; [|lia]. unfold size_t at 1 2. rewrite (Z.mod_small (n * st)) by nia. unfold next_multiple_of, size_t.
    pose proof (Z.mod_pos_bound (n * st) (2 ^ k) P) as MB.
    destruct (Z.ltb_spec 0 ((n * st) mod 2 ^ k)); [|lia].
    assert (D64 : 2 ^ 64 = 2 ^ (64 - k) * 2 ^ k) by (rewrite <- Z.pow_add_r by lia; f_equal; lia).
    assert (E : n * st - (n * st) mod 2 ^ k = 2 ^ 64 - 2 ^ k).
    { pose proof (Z.div_mod (n * st) (2 ^ k) ltac:(lia)). assert ((n * st) / 2 ^ k = 2 ^ (64 - k) - 1) by nia. nia. }
    replace (n * st + 2 ^ k) with ((n * st + 2 ^ k - 2 ^ 64) + 1 * 2 ^ 64) by lia. rewrite Z.mod_add by lia. rewrite (Z.mod_small (n * st + 2 ^ k - 2 ^ 64)) by lia.
    replace (n * st + 2 ^ k - 2 ^ 64 - (n * st) mod 2 ^ k) with 0 by lia. rewrite Z.mod_0_l by lia. lia.
Qed.

Lemma C29_constructor_2d_main :
  forall (A : Type) (zero : A) k w rows columns (m : memory A) base,
    w = (2 ^ k)%nat -> Z.of_nat w < 2 ^ 62 -> 1 <= columns < 2 ^ 62 ->
    (forall a, base <= a < base + Z.of_nat rows * padded_size w columns -> m a <> None) ->
    ctor_rows zero w false rows 0 m base columns = Some m /\
    exists m', ctor_rows zero w true rows 0 m base columns = Some m' /\
      (forall x y, 0 <= x < Z.of_nat rows -> columns <= y < padded_size w columns -> m' (row_base w base columns x + y) = Some zero) /\
      (forall a, (forall x, 0 <= x < Z.of_nat rows ->
           ~ row_base w base columns x + padded_size w columns - Z.of_nat w <= a < row_base w base columns x + padded_size w columns) ->
         m' a = m a).
Proof.
  intros A zero k w rows columns m base Hw H1 H2 HA. destruct (padded_facts k w columns Hw H1 ltac:(lia)) as (E & B & C & D). specialize (D ltac:(lia)).
  split.
  { clear HA. generalize 0. induction rows as [|r IH]; intros x; cbn [ctor_rows]; [reflexivity|]. apply IH. }
  enough (G : forall n x m, (forall a, base <= a < base + (x + Z.of_nat n) * padded_size w columns -> m a <> None) -> 0 <= x ->
    exists m', ctor_rows zero w true n x m base columns = Some m' /\
      (forall x' y, x <= x' < x + Z.of_nat n -> columns <= y < padded_size w columns -> m' (row_base w base columns x' + y) = Some zero) /\
      (forall a, (forall x', x <= x' < x + Z.of_nat n ->
           ~ row_base w base columns x' + padded_size w columns - Z.of_nat w <= a < row_base w base columns x' + padded_size w columns) ->
         m' a = m a)).
  { destruct (G rows 0 m ltac:(intros a Ha; apply HA; nia) ltac:(lia)) as (m' & E1 & P & Q). exists m'. split; [exact E1|]. split.
    - intros x y Hx Hy. apply P; lia.
    - intros a Ha. apply Q. intros x Hx. apply Ha. lia. }
  clear m HA. induction n as [|n IH]; intros x m HA Hx; cbn [ctor_rows].
  - exists m. split; [reflexivity|]. split; [lia|reflexivity].
  - set (rb := row_base w base columns x) in *.
    set (xs := map (fun i => match m (rb + Z.of_nat i) with Some v => v | None => zero end) (seq 0 (Z.to_nat (padded_size w columns)))).
    assert (Lx : Z.of_nat (length xs) = padded_size w columns) by (unfold xs; rewrite map_length, seq_length; lia).
    assert (HR : holds m rb xs).
    { intros i Hi. assert (Hi' : (i < Z.to_nat (padded_size w columns))%nat) by lia. unfold xs.
      rewrite nth_error_map, (nth_error_nth' _ 0%nat) by now rewrite seq_length. rewrite seq_nth by exact Hi'. cbn [option_map Nat.add].
      assert (N : m (rb + Z.of_nat i) <> None) by (apply HA; unfold rb, row_base; nia).
      destruct (m (rb + Z.of_nat i)); [reflexivity|congruence]. }
    destruct (C29_constructor_main A zero k w columns m rb xs Hw H1 H2 Lx HR) as (_ & m1 & E1 & _ & Z1 & K1).
    rewrite E1. cbn [obind]. destruct (IH (x + 1) m1) as (m' & E2 & P & Q).
    + intros a Ha. unfold ctor, store_last, store_vector in E1. eapply mem_store_allocated; [exact E1|]. apply HA. nia.
    + lia.
    + exists m'. split; [exact E2|]. split.
      * intros x' y Hx' Hy. destruct (Z.eq_dec x' x) as [->|NE]; [|apply P; lia].
        rewrite Q; [fold rb; apply Z1; lia|]. intros x' Hx''. fold rb. unfold rb, row_base. nia.
      * intros a Ha. rewrite Q by (intros x' Hx'; apply Ha; lia). apply K1. specialize (Ha x ltac:(lia)). fold rb in Ha. lia.
Qed.
