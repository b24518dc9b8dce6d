(** simdize: simdized structs, iterators and the type transformation (proofs). *)
From Coq Require Import ZArith List Bool Lia.
From Verif.Spec Require Import Seq NativeSpec MaskSpec InterleaveSpec SimdizeSpec.
From Verif.Model Require Import SplitSize Mem SimdArray SimdArrayOps ScalarVec SseBuild Interleave Simdize.
Import ListNotations.
Local Open Scope Z_scope.
From Verif.Proof Require Import SeqP SplitSizeP ScalarVecP SimdArrayP SimdArrayOpsP BitScanP GatherP SimdArrayMain InterleaveMain SimdizeP.

Lemma example_members_ok : adapter_ok 3 2 example_members.
Proof.
  split; [reflexivity|]. intros v [<-|[<-|[]]]; exists scalar_native; (split; [exact scalar_widths|]); apply generate_wf; try exact scalar_widths; lia.
Qed.

Lemma C41_extract_main :
  forall (A : Type) (zero : A) n k a i, adapter_ok n k a ->
    (0 <= i < Z.of_nat n -> adapter_extract zero a i = Some (object zero a i)) /\
    (~ 0 <= i < Z.of_nat n -> (1 <= k)%nat -> adapter_extract zero a i = None).
Proof.
  intros A zero n k a i O. split; [intros I; now apply (extract_ok zero n k)|]. intros I K. destruct a as [|v a]; [destruct O; cbn in *; lia|].
  destruct k as [|k]; [lia|]. apply ok_cons in O. destruct O as (M & _). destruct (member_size n v M) as (E & _). unfold adapter_extract. cbn [map sequence]. unfold get. rewrite E.
  destruct (Z.leb_spec 0 i), (Z.ltb_spec i (Z.of_nat n)); cbn [andb]; try reflexivity. lia.
Qed.

Lemma C41_assign_main :
  forall (A : Type) (zero : A) n k a i x, adapter_ok n k a -> length x = k -> 0 <= i < Z.of_nat n ->
    exists a', adapter_assign a i x = Some a' /\ adapter_ok n k a' /\
      forall j, 0 <= j < Z.of_nat n -> adapter_extract zero a' j = Some (if j =? i then x else object zero a j).
Proof.
  intros A zero n k a i x O L I. destruct (assign_ok zero n k a i x O L I) as (a' & E & O' & R). exists a'. split; [exact E|]. split; [exact O'|].
  intros j J. rewrite (extract_ok zero n k a' j O' J), R. reflexivity.
Qed.

Lemma C41_swap_main :
  forall (A : Type) (zero : A) n k a i, adapter_ok n k a -> 0 <= i < Z.of_nat n ->
    (forall x, length x = k -> exists a', swap_scalar zero a i x = Some (a', object zero a i) /\ adapter_ok n k a' /\
       forall z, object zero a' z = if z =? i then x else object zero a z) /\
    (forall b j, adapter_ok n k b -> 0 <= j < Z.of_nat n ->
       exists a' b', swap_lanes zero a i b j = Some (a', b') /\ adapter_ok n k a' /\ adapter_ok n k b' /\
         (forall z, object zero a' z = if z =? i then object zero b j else object zero a z) /\
         (forall z, object zero b' z = if z =? j then object zero a i else object zero b z)).
Proof.
  intros A zero n k a i O I. split; [intros; now apply swap_scalar_ok|]. intros b j P J. now apply swap_lanes_ok.
Qed.

Lemma C41_swap_same_main :
  forall (A : Type) (zero : A) n k a i j, adapter_ok n k a -> 0 <= i < Z.of_nat n -> 0 <= j < Z.of_nat n ->
    exists a', swap_same zero a i j = Some a' /\ adapter_ok n k a' /\
      forall z, object zero a' z = if z =? i then object zero a j else if z =? j then object zero a i else object zero a z.
Proof.
  intros. now apply swap_same_ok.
Qed.

Lemma C41_broadcast_main :
  forall (A : Type) (zero : A) native n x, widths_ok native -> (1 <= n)%nat ->
    adapter_ok n (length x) (adapter_broadcast native n x) /\
    forall i, 0 <= i < Z.of_nat n -> object zero (adapter_broadcast native n x) i = x.
Proof.
  intros. now apply broadcast_ok.
Qed.

Lemma C41_generator_main :
  forall (A S : Type) (zero : A) (f : S -> Z -> S * list A) n k s a, (forall s i, length (snd (f s i)) = k) -> adapter_ok n k a ->
    exists a', from_function f n s a = Some (fst (calls f n 0 s), a') /\ adapter_ok n k a' /\
      length (snd (calls f n 0 s)) = n /\ forall i, 0 <= i < Z.of_nat n -> object zero a' i = znth [] (snd (calls f n 0 s)) i.
Proof.
  intros A S zero f n k s a Hf O. destruct (from_function_ok zero f k n Hf n 0 s a O) as (a' & E & O' & L & R); [lia|lia|]. exists a'. split; [exact E|]. split; [exact O'|]. split; [exact L|].
  intros i I. rewrite R. destruct (Z.leb_spec 0 i), (Z.ltb_spec i (0 + Z.of_nat n)); try lia. cbn [andb]. now rewrite Z.sub_0_r.
Qed.

Lemma C41_shifted_power_of_two_main :
  forall (A : Type) native (ops : native_ops A) (zero : A) j a amount,
    widths_ok native -> native_moves_ok native zero ops -> Forall (wf native (Nat.pow 2 j)) a ->
    exists a', adapter_shifted zero native ops a amount = Some a' /\ adapter_ok (Nat.pow 2 j) (length a) a' /\
      forall i, 0 <= i < Z.of_nat (Nat.pow 2 j) -> object zero a' i = object zero a (i + amount).
Proof.
  intros A native ops zero j a amount W M F. apply shifted_each; [|reflexivity|].
  - intros v I. rewrite Forall_forall in F. destruct (SimdArrayMain.C05_shifted_power_of_two_main A native ops zero j v amount W M (F v I)) as (r & E & R & T).
    exists r. split; [exact E|]. split; [|exact T]. exists native. auto.
  - intros v I. rewrite Forall_forall in F. exact (wf_len native W _ _ (F v I)).
Qed.

Lemma C41_where_main :
  forall (A : Type) (zero : A) native nassign (f : A -> A -> A) n a b (mask : sa bool),
    widths_ok native -> native_assign_ok native nassign -> (1 <= n)%nat -> length a = length b ->
    Forall (wf native n) a -> Forall (wf native n) b -> length (to_list mask) = n ->
    exists r, adapter_conditional_assign nassign native n f a mask b = Some r /\ Forall (wf native n) r /\ length r = length a /\
      forall i, 0 <= i < Z.of_nat n ->
        object zero r i = if znth false (to_list mask) i then map2 f (object zero a i) (object zero b i) else object zero a i.
Proof.
  intros A zero native nassign f n a b mask W NA. apply conditional_assign_ok; [exact W|]. intros x y l Wx Wy Wl.
  exact (SimdArrayMain.C15_masked_op_assign_main A native nassign f n x y l W NA Wx Wy Wl).
Qed.

Lemma C41_load_store_main :
  forall (A : Type) (zero : A) n k a mem (m : memory (list A)), adapter_ok n k a -> structs_at k n mem m ->
    (exists a', load_loop n 0 m mem a = Some a' /\ adapter_ok n k a' /\ forall i, 0 <= i < Z.of_nat n -> m (mem + i) = Some (object zero a' i)) /\
    (exists m', store_loop zero n 0 a mem m = Some m' /\ objects_written zero n a mem m m').
Proof.
  intros A zero n k a mem m O H. split.
  - destruct (load_loop_ok zero k n m mem n 0 a O) as (a' & E & O' & R); [lia|lia|now rewrite Z.add_0_r|]. exists a'. split; [exact E|]. split; [exact O'|].
    intros i I. apply R. lia.
  - apply store_ok with k; [exact O|]. intros z Z. destruct (H z Z) as (x & -> & _). discriminate.
Qed.

Lemma C41_load_homogeneous_main :
  forall (A : Type) (zero : A) n struct_size k mem (m : memory A),
    In n [1; 2; 4; 8]%nat -> (2 <= k <= 8)%nat -> (0 < struct_size)%nat -> Z.of_nat struct_size < 2 ^ 31 ->
    members_mapped n (members_read n k) mem (fun e => e * Z.of_nat struct_size) m ->
    exists a, load_homogeneous zero n struct_size k m mem = Some a /\ adapter_ok n k a /\
      forall e c, 0 <= e < Z.of_nat n -> (c < k)%nat -> m (mem + e * Z.of_nat struct_size + Z.of_nat c) = nth_error (object zero a e) c.
Proof.
  intros A zero n ss k mem m In_ K S0 S1 M.
  destruct (InterleaveMain.C26_read_main A zero n ss k mem (First 0) m In_ K S0 S1) as (vs & E & L & R).
  { unfold offsets_representable. split; [lia|]. assert (Z.of_nat n <= 8) by (cbn in In_; lia). nia. }
  { exact M. }
  unfold load_homogeneous. rewrite E. cbn [option_map]. exists (map Leaf vs). split; [reflexivity|]. split.
  - split; [now rewrite map_length|]. intros v I. apply in_map_iff in I. destruct I as (xs & <- & I). apply In_nth_error in I. destruct I as (c & I).
    exists (fun m => Nat.eqb m 1 || Nat.eqb m n). split.
    + split; [reflexivity|]. intros q Q. apply orb_prop in Q. destruct Q as [Q|Q]; apply Nat.eqb_eq in Q; subst q; [exists 0%nat; reflexivity|].
      cbn in In_. destruct In_ as [<-|[<-|[<-|[<-|[]]]]]; [exists 0%nat|exists 1%nat|exists 2%nat|exists 3%nat]; reflexivity.
    + constructor; [rewrite Nat.eqb_refl; apply orb_true_r|]. apply (R c xs I).
  - intros e c He Hc. destruct (nth_error vs c) as [v|] eqn:Ev; [|apply nth_error_None in Ev; lia]. destruct (R c v Ev) as (Lv & Rv).
    pose proof (Rv (Z.to_nat e) ltac:(lia)) as Q. unfold member, struct_offset in Q. rewrite Z2Nat.id in Q by lia. rewrite Z.add_0_l in Q. rewrite Q.
    unfold object. rewrite map_map. erewrite map_nth_error by exact Ev. cbn [to_list]. unfold znth. rewrite Lv. destruct (Z.leb_spec 0 e), (Z.ltb_spec e (Z.of_nat n)); try lia. cbn [andb].
    apply nth_error_nth'. lia.
Qed.

Lemma C41_store_homogeneous_main :
  forall (A : Type) (zero : A) va n struct_size k a mem (m : memory A),
    In n [1; 2; 4; 8]%nat -> (2 <= k <= 8)%nat -> (k <= struct_size)%nat -> Z.of_nat struct_size < 2 ^ 31 ->
    adapter_ok n k a -> members_mapped n k mem (fun e => e * Z.of_nat struct_size) m ->
    exists m', store_homogeneous zero va n struct_size a mem m = Some m' /\
      (forall e c, 0 <= e < Z.of_nat n -> (c < k)%nat -> m' (mem + e * Z.of_nat struct_size + Z.of_nat c) = nth_error (object zero a e) c) /\
      (forall q, (forall e c, 0 <= e < Z.of_nat n -> (c < k)%nat -> q <> mem + e * Z.of_nat struct_size + Z.of_nat c) -> m' q = m q).
Proof.
  intros A zero va n ss k a mem m In_ K S0 S1 O M. destruct O as (La & Oa).
  assert (LL : forall v, In v (map to_list a) -> length v = n).
  { intros v I. apply in_map_iff in I. destruct I as (t & <- & I). destruct (Oa t I) as (nat_ & W & Wt). exact (wf_len nat_ W _ _ Wt). }
  destruct (InterleaveMain.C26_write_main A zero va n ss mem (First 0) (map to_list a) m In_) as (m' & E & R1 & R2); rewrite ?map_length, ?La; auto.
  { unfold offsets_representable. split; [lia|]. assert (Z.of_nat n <= 8) by (cbn in In_; lia). nia. }
  { exact Logic.I. }
  exists m'. split; [exact E|]. split.
  - intros e c He Hc. destruct (nth_error a c) as [t|] eqn:Et; [|apply nth_error_None in Et; lia].
    pose proof (R1 (Z.to_nat e) c (to_list t) ltac:(lia)) as Q. rewrite (map_nth_error _ _ _ Et) in Q. specialize (Q eq_refl). unfold member, struct_offset in Q. rewrite Z2Nat.id in Q by lia. rewrite Z.add_0_l in Q. rewrite Q.
    unfold object. rewrite (map_nth_error _ _ _ Et). pose proof (LL (to_list t)) as Lt. specialize (Lt (in_map to_list a t (nth_error_In a c Et))). unfold znth. rewrite Lt. destruct (Z.leb_spec 0 e), (Z.ltb_spec e (Z.of_nat n)); try lia. cbn [andb].
    apply nth_error_nth'. lia.
  - intros q Q. apply R2. intros e c He Hc. unfold member, struct_offset. rewrite map_length, La in Hc. rewrite Z.add_0_l. apply Q; lia.
Qed.

Lemma C41_load_homogeneous_layout_refuted_main :
  forall n struct_size k mem (layout : nat -> nat) c,
    In n [1; 2; 4; 8]%nat -> (2 <= k <= 8)%nat -> (0 < struct_size)%nat -> Z.of_nat struct_size < 2 ^ 31 ->
    (c < k)%nat -> layout c <> c ->
    exists (m : memory Z) a, load_homogeneous 0 n struct_size k m mem = Some a /\
      nth_error (object 0 a 0) c <> m (mem + Z.of_nat (layout c)).
Proof.
  intros n ss k mem layout c In_ K S0 S1 C NE. exists (fun q => Some q).
  destruct (C41_load_homogeneous_main Z 0 n ss k mem (fun q => Some q) In_ K S0 S1) as (a & E & O & R); [intros e i He Hi; discriminate|].
  exists a. split; [exact E|]. pose proof (R 0 c) as Q. rewrite Z.mul_0_l, Z.add_0_r in Q. rewrite <- Q; [|cbn in In_; lia|exact C]. intros X. injection X. lia.
Qed.

Lemma C42_dereference_main :
  forall (A : Type) (zero : A) native n k p, widths_ok native -> (1 <= n)%nat ->
    (forall m, structs_at k n p m ->
       exists a, from_iterator zero native n k m p = Some a /\ adapter_ok n k a /\ forall j, 0 <= j < Z.of_nat n -> m (p + j) = Some (object zero a j)) /\
    (forall m : memory A, (forall j, 0 <= j < Z.of_nat n -> m (p + j) <> None) ->
       exists v, from_iterator_vector zero native n m p = Some v /\ wf native n v /\ forall j, 0 <= j < Z.of_nat n -> m (p + j) = Some (znth zero (to_list v) j)).
Proof.
  intros A zero native n k p W N. split.
  - intros m H. now apply from_iterator_ok.
  - intros m H. destruct (GatherP.sequence_ok zero n (fun j => m (p + j)) H) as (r & E & L & R). unfold from_iterator_vector. rewrite E. cbn [obind].
    exists (generate native n (fun j => znth zero r j)). split; [reflexivity|]. split; [now apply generate_wf|]. intros j J. rewrite generate_list by auto. rewrite znth_tab by lia. now apply R.
Qed.

Lemma C42_write_main :
  forall (A : Type) (zero : A) native n k (st : iterators) m it p, widths_ok native -> (1 <= n)%nat -> st it = Some p ->
    (forall x, adapter_ok n k x -> structs_at k n p m ->
       exists r m', deref zero native n k st m it = Some r /\ ref_assign zero n st m r x = Some m' /\ objects_written zero n x p m m') /\
    (forall x i tmp, adapter_ok n k x -> structs_at k n (p + i * Z.of_nat n) m ->
       exists m', plus_assign zero native n k st m it i tmp x = Some m' /\ objects_written zero n x (p + i * Z.of_nat n) m m') /\
    (forall f, (forall d, adapter_ok n k d -> adapter_ok n k (f d)) -> structs_at k n p m ->
       exists d m', from_iterator zero native n k m p = Some d /\ arrow zero native n k f st m it = Some m' /\ objects_written zero n (f d) p m m').
Proof.
  intros A zero native n k st m it p W N E.
  assert (Q : forall q, structs_at k n q m -> forall z, 0 <= z < Z.of_nat n -> m (q + z) <> None).
  { intros q H z Z. destruct (H z Z) as (x & -> & _). discriminate. }
  split; [|split].
  - intros x O H. destruct (from_iterator_ok zero native W n k N m p H) as (d & Ed & _). destruct (store_ok zero n k x p m O (Q p H)) as (m' & Em & R).
    exists {| r_data := d; r_it := it |}, m'. unfold deref, ref_assign. rewrite E. cbn [obind]. rewrite Ed. cbn [obind r_it]. rewrite E. auto.
  - intros x i tmp O H. destruct (from_iterator_ok zero native W n k N m _ H) as (d & Ed & _). destruct (store_ok zero n k x _ m O (Q _ H)) as (m' & Em & R).
    exists m'. unfold plus_assign, deref, ref_assign, it_add. rewrite E. cbn [obind]. unfold mem_set. rewrite Z.eqb_refl. cbn [obind]. rewrite Ed. cbn [obind r_it]. rewrite Z.eqb_refl. auto.
  - intros f F H. destruct (from_iterator_ok zero native W n k N m p H) as (d & Ed & O & _). destruct (store_ok zero n k (f d) p m (F d O) (Q p H)) as (m' & Em & R).
    exists d, m'. unfold arrow. rewrite E. cbn [obind]. rewrite Ed. cbn [obind]. auto.
Qed.

Lemma C42_arrow_reads_main :
  forall (A : Type) (zero : A) native n k (st : iterators) m it p, widths_ok native -> (1 <= n)%nat -> st it = Some p -> structs_at k n p m ->
    exists m', arrow zero native n k (fun d => d) st m it = Some m' /\ forall q, m' q = m q.
Proof.
  intros A zero native n k st m it p W N E H. destruct (C42_write_main A zero native n k st m it p W N E) as (_ & _ & R).
  destruct (R (fun d => d) (fun d O => O) H) as (d & m' & Ed & Em & Rm). exists m'. split; [exact Em|]. intros q. rewrite Rm.
  destruct (from_iterator_ok zero native W n k N m p H) as (d' & Ed' & _ & Rd). rewrite Ed in Ed'. injection Ed' as <-.
  destruct (Z.leb_spec p q), (Z.ltb_spec q (p + Z.of_nat n)); cbn [andb]; auto. rewrite <- (Rd (q - p)) by lia. f_equal. lia.
Qed.

Lemma C42_subscript_assign_refuted_main :
  forall (A : Type) (zero : A) native n k (st : iterators) m it i tmp x, st tmp = None ->
    subscript_assign zero native n k st m it i tmp x = None.
Proof.
  intros A zero native n k st m it i tmp x T. unfold subscript_assign, subscript. destruct (st it) as [p|]; [|reflexivity]. cbn [obind].
  destruct (deref zero native n k _ m tmp) as [r|] eqn:E; [|reflexivity]. cbn [obind fst snd]. unfold deref, mem_set in E. rewrite Z.eqb_refl in E. cbn [obind] in E.
  destruct (from_iterator zero native n k m _); [|discriminate]. cbn [obind] in E. injection E as <-. unfold ref_assign. cbn [r_it]. rewrite Z.eqb_refl. reflexivity.
Qed.

Lemma C42_reference_moves_refuted_main :
  forall (A : Type) (zero : A) native n k (st : iterators) m it p x, widths_ok native -> (1 <= n)%nat -> st it = Some p ->
    adapter_ok n k x -> structs_at k n p m -> structs_at k n (p + Z.of_nat n) m ->
    exists r m', deref zero native n k st m it = Some r /\ ref_assign zero n (mem_set st it (it_increment n p)) m r x = Some m' /\
      objects_written zero n x (p + Z.of_nat n) m m'.
Proof.
  intros A zero native n k st m it p x W N E O H H'. destruct (from_iterator_ok zero native W n k N m p H) as (d & Ed & _).
  destruct (store_ok zero n k x (p + Z.of_nat n) m O) as (m' & Em & R). { intros z Z. destruct (H' z Z) as (y & -> & _). discriminate. }
  exists {| r_data := d; r_it := it |}, m'. unfold deref, ref_assign, it_increment. rewrite E. cbn [obind]. rewrite Ed. cbn [obind r_it]. unfold mem_set. rewrite Z.eqb_refl. auto.
Qed.

Lemma C42_arithmetic_main :
  forall n p i j, (1 <= n)%nat ->
    it_increment n (it_add n p i) = it_add n p (i + 1) /\ it_decrement n (it_add n p i) = it_add n p (i - 1) /\
    it_sub n (it_add n p i) j = it_add n p (i - j) /\
    it_distance n (it_add n p i) (it_add n p j) = i - j /\
    it_eq (it_add n p i) (it_add n p j) = (i =? j) /\ it_ne (it_add n p i) (it_add n p j) = negb (i =? j) /\
    it_lt n (it_add n p i) (it_add n p j) = (i <? j) /\ it_gt n (it_add n p i) (it_add n p j) = (j <? i).
Proof.
  intros n p i j N. unfold it_increment, it_decrement, it_sub, it_distance, it_eq, it_ne, it_eq, it_lt, it_gt, it_add. split; [lia|]. split; [lia|]. split; [lia|]. split.
  { replace (p + i * Z.of_nat n - (p + j * Z.of_nat n)) with ((i - j) * Z.of_nat n) by lia. apply Z.quot_mul. lia. }
  assert (E : (p + i * Z.of_nat n =? p + j * Z.of_nat n) = (i =? j)) by (destruct (Z.eqb_spec i j), (Z.eqb_spec (p + i * Z.of_nat n) (p + j * Z.of_nat n)); subst; auto; nia).
  rewrite E. split; [reflexivity|]. split; [reflexivity|].
  split; [destruct (Z.ltb_spec i j)|destruct (Z.ltb_spec j i)]; (apply Z.leb_le || apply Z.leb_gt); nia.
Qed.

Lemma C42_less_equal_refuted_main :
  forall n p i j, (2 <= n)%nat ->
    it_le n p p = false /\ it_ge n p p = false /\
    it_le n (it_add n p i) (it_add n p j) = it_lt n (it_add n p i) (it_add n p j) /\
    it_ge n (it_add n p i) (it_add n p j) = it_gt n (it_add n p i) (it_add n p j).
Proof.
  intros n p i j N. unfold it_le, it_ge, it_lt, it_gt, it_add. rewrite Z.sub_diag. destruct (Z.leb_spec (Z.of_nat n - 1) 0); [lia|]. split; [reflexivity|]. split; [reflexivity|].
  split; [destruct (Z.ltb_spec i j)|destruct (Z.ltb_spec j i)];
    match goal with |- (?a <=? ?d) = (?b <=? ?d) => destruct (Z.leb_spec a d), (Z.leb_spec b d); auto; nia end.
Qed.

Lemma C42_loop_main :
  forall (A : Type) (zero : A) native n k q m first, widths_ok native -> (1 <= n)%nat -> structs_at k (q * n) first m ->
    exists ds, iterate zero native n k it_ne q m first (first + Z.of_nat (q * n)) = Some ds /\ length ds = q /\
      forall c j, (c < q)%nat -> 0 <= j < Z.of_nat n ->
        adapter_ok n k (nth c ds []) /\ m (first + Z.of_nat c * Z.of_nat n + j) = Some (object zero (nth c ds []) j).
Proof.
  intros A zero native n k q m first W N H. apply iterate_ok; auto.
  - intros c Hc. unfold it_ne, it_eq. destruct (Z.eqb_spec (first + c * Z.of_nat n) (first + Z.of_nat (q * n))); [nia|reflexivity].
  - unfold it_ne, it_eq. replace (first + Z.of_nat q * Z.of_nat n) with (first + Z.of_nat (q * n)) by lia. now rewrite Z.eqb_refl.
Qed.

Lemma C42_loop_overrun_refuted_main :
  forall (A : Type) (zero : A) native n k m first last, (1 <= n)%nat -> (1 <= k)%nat ->
    (forall q, m q <> None <-> first <= q < last) -> first < last -> (last - first) mod Z.of_nat n <> 0 ->
    forall fuel, iterate zero native n k it_ne fuel m first last = None.
Proof.
  intros A zero native n k m first last N K M F D fuel. apply iterate_overrun with first; auto. lia.
Qed.

Lemma C42_loop_less_main :
  forall (A : Type) (zero : A) native n k m first size, widths_ok native -> (1 <= n)%nat -> structs_at k size first m ->
    exists ds, iterate zero native n k (it_lt n) (size / n) m first (first + Z.of_nat size) = Some ds /\ length ds = (size / n)%nat /\
      forall c j, (c < size / n)%nat -> 0 <= j < Z.of_nat n ->
        adapter_ok n k (nth c ds []) /\ m (first + Z.of_nat c * Z.of_nat n + j) = Some (object zero (nth c ds []) j).
Proof.
  intros A zero native n k m first size W N H. pose proof (Nat.div_mod size n ltac:(lia)) as D. pose proof (Nat.mod_upper_bound size n ltac:(lia)) as U.
  apply iterate_ok; auto.
  - intros c Hc. unfold it_lt. apply Z.leb_le. nia.
  - unfold it_lt. apply Z.leb_gt. nia.
  - intros j Hj. apply H. nia.
Qed.

Lemma C48_widths_main :
  forall native_size t N mt v, (forall e, native_size e <> 0%nat) -> simdize native_size t N mt = Some v ->
    scalar_of v = t /\ exists n, has_width n v /\ (N <> 0%nat -> n = N).
Proof.
  intros native_size t N mt v NS E. destruct (simdize_ok native_size NS t N mt v E) as (S & n & W & H & _). split; [exact S|]. eauto.
Qed.

Lemma C48_unchanged_main :
  forall native_size t N mt,
    (nothing_to_do t -> simdize native_size t N mt = Some (VPlain t)) /\
    (forall t', simdize native_size t N mt = Some (VPlain t') -> t' = t /\ nothing_to_do t).
Proof.
  intros native_size t N mt. split; [apply simdize_unchanged|]. intros t' E. split; [|exact (simdize_changed native_size t N mt _ E eq_refl)].
  pose proof (simdize_unchanged native_size t N mt (simdize_changed native_size t N mt _ E eq_refl)) as Q. congruence.
Qed.

Lemma C48_defined_main :
  forall native_size t N, N <> 0%nat -> no_iterator t -> exists v, simdize native_size t N None = Some v.
Proof.
  intros native_size t N HN H. apply simdize_defined; auto. exact I.
Qed.

Lemma C48_defined_refuted_main :
  forall native_size c d e args, (forall e, native_size e <> 0%nat) ->
    simdize native_size (TTemplate d (TArith e :: args)) 0 None <> None ->
    simdize native_size (TTemplate c [TTemplate d (TArith e :: args); TBool]) 0 None = None.
Proof.
  intros native_size c d e args NS D. rewrite (simdize_template native_size c). cbn [substitute]. destruct (simdize native_size (TTemplate d (TArith e :: args)) 0 None) as [v|] eqn:E; [|congruence]. cbn [obind].
  destruct (simdize_ok native_size NS _ _ _ _ E) as (_ & n & _ & _ & Z).
  assert (Sv : is_same v = false). { destruct (is_same v) eqn:Sv; [|reflexivity]. destruct (simdize_changed native_size _ _ _ _ E Sv) as ([] & _). }
  destruct (Z Sv) as (Q & NZ). cbn [Nat.eqb]. rewrite Q. destruct n as [|n]; [congruence|]. cbn [is_bool Nat.eqb simdize mask_type obind]. reflexivity.
Qed.
