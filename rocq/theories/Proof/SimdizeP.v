From Coq Require Import ZArith List Bool Lia.
From Verif.Spec Require Import Seq NativeSpec SimdizeSpec InterleaveSpec OperandSpec.
From Verif.Model Require Import SplitSize Mem SimdArray SimdArrayOps SseBuild Interleave Simdize.
From Verif.Proof Require Import SeqP SplitSizeP SimdArrayP SimdArrayOpsP BitScanP GatherP.
Import ListNotations.
Local Open Scope Z_scope.

Lemma map3_len {A B C D} (f : A -> B -> C -> D) : forall l1 l2 l3, length l1 = length l2 -> length l2 = length l3 -> length (map3 f l1 l2 l3) = length l1.
Proof. induction l1; intros [|? ?] [|? ?]; cbn; intros; try lia. f_equal. apply IHl1; lia. Qed.

Section Objects.
  Context {A : Type} (zero : A).
  Notation obj := (object zero).
  Definition member_ok (n : nat) (v : sa A) : Prop := exists native, widths_ok native /\ wf native n v.

  Lemma ok_cons n k v a : adapter_ok n (S k) (v :: a) <-> member_ok n v /\ adapter_ok n k a.
  Proof.
    unfold adapter_ok, member_ok. cbn [length In]. split.
    - intros (L & H). split; [apply H; now left|]. split; [lia|]. intros; apply H; now right.
    - intros (H0 & L & H). split; [lia|]. intros w [<-|I]; auto.
  Qed.
  Lemma ok_nil n : adapter_ok n 0 (@nil (sa A)).
  Proof. split; [reflexivity|]. intros v []. Qed.
  Lemma member_size n v : member_ok n v -> isize v = Z.of_nat n /\ length (to_list v) = n.
  Proof. intros (nat_ & W & H). split; [eapply wf_isz; eauto|eapply wf_len; eauto]. Qed.
  Lemma get_member n v i : member_ok n v -> 0 <= i < Z.of_nat n -> get zero v i = Some (znth zero (to_list v) i).
  Proof. intros (nat_ & W & H) I. eapply get_ok; eauto. Qed.
  Lemma set_member n v i y : member_ok n v -> 0 <= i < Z.of_nat n ->
    exists v', set_entry v i y = Some v' /\ member_ok n v' /\ forall z, znth zero (to_list v') z = if z =? i then y else znth zero (to_list v) z.
  Proof.
    intros M I. destruct (member_size n v M) as (E & _). destruct M as (nat_ & W & H). unfold set_entry. rewrite E.
    destruct (Z.leb_spec 0 i), (Z.ltb_spec i (Z.of_nat n)); try lia. cbn [andb].
    destruct (set_ok nat_ zero W n v i y H I) as (W' & R). exists (set v i y). split; [reflexivity|]. split; [exists nat_; auto|exact R].
  Qed.
  Lemma extract_ok n k a i : adapter_ok n k a -> 0 <= i < Z.of_nat n -> adapter_extract zero a i = Some (obj a i).
  Proof.
    revert a. induction k as [|k IH]; intros a O I.
    - destruct a; [reflexivity|destruct O; discriminate].
    - destruct a as [|v a]; [destruct O; discriminate|]. apply ok_cons in O. destruct O as (M & O). unfold adapter_extract. cbn [map sequence].
      rewrite (get_member n v i M I). unfold adapter_extract in IH. rewrite (IH a O I). reflexivity.
  Qed.
  Lemma assign_ok n k a i x : adapter_ok n k a -> length x = k -> 0 <= i < Z.of_nat n ->
    exists a', adapter_assign a i x = Some a' /\ adapter_ok n k a' /\ forall z, obj a' z = if z =? i then x else obj a z.
  Proof.
    revert a x. induction k as [|k IH]; intros a x O L I.
    - destruct a; [|destruct O; discriminate]. destruct x; [|discriminate]. exists []. split; [reflexivity|]. split; [exact O|]. intros z. destruct (z =? i); reflexivity.
    - destruct a as [|v a]; [destruct O; discriminate|]. destruct x as [|y x]; [discriminate|]. apply ok_cons in O. destruct O as (M & O).
      destruct (set_member n v i y M I) as (v' & E & M' & R). destruct (IH a x O ltac:(cbn in L; lia) I) as (a' & E' & O' & R').
      exists (v' :: a'). unfold adapter_assign in *. cbn [map2 sequence]. rewrite E, E'. split; [reflexivity|]. split; [now apply ok_cons|].
      intros z. unfold object in *. cbn [map]. rewrite R, R'. destruct (z =? i); reflexivity.
  Qed.
  Lemma object_length a i : length (obj a i) = length a.
  Proof. apply map_length. Qed.
  (** member-wise a\[i\] = b\[j\] *)
  Lemma move_ok n k a b i j : adapter_ok n k a -> adapter_ok n k b -> 0 <= i < Z.of_nat n -> 0 <= j < Z.of_nat n ->
    sequence (map2 (fun va vb => y <-- get zero vb j; set_entry va i y) a b) = adapter_assign a i (obj b j).
  Proof.
    revert a b. induction k as [|k IH]; intros a b O P I J.
    - destruct a; [|destruct O; discriminate]. destruct b; [|destruct P; discriminate]. reflexivity.
    - destruct a as [|v a]; [destruct O; discriminate|]. destruct b as [|w b]; [destruct P; discriminate|].
      apply ok_cons in O. apply ok_cons in P. destruct O as (M & O), P as (M' & P). unfold adapter_assign, object in *. cbn [map2 map sequence].
      rewrite (get_member n w j M' J). cbn [obind]. rewrite (IH a b O P I J). reflexivity.
  Qed.
  Lemma map_diag {X Y} (f : X -> X -> Y) l : map2 f l l = map (fun x => f x x) l.
  Proof. induction l; cbn; congruence. Qed.

  Lemma swap_scalar_ok n k a i x : adapter_ok n k a -> length x = k -> 0 <= i < Z.of_nat n ->
    exists a', swap_scalar zero a i x = Some (a', obj a i) /\ adapter_ok n k a' /\ forall z, obj a' z = if z =? i then x else obj a z.
  Proof.
    intros O L I. unfold swap_scalar. rewrite (extract_ok n k a i O I). cbn [obind]. destruct (assign_ok n k a i x O L I) as (a' & E & R).
    rewrite E. cbn [obind]. eauto.
  Qed.
  Lemma swap_lanes_ok n k a i b j : adapter_ok n k a -> adapter_ok n k b -> 0 <= i < Z.of_nat n -> 0 <= j < Z.of_nat n ->
    exists a' b', swap_lanes zero a i b j = Some (a', b') /\ adapter_ok n k a' /\ adapter_ok n k b' /\
      (forall z, obj a' z = if z =? i then obj b j else obj a z) /\ (forall z, obj b' z = if z =? j then obj a i else obj b z).
  Proof.
    intros O P I J. unfold swap_lanes. rewrite (extract_ok n k a i O I). cbn [obind]. rewrite (move_ok n k a b i j O P I J).
    destruct (assign_ok n k a i (obj b j) O) as (a' & E & O' & R); [rewrite object_length; apply P|exact I|]. rewrite E. cbn [obind].
    destruct (assign_ok n k b j (obj a i) P) as (b' & E' & P' & R'); [rewrite object_length; apply O|exact J|]. rewrite E'. cbn [obind].
    exists a', b'. auto.
  Qed.
  Lemma swap_same_ok n k a i j : adapter_ok n k a -> 0 <= i < Z.of_nat n -> 0 <= j < Z.of_nat n ->
    exists a', swap_same zero a i j = Some a' /\ adapter_ok n k a' /\
      (forall z, obj a' z = if z =? i then obj a j else if z =? j then obj a i else obj a z).
  Proof.
    intros O I J. unfold swap_same. rewrite (extract_ok n k a i O I). cbn [obind].
    rewrite <- (map_diag (fun va vb => y <-- get zero vb j; set_entry va i y) a), (move_ok n k a a i j O O I J).
    destruct (assign_ok n k a i (obj a j) O) as (a' & E & O' & R); [rewrite object_length; apply O|exact I|]. rewrite E. cbn [obind].
    destruct (assign_ok n k a' j (obj a i) O') as (b' & E' & P' & R'); [rewrite object_length; apply O|exact J|]. rewrite E'.
    exists b'. split; [reflexivity|]. split; [exact P'|]. intros z. rewrite R', R.
    destruct (Z.eqb_spec z i), (Z.eqb_spec z j); subst; auto.
  Qed.
  Lemma broadcast_ok native n x : widths_ok native -> (1 <= n)%nat ->
    adapter_ok n (length x) (adapter_broadcast native n x) /\ forall z, 0 <= z < Z.of_nat n -> obj (adapter_broadcast native n x) z = x.
  Proof.
    intros W N. split.
    - split; [apply map_length|]. intros v I. apply in_map_iff in I. destruct I as (y & <- & _). exists native. split; [exact W|]. now apply generate_wf.
    - intros z Z. unfold object, adapter_broadcast. rewrite map_map. rewrite <- (map_id x) at 2. apply map_ext. intros y.
      rewrite generate_list by auto. now rewrite znth_tab by lia.
  Qed.

  Lemma shifted_each native (ops : native_ops A) n k a amount :
    (forall v, In v a -> exists r, shifted native ops zero v amount = Some r /\ member_ok n r /\ to_list r = shift_spec zero (to_list v) amount) ->
    length a = k -> (forall v, In v a -> length (to_list v) = n) ->
    exists a', adapter_shifted zero native ops a amount = Some a' /\ adapter_ok n k a' /\ forall z, 0 <= z < Z.of_nat n -> obj a' z = obj a (z + amount).
  Proof.
    revert k. induction a as [|v a IH]; intros k H L S.
    - exists []. split; [reflexivity|]. split; [cbn in L; subst; apply ok_nil|]. reflexivity.
    - destruct (H v (or_introl eq_refl)) as (r & E & M & T). destruct k as [|k]; [discriminate|].
      destruct (IH k) as (a' & E' & O & R); [intros; apply H; now right|cbn in L; lia|intros; apply S; now right|].
      exists (r :: a'). unfold adapter_shifted in *. cbn [map sequence]. rewrite E, E'. split; [reflexivity|]. split; [now apply ok_cons|].
      intros z Z. unfold object in *. cbn [map]. rewrite R by exact Z. f_equal. rewrite T. unfold shift_spec. rewrite S by now left. rewrite znth_tab by lia. reflexivity.
  Qed.

  Section Generator.
    Context {S : Type} (f : S -> Z -> S * list A) (k n : nat).
    Hypothesis Hf : forall s i, length (snd (f s i)) = k.
    Lemma from_function_ok : forall c i s a, adapter_ok n k a -> 0 <= i -> i + Z.of_nat c <= Z.of_nat n ->
      exists a', from_function_loop f c i s a = Some (fst (calls f c i s), a') /\ adapter_ok n k a' /\ length (snd (calls f c i s)) = c /\
        forall z, obj a' z = if (i <=? z) && (z <? i + Z.of_nat c) then znth [] (snd (calls f c i s)) (z - i) else obj a z.
    Proof.
      induction c as [|c IH]; intros i s a O I J.
      - exists a. cbn [from_function_loop calls fst snd]. split; [reflexivity|]. split; [exact O|]. split; [reflexivity|]. intros z.
        destruct (Z.leb_spec i z), (Z.ltb_spec z (i + Z.of_nat 0)); cbn [andb]; auto; lia.
      - cbn [from_function_loop calls]. pose proof (Hf s i) as L. destruct (f s i) as [s' x]. cbn [snd] in L.
        destruct (assign_ok n k a i x O L ltac:(lia)) as (a1 & E & O1 & R). rewrite E. cbn [obind].
        destruct (IH (i + 1) s' a1 O1 ltac:(lia) ltac:(lia)) as (a' & E' & O' & L' & R'). exists a'.
        destruct (calls f c (i + 1) s') as [s2 xs]. cbn [fst snd] in *. split; [exact E'|]. split; [exact O'|]. split; [cbn; lia|].
        intros z. rewrite R', R. destruct (Z.eqb_spec z i) as [->|NE].
        + destruct (Z.leb_spec (i + 1) i); [lia|]. cbn [andb]. rewrite Z.leb_refl. destruct (Z.ltb_spec i (i + Z.of_nat (Datatypes.S c))); [|lia].
          cbn [andb]. rewrite Z.sub_diag. reflexivity.
        + destruct (Z.leb_spec (i + 1) z), (Z.leb_spec i z), (Z.ltb_spec z (i + 1 + Z.of_nat c)), (Z.ltb_spec z (i + Z.of_nat (Datatypes.S c))); try lia; cbn [andb]; auto.
          replace (z - i) with (z - (i + 1) + 1) by lia. rewrite znth_cons by lia. reflexivity.
    Qed.
  End Generator.

  Lemma load_loop_ok k n (m : memory (list A)) mem : forall c i a, adapter_ok n k a -> 0 <= i -> i + Z.of_nat c <= Z.of_nat n ->
    structs_at k c (mem + i) m ->
    exists a', load_loop c i m mem a = Some a' /\ adapter_ok n k a' /\
      forall z, (i <= z < i + Z.of_nat c -> m (mem + z) = Some (obj a' z)) /\ (~ i <= z < i + Z.of_nat c -> obj a' z = obj a z).
  Proof.
    induction c as [|c IH]; intros i a O I J H.
    - exists a. cbn [load_loop]. split; [reflexivity|]. split; [exact O|]. intros z. split; [lia|auto].
    - cbn [load_loop]. destruct (H 0 ltac:(lia)) as (x & E & L). rewrite Z.add_0_r in E. rewrite E. cbn [obind].
      destruct (assign_ok n k a i x O L ltac:(lia)) as (a1 & E1 & O1 & R). rewrite E1. cbn [obind].
      destruct (IH (i + 1) a1 O1 ltac:(lia) ltac:(lia)) as (a' & E' & O' & R').
      { intros j Hj. destruct (H (j + 1) ltac:(lia)) as (y & E2 & L2). exists y. split; [|exact L2]. rewrite <- E2. f_equal. lia. }
      exists a'. split; [exact E'|]. split; [exact O'|]. intros z. destruct (R' z) as (R1 & R2). split; intros Hz.
      + destruct (Z.eq_dec z i) as [->|NE]; [|apply R1; lia]. rewrite R2 by lia. rewrite R, Z.eqb_refl. exact E.
      + rewrite R2 by lia. rewrite R. destruct (Z.eqb_spec z i); [lia|reflexivity].
  Qed.
  Lemma store_loop_ok k n a p : adapter_ok n k a -> forall c i (m : memory (list A)), 0 <= i -> i + Z.of_nat c <= Z.of_nat n ->
    (forall z, i <= z < i + Z.of_nat c -> m (p + z) <> None) ->
    exists m', store_loop zero c i a p m = Some m' /\
      forall q, m' q = if ((p + i <=? q) && (q <? p + i + Z.of_nat c))%bool then Some (obj a (q - p)) else m q.
  Proof.
    intros O. induction c as [|c IH]; intros i m I J H.
    - exists m. split; [reflexivity|]. intros q. destruct (Z.leb_spec (p + i) q), (Z.ltb_spec q (p + i + Z.of_nat 0)); cbn [andb]; auto; lia.
    - cbn [store_loop]. rewrite (extract_ok n k a i O) by lia. cbn [obind]. unfold mem_write. pose proof (H i ltac:(lia)) as HM. destruct (m (p + i)) eqn:E; [|congruence]. cbn [obind].
      destruct (IH (i + 1) (mem_set m (p + i) (obj a i)) ltac:(lia) ltac:(lia)) as (m' & E' & R).
      { intros z Hz. unfold mem_set. destruct (p + z =? p + i); [discriminate|]. apply H. lia. }
      exists m'. split; [exact E'|]. intros q. rewrite R. unfold mem_set. destruct (Z.eqb_spec q (p + i)) as [->|NE].
      + destruct (Z.leb_spec (p + (i + 1)) (p + i)), (Z.leb_spec (p + i) (p + i)), (Z.ltb_spec (p + i) (p + i + Z.of_nat (Datatypes.S c))); try lia. cbn [andb]. f_equal. f_equal. lia.
      + destruct (Z.leb_spec (p + (i + 1)) q), (Z.leb_spec (p + i) q), (Z.ltb_spec q (p + (i + 1) + Z.of_nat c)), (Z.ltb_spec q (p + i + Z.of_nat (Datatypes.S c))); try lia; cbn [andb]; auto.
  Qed.
  Lemma store_ok n k a p m : adapter_ok n k a -> (forall z, 0 <= z < Z.of_nat n -> m (p + z) <> None) ->
    exists m', store_loop zero n 0 a p m = Some m' /\ objects_written zero n a p m m'.
  Proof.
    intros O H. destruct (store_loop_ok k n a p O n 0 m ltac:(lia) ltac:(lia) ltac:(intros; apply H; lia)) as (m' & E & R).
    exists m'. split; [exact E|]. intros q. rewrite R, Z.add_0_r. reflexivity.
  Qed.

  Lemma conditional_assign_ok native nassign (f : A -> A -> A) n a b (c : sa bool) :
    widths_ok native ->
    (forall x y (l : sa bool), wf native n x -> wf native n y -> wf native n l ->
       exists r, masked_op_assign nassign f x y l = Some r /\ wf native n r /\
         to_list r = map3 (fun (b : bool) a c => if b then f a c else a) (to_list l) (to_list x) (to_list y)) ->
    (1 <= n)%nat -> length a = length b -> Forall (wf native n) a -> Forall (wf native n) b -> length (to_list c) = n ->
    exists r, adapter_conditional_assign nassign native n f a c b = Some r /\ Forall (wf native n) r /\ length r = length a /\
      forall z, 0 <= z < Z.of_nat n -> obj r z = if znth false (to_list c) z then map2 f (obj a z) (obj b z) else obj a z.
  Proof.
    intros W H N. revert b. induction a as [|v a IH]; intros b L Fa Fb Lc.
    - destruct b; [|discriminate]. exists []. split; [reflexivity|]. split; [constructor|]. split; [reflexivity|]. intros. destruct (znth _ _ _); reflexivity.
    - destruct b as [|w b]; [discriminate|]. inversion Fa as [|? ? V Fa']; subst. inversion Fb as [|? ? X Fb']; subst.
      destruct (IH b ltac:(cbn in L; lia) Fa' Fb' eq_refl) as (r & E & Fr & Lr & R).
      destruct (H v w (cast native false (length (to_list c)) c) V X) as (s & E1 & W1 & R1); [now apply cast_wf|].
      exists (s :: r). unfold adapter_conditional_assign in *. cbn [map2 sequence]. rewrite E1, E. split; [reflexivity|]. split; [now constructor|]. split; [cbn; lia|].
      intros z Hz. unfold object in *. cbn [map map2]. rewrite R by exact Hz.
      assert (Q : znth zero (to_list s) z = if znth false (to_list c) z then f (znth zero (to_list v) z) (znth zero (to_list w) z) else znth zero (to_list v) z).
      { pose proof (wf_len native W _ _ V) as LV. pose proof (wf_len native W _ _ X) as LX. rewrite R1, cast_list by auto.
        assert (LT : forall (l1 : list bool) (l2 l3 : list A) d, length l1 = length l2 -> length l2 = length l3 -> (d < length l1)%nat ->
                   nth d (map3 (fun (b : bool) a c => if b then f a c else a) l1 l2 l3) zero = if nth d l1 false then f (nth d l2 zero) (nth d l3 zero) else nth d l2 zero).
        { clear. induction l1; intros [|? l2] [|? l3] [|d]; cbn; intros; try lia; auto. apply IHl1; lia. }
        assert (LL : length (map3 (fun (b : bool) a c => if b then f a c else a) (tab (length (to_list c)) (znth false (to_list c))) (to_list v) (to_list w)) = length (to_list c)).
        { rewrite map3_len by (rewrite ?tab_length; congruence). apply tab_length. }
        unfold znth at 1. rewrite LL. destruct (Z.leb_spec 0 z), (Z.ltb_spec z (Z.of_nat (length (to_list c)))); try lia. cbn [andb].
        rewrite LT; [|rewrite tab_length; congruence|congruence|rewrite tab_length; lia].
        assert (T : nth (Z.to_nat z) (tab (length (to_list c)) (znth false (to_list c))) false = znth false (to_list c) z).
        { pose proof (znth_tab bool false (length (to_list c)) (znth false (to_list c)) z ltac:(lia)) as T. unfold znth at 1 in T. rewrite tab_length in T.
          destruct (Z.leb_spec 0 z), (Z.ltb_spec z (Z.of_nat (length (to_list c)))); try lia. exact T. }
        rewrite T. unfold znth. rewrite LV, LX. destruct (Z.leb_spec 0 z), (Z.ltb_spec z (Z.of_nat (length (to_list c)))); try lia. reflexivity. }
      rewrite Q. destruct (znth false (to_list c) z); reflexivity.
  Qed.

  (** ** Iterators *)
  Section Iter.
    Variable native : nat -> bool.
    Hypothesis W : widths_ok native.
    Variables n k : nat.
    Hypothesis N : (1 <= n)%nat.

    Lemma nth_seq (l : list A) : l = map (fun I => nth I l zero) (seq 0 (length l)).
    Proof. induction l as [|x l IH]; [reflexivity|]. cbn [length seq map nth]. f_equal. rewrite <- seq_shift, map_map. exact IH. Qed.
    Lemma sequence_map_ok {X Y} (f : X -> option Y) (g : X -> Y) l : (forall x, In x l -> f x = Some (g x)) -> sequence (map f l) = Some (map g l).
    Proof. induction l; cbn; intros H; [reflexivity|]. rewrite H by now left. rewrite IHl by (intros; apply H; now right). reflexivity. Qed.
    Lemma from_iterator_ok m p : structs_at k n p m ->
      exists a, from_iterator zero native n k m p = Some a /\ adapter_ok n k a /\ forall j, 0 <= j < Z.of_nat n -> m (p + j) = Some (obj a j).
    Proof.
      intros H. set (xs := fun j => match m (p + j) with Some x => x | None => [] end).
      assert (X : forall j, 0 <= j < Z.of_nat n -> m (p + j) = Some (xs j) /\ length (xs j) = k).
      { intros j Hj. unfold xs. destruct (H j Hj) as (x & -> & L). auto. }
      exists (map (fun I => generate native n (fun j => nth I (xs j) zero)) (seq 0 k)). split.
      - unfold from_iterator. apply sequence_map_ok. intros I HI. apply in_seq in HI.
        destruct (GatherP.sequence_ok zero n (fun j => x <-- m (p + j); nth_error x I)) as (r & E & L & R).
        { intros j Hj. destruct (X j Hj) as (-> & Lx). cbn [obind]. apply nth_error_Some. lia. }
        rewrite E. cbn [obind]. f_equal. unfold generate.
        assert (G : forall fuel c f g off, (forall z, 0 <= z < Z.of_nat c -> f (off + z) = g (off + z)) -> (1 <= c <= fuel)%nat -> generate_at (A:=A) native fuel c f off = generate_at native fuel c g off).
        { clear - W. induction fuel as [|fuel IH]; intros c f g off Hfg Hc; [reflexivity|]. cbn [generate_at]. destruct (native c) eqn:Nc.
          - f_equal. unfold tab. apply map_ext_in. intros i Hi. apply in_seq in Hi. apply Hfg. lia.
          - pose proof (not_native_ge2 native W c ltac:(lia) Nc) as H2. destruct (right_left c H2). f_equal; apply IH; intros; try lia.
            + apply Hfg. lia.
            + rewrite <- Z.add_assoc. apply Hfg. lia. }
        apply G; [|lia]. intros z Hz. cbn [Z.add]. pose proof (R z Hz) as Q. destruct (X z Hz) as (Em & Lx). rewrite Em in Q. cbn [obind] in Q.
        rewrite (nth_error_nth' (xs z) zero) in Q by lia. congruence.
      - split.
        + split; [now rewrite map_length, seq_length|]. intros v Hv. apply in_map_iff in Hv. destruct Hv as (I & <- & _). exists native. split; [exact W|]. now apply generate_wf.
        + intros j Hj. destruct (X j Hj) as (-> & L). f_equal. unfold object. rewrite map_map. rewrite <- L.
          rewrite (map_ext_in _ (fun I => nth I (xs j) zero)); [apply nth_seq|]. intros I _. rewrite generate_list by auto. now rewrite znth_tab by lia.
    Qed.
    Lemma from_iterator_none m p j : (1 <= k)%nat -> 0 <= j < Z.of_nat n -> m (p + j) = None -> from_iterator zero native n k m p = None.
    Proof.
      intros K Hj E. unfold from_iterator. destruct k as [|k']; [lia|]. cbn [seq map sequence].
      rewrite (GatherP.sequence_none n); [reflexivity|]. exists j. split; [exact Hj|]. now rewrite E.
    Qed.
    Lemma iterate_ok (goes_on : Z -> Z -> bool) : forall q m p last,
      (forall c, 0 <= c < Z.of_nat q -> goes_on (p + c * Z.of_nat n) last = true) -> goes_on (p + Z.of_nat q * Z.of_nat n) last = false ->
      structs_at k (q * n) p m ->
      exists ds, iterate zero native n k goes_on q m p last = Some ds /\ length ds = q /\ forall c j, (c < q)%nat -> 0 <= j < Z.of_nat n -> adapter_ok n k (nth c ds []) /\ m (p + Z.of_nat c * Z.of_nat n + j) = Some (obj (nth c ds []) j).
    Proof.
      induction q as [|q IH]; intros m p last G F H.
      - exists []. cbn [iterate]. rewrite Z.mul_0_l, Z.add_0_r in F. rewrite F. split; [reflexivity|]. split; [reflexivity|]. intros; lia.
      - cbn [iterate]. pose proof (G 0 ltac:(lia)) as G0. rewrite Z.mul_0_l, Z.add_0_r in G0. rewrite G0.
        destruct (from_iterator_ok m p) as (d & E & O & R); [intros j Hj; apply H; lia|]. rewrite E. cbn [obind].
        destruct (IH m (it_increment n p) last) as (ds & E' & L & R').
        + intros c Hc. unfold it_increment. specialize (G (c + 1) ltac:(lia)). rewrite <- G. f_equal. lia.
        + rewrite <- F. unfold it_increment. f_equal. lia.
        + intros j Hj. unfold it_increment. rewrite <- Z.add_assoc. apply H. lia.
        + exists (d :: ds). rewrite E'. split; [reflexivity|]. split; [cbn; lia|]. intros c j Hc Hj. destruct c as [|c].
          * cbn [nth]. split; [exact O|]. rewrite Z.mul_0_l, Z.add_0_r. now apply R.
          * cbn [nth]. destruct (R' c j ltac:(lia) Hj) as (O' & R2). split; [exact O'|]. rewrite <- R2. f_equal. unfold it_increment. lia.
    Qed.
    Lemma iterate_overrun m first last : (1 <= k)%nat -> (forall q, m q <> None <-> first <= q < last) ->
      forall fuel p, first <= p < last -> (last - p) mod Z.of_nat n <> 0 -> iterate zero native n k it_ne fuel m p last = None.
    Proof.
      intros K M. induction fuel as [|fuel IH]; intros p P D; cbn [iterate]; unfold it_ne at 1, it_eq; destruct (Z.eqb_spec p last); try lia; cbn [negb]; [reflexivity|].
      destruct (from_iterator zero native n k m p) eqn:E; [|reflexivity]. cbn [obind].
      destruct (Z.le_gt_cases (p + Z.of_nat n) last).
      - destruct (Z.eq_dec (p + Z.of_nat n) last) as [Q|Q]; [elim D; replace (last - p) with (Z.of_nat n) by lia; apply Z.mod_same; lia|].
        rewrite IH; [reflexivity|unfold it_increment; lia|]. unfold it_increment. replace (last - (p + Z.of_nat n)) with (last - p + (-1) * Z.of_nat n) by lia. rewrite Z.mod_add by lia. exact D.
      - rewrite (from_iterator_none m p (last - p)) in E; [discriminate|exact K|lia|].
        destruct (m (p + (last - p))) eqn:E1; [|reflexivity]. assert (m (p + (last - p)) <> None) as Q by congruence. apply M in Q. lia.
    Qed.
  End Iter.
End Objects.

(** ** Types *)
Section TypeInd.
  Variable P : ty -> Prop.
  Hypothesis Hb : P TBool.
  Hypothesis Ha : forall e, P (TArith e).
  Hypothesis Ho : forall c, P (TOther c).
  Hypothesis Ht : forall c args, Forall P args -> P (TTemplate c args).
  Hypothesis Hi : forall t, P t -> P (TIterator t).
  Fixpoint ty_rect' (t : ty) : P t :=
    match t with
    | TBool => Hb
    | TArith e => Ha e
    | TOther c => Ho c
    | TTemplate c args => Ht c args ((fix all l : Forall P l := match l with [] => Forall_nil P | x :: l' => Forall_cons x (ty_rect' x) (all l') end) args)
    | TIterator t => Hi t (ty_rect' t)
    end.
End TypeInd.

Section Types.
  Variable native_size : etype -> nat.
  Hypothesis NS : forall e, native_size e <> 0%nat.
  Notation sz := (simdize native_size).

  Definition substitute := fix substitute (args : list ty) (N : nat) (mt : option ty) : option (nat * list vty) :=
    match args with
    | [] => Some (N, [])
    | t :: rest =>
        v <-- sz t N mt;
        let newN := if Nat.eqb N 0 then size_or_0 v else N in
        let newMT := match mt with
                     | None => if Nat.eqb N newN then None else Some (if is_bool t then TArith Float else t)
                     | Some _ => mt
                     end in
        r <-- substitute rest newN newMT;
        Some (fst r, v :: snd r)
    end.
  Lemma simdize_template c args N mt : sz (TTemplate c args) N mt =
    (r <-- substitute args N mt;
     if forallb is_same (snd r) then Some (VPlain (TTemplate c args)) else Some (VAdapter (TTemplate c args) c (snd r) (fst r))).
  Proof. reflexivity. Qed.

  Lemma entries_pos N e : entries native_size N e <> 0%nat.
  Proof. unfold entries. destruct (Nat.eqb_spec N 0); [apply NS|assumption]. Qed.
  Definition good_type (t : ty) : Prop := forall N mt v, sz t N mt = Some v ->
    scalar_of v = t /\ exists n, has_width n v /\ (N <> 0%nat -> n = N) /\ (is_same v = false -> size_or_0 v = n /\ n <> 0%nat).
  Lemma width_same n v : is_same v = true -> has_width n v.
  Proof. destruct v; try discriminate. constructor. Qed.
  Lemma substitute_ok args : Forall good_type args -> forall N mt N' vs, substitute args N mt = Some (N', vs) ->
    map scalar_of vs = args /\ (N <> 0%nat -> N' = N) /\ (forall v, In v vs -> has_width N' v) /\ (forallb is_same vs = false -> N' <> 0%nat).
  Proof.
    induction 1 as [|t args G F IH]; intros N mt N' vs E.
    - cbn in E. injection E as <- <-. split; [reflexivity|]. split; [auto|]. split; [intros v []|discriminate].
    - cbn [substitute] in E. fold substitute in E. destruct (sz t N mt) as [v|] eqn:Ev; [|discriminate]. cbn [obind] in E.
      destruct (G N mt v Ev) as (S & n & Wd & Wn & Wz).
      destruct (substitute args _ _) as [[N1 vs1]|] eqn:Es; [|discriminate]. cbn [obind fst snd] in E. injection E as <- <-.
      destruct (IH _ _ _ _ Es) as (S' & Wn' & Wd' & Wz'). split; [cbn; congruence|]. split; [|split].
      + intros Hn. apply Nat.eqb_neq in Hn as Hb. rewrite Hb in Wn'. auto.
      + assert (K : is_same v = false -> n = N1).
        { intros Sv. destruct (Wz Sv) as (Q & Z). destruct (Nat.eqb_spec N 0) as [->|Hn].
          - rewrite Wn'; [congruence|]. congruence.
          - rewrite Wn' by exact Hn. auto. }
        intros w [<-|I]; [|auto]. destruct (is_same v) eqn:Sv; [now apply width_same|]. rewrite <- K; auto.
      + cbn [forallb]. destruct (is_same v) eqn:Sv; [exact Wz'|]. intros _. destruct (Wz eq_refl) as (Q & Z). destruct (Nat.eqb_spec N 0) as [->|Hn].
        * rewrite Wn'; congruence.
        * rewrite Wn' by exact Hn. exact Hn.
  Qed.
  Lemma simdize_ok t : good_type t.
  Proof.
    induction t as [|e|c|c args H|t IH] using ty_rect'; intros N mt v E.
    - cbn [simdize] in E. unfold mask_type in E. assert (exists e, v = VMask e (entries native_size N e)) as (e & ->) by (destruct mt as [[]|]; try discriminate E; injection E as <-; eauto).
      split; [reflexivity|]. exists (entries native_size N e). split; [constructor|]. split; [|intros _; split; [reflexivity|apply entries_pos]].
      intros Hn. unfold entries. apply Nat.eqb_neq in Hn. now rewrite Hn.
    - cbn [simdize] in E. injection E as <-. split; [reflexivity|]. exists (entries native_size N e). split; [constructor|]. split; [|intros _; split; [reflexivity|apply entries_pos]].
      intros Hn. unfold entries. apply Nat.eqb_neq in Hn. now rewrite Hn.
    - cbn [simdize] in E. injection E as <-. split; [reflexivity|]. exists N. split; [constructor|]. split; [auto|discriminate].
    - rewrite simdize_template in E. destruct (substitute args N mt) as [[N' vs]|] eqn:Es; [|discriminate]. cbn [obind fst snd] in E.
      destruct (substitute_ok args H _ _ _ _ Es) as (S & Wn & Wd & Wz). destruct (forallb is_same vs) eqn:Fs; injection E as <-.
      + split; [reflexivity|]. exists N. split; [constructor|]. split; [auto|discriminate].
      + cbn [scalar_of]. split; [congruence|]. exists N'. split; [rewrite <- S; now constructor|]. split; [exact Wn|]. intros _. split; [reflexivity|auto].
    - cbn [simdize] in E. destruct (sz t N None) as [w|] eqn:Ew; [|discriminate]. cbn [obind] in E. destruct (Nat.eqb_spec (size_or_0 w) 0) as [|Hz]; [discriminate|]. injection E as <-.
      destruct (IH _ _ _ Ew) as (S & n & Wd & Wn & Wz). assert (is_same w = false) as Sw by (destruct w; cbn in *; auto; congruence). destruct (Wz Sw) as (Q & Z).
      cbn [scalar_of]. split; [congruence|]. exists n. rewrite Q. split; [now constructor|]. split; [exact Wn|]. intros _. split; [reflexivity|exact Z].
  Qed.

  Lemma simdize_unchanged t : forall N mt, nothing_to_do t -> sz t N mt = Some (VPlain t).
  Proof.
    induction t as [|e|c|c args H|t IH] using ty_rect'; intros N mt D; try destruct D.
    - reflexivity.
    - rewrite simdize_template. assert (Q : forall l, Forall (fun t => forall N mt, nothing_to_do t -> sz t N mt = Some (VPlain t)) l ->
        (fix all l := match l with [] => True | x :: l' => nothing_to_do x /\ all l' end) l -> forall N mt, exists N', substitute l N mt = Some (N', map VPlain l)).
      { clear. induction 1 as [|x l Hx Hl IH]; intros D N mt; [exists N; reflexivity|]. destruct D as (D1 & D2). cbn [substitute]. fold substitute. rewrite Hx by exact D1. cbn [obind size_or_0].
        match goal with |- context [substitute l ?n ?m] => destruct (IH D2 n m) as (N' & E) end. rewrite E. cbn [obind fst snd]. exists N'. reflexivity. }
      destruct (Q args H D N mt) as (N' & E). rewrite E. cbn [obind fst snd]. replace (forallb is_same (map VPlain args)) with true; [reflexivity|].
      symmetry. apply forallb_forall. intros v Hv. apply in_map_iff in Hv. destruct Hv as (x & <- & _). reflexivity.
  Qed.
  Lemma simdize_changed t : forall N mt v, sz t N mt = Some v -> is_same v = true -> nothing_to_do t.
  Proof.
    induction t as [|e|c|c args H|t IH] using ty_rect'; intros N mt v E Sv.
    - cbn [simdize] in E. unfold mask_type in E. destruct mt as [[]|]; try discriminate E; injection E as <-; discriminate.
    - cbn [simdize] in E. injection E as <-. discriminate.
    - exact I.
    - rewrite simdize_template in E. destruct (substitute args N mt) as [[N' vs]|] eqn:Es; [|discriminate]. cbn [obind fst snd] in E.
      destruct (forallb is_same vs) eqn:Fs; [|injection E as <-; discriminate]. cbn [nothing_to_do]. clear E Sv v. revert N mt N' vs Es Fs.
      induction H as [|x l Hx Hl IHl]; intros N mt N' vs Es Fs; [exact I|]. cbn [substitute] in Es. fold substitute in Es. destruct (sz x N mt) as [v|] eqn:Ev; [|discriminate]. cbn [obind] in Es.
      destruct (substitute l _ _) as [[N1 vs1]|] eqn:Es1; [|discriminate]. cbn [obind fst snd] in Es. injection Es as <- <-. cbn [forallb] in Fs. apply andb_prop in Fs. destruct Fs as (F1 & F2).
      split; [now apply (Hx N mt v)|]. now apply (IHl _ _ _ _ Es1).
    - cbn [simdize] in E. destruct (sz t N None) as [w|]; [|discriminate]. cbn [obind] in E. destruct (Nat.eqb (size_or_0 w) 0); [discriminate|]. injection E as <-. discriminate.
  Qed.

  Definition arithmetic_or_void (mt : option ty) : Prop := match mt with None | Some (TArith _) => True | _ => False end.
  Lemma simdize_defined t : forall N mt, N <> 0%nat -> no_iterator t -> arithmetic_or_void mt -> exists v, sz t N mt = Some v.
  Proof.
    induction t as [|e|c|c args H|t IH] using ty_rect'; intros N mt HN D M.
    - cbn [simdize]. destruct mt as [[]|]; try destruct M; cbn; eauto.
    - cbn; eauto.
    - cbn; eauto.
    - rewrite simdize_template. assert (Q : exists r, substitute args N mt = Some r).
      { cbn [no_iterator] in D. clear c. induction H as [|x l Hx Hl IHl]; [cbn; eauto|]. destruct D as (D1 & D2). cbn [substitute]. fold substitute.
        destruct (Hx N mt HN D1 M) as (v & ->). cbn [obind]. apply Nat.eqb_neq in HN as HB. rewrite HB, Nat.eqb_refl. destruct (IHl D2) as (r & E).
        replace (match mt with Some _ => mt | None => None end) with mt by (destruct mt; reflexivity). rewrite E. cbn [obind]. eauto. }
      destruct Q as (r & ->). cbn [obind]. destruct (forallb _ _); eauto.
    - destruct D.
  Qed.
End Types.
