(** Proofs about Model/Interleave. *)
From Coq Require Import ZArith List Bool Lia.
From Verif.Spec Require Import Seq MemSpec InterleaveSpec.
From Verif.Model Require Import SimdArray SimdArrayOps Mem SseReg GatherScatter Interleave.
From Verif.Proof Require Import SeqP BitScanP SimdArrayOpsP AlgorithmsP.
Import ListNotations.
Local Open Scope Z_scope.

Lemma mapped_cells {A} (zero : A) (m : memory A) base n :
  (forall j, 0 <= j < Z.of_nat n -> m (base + j) <> None) -> exists old, length old = n /\ cells m base old.
Proof.
  intros H. exists (tab n (fun j => match m (base + j) with Some v => v | None => zero end)). split; [apply tab_length|].
  unfold cells. rewrite tab_length. revert base H. induction n as [|n IH]; intros base H; [reflexivity|].
  cbn [mem_load]. pose proof (H 0 ltac:(lia)) as H0. rewrite Z.add_0_r in H0. destruct (m base) as [x|] eqn:E; [|congruence].
  specialize (IH (base + 1)). rewrite IH by (intros j Hj; replace (base + 1 + j) with (base + (j + 1)) by lia; apply H; lia).
  cbn [option_map]. f_equal. rewrite (tab_S n). f_equal; [now rewrite Z.add_0_r, E|]. apply tab_ext. intros i Hi.
  replace (base + 1 + i) with (base + (i + 1)) by lia. reflexivity.
Qed.

(** ** A list of block stores *)
Definition blk {A} (p : Z * list A) (a : Z) : Prop := fst p <= a < fst p + Z.of_nat (length (snd p)).
Definition apart {A} (p q : Z * list A) : Prop := forall a, blk p a -> blk q a -> False.

Lemma stores_ok {A} (zero : A) (l : list (Z * list A)) : forall (m : memory A),
  (forall p a, In p l -> blk p a -> m a <> None) -> ForallOrdPairs apart l ->
  exists m', stores l m = Some m' /\ (forall p, In p l -> holds m' (fst p) (snd p)) /\ (forall a, (forall p, In p l -> ~ blk p a) -> m' a = m a).
Proof.
  induction l as [|[b xs] l IH]; intros m Hm D.
  - exists m. split; [reflexivity|]. split; [intros p []|auto].
  - inversion D as [|? ? D1 D2]; subst.
    destruct (mapped_cells zero m b (length xs)) as (old & Lo & Co).
    { intros j Hj. apply (Hm (b, xs)); [now left|]. unfold blk. cbn. lia. }
    destruct (store_overwrites m b old xs Co (eq_sym Lo)) as (m1 & E1 & O1). apply overwritten_replaced in O1. destruct O1 as [O1 O2].
    destruct (IH m1) as (m' & E2 & H1 & H2); [|exact D2|].
    { intros p a Hp Ha. destruct (Z_lt_dec a b); [rewrite O2 by lia; apply (Hm p); [now right|exact Ha]|].
      destruct (Z_le_dec (b + Z.of_nat (length xs)) a); [rewrite O2 by lia; apply (Hm p); [now right|exact Ha]|].
      exfalso. rewrite Forall_forall in D1. apply (D1 p Hp a); [unfold blk; cbn; lia|exact Ha]. }
    exists m'. cbn [stores]. rewrite E1. cbn [obind]. split; [exact E2|]. split.
    + intros p [<-|Hp]; [|now apply H1]. cbn [fst snd]. intros j Hj. rewrite H2; [now apply O1|]. intros q Hq Bq.
      rewrite Forall_forall in D1. apply (D1 q Hq (b + Z.of_nat j)); [unfold blk; cbn; lia|exact Bq].
    + intros a Ha. rewrite H2 by (intros q Hq; apply Ha; now right). apply O2. specialize (Ha (b, xs) (or_introl eq_refl)). unfold blk in Ha. cbn in Ha. lia.
Qed.
Lemma stores_app {A} (l1 l2 : list (Z * list A)) m : stores (l1 ++ l2) m = (m' <-- stores l1 m; stores l2 m').
Proof.
  revert m. induction l1 as [|[a xs] l1 IH]; intros m; [reflexivity|]. cbn [app stores]. destruct (mem_store m a xs) as [m1|]; [|reflexivity]. cbn [obind]. apply IH.
Qed.
Lemma mem_store_app {A} (xs ys : list A) : forall m a, mem_store m a (xs ++ ys) = (m' <-- mem_store m a xs; mem_store m' (a + Z.of_nat (length xs)) ys).
Proof.
  induction xs as [|x xs IH]; intros m a.
  - cbn [app mem_store obind length]. now rewrite Z.add_0_r.
  - cbn [app mem_store length]. destruct (mem_write m a x) as [m1|]; [|reflexivity]. rewrite IH. destruct (mem_store m1 (a + 1) xs) as [m2|]; [|reflexivity]. cbn [obind].
    f_equal. lia.
Qed.
Lemma stores_split {A} a (xs ys : list A) l m : stores ((a, xs ++ ys) :: l) m = stores ((a, xs) :: (a + Z.of_nat (length xs), ys) :: l) m.
Proof.
  cbn [stores]. rewrite mem_store_app. destruct (mem_store m a xs) as [m1|]; [|reflexivity]. cbn [obind]. reflexivity.
Qed.
Lemma maskmove_3 {A} (m : memory A) a x y z w : maskmove m a [x; y; z; w] [true; true; true; false] = mem_store m a [x; y; z].
Proof.
  cbn [maskmove mem_store]. destruct (mem_write m a x) as [m1|]; [|reflexivity]. cbn [obind]. destruct (mem_write m1 (a + 1) y) as [m2|]; [|reflexivity]. cbn [obind].
  destruct (mem_write m2 (a + 1 + 1) z); reflexivity.
Qed.
Lemma maskmoves_3 {A} (l : list (Z * list A)) : Forall (fun p => length (snd p) = 4%nat) l -> forall m,
  maskmoves l [true; true; true; false] m = stores (map (fun p => (fst p, firstn 3 (snd p))) l) m.
Proof.
  induction 1 as [|[a xs] l H1 H2 IH]; intros m; [reflexivity|]. cbn [maskmoves map stores fst snd] in *.
  destruct xs as [|x [|y [|z [|w [|]]]]]; try discriminate. rewrite maskmove_3. cbn [firstn]. destruct (mem_store m a [x; y; z]); [|reflexivity]. cbn [obind]. apply IH.
Qed.

(** ** Structs *)
Section Structs.
  Context {A : Type} (zero : A) (n : nat) (i : Z -> Z).
  Definition column (vs : list (list A)) (e : nat) : list A := map (fun v => nth e v zero) vs.
  Definition struct_block (data : Z) (vs : list (list A)) (e : nat) : Z * list A := (data + i (Z.of_nat e), column vs e).

  Lemma struct_stores data (vs : list (list A)) (es : list nat) (m : memory A) :
    Forall (fun v => length v = n) vs -> NoDup es -> (forall e, In e es <-> (e < n)%nat) ->
    disjoint_structs n (length vs) i -> members_mapped n (length vs) data i m ->
    exists m', stores (map (struct_block data vs) es) m = Some m' /\ structs_written n data i vs m m'.
  Proof.
    intros L ND IN D M. destruct (stores_ok zero (map (struct_block data vs) es) m) as (m' & E & H1 & H2).
    - intros p a Hp Ha. apply in_map_iff in Hp. destruct Hp as (e & <- & He). unfold blk, struct_block, column in Ha. cbn [fst snd] in Ha.
      rewrite map_length in Ha. apply IN in He. specialize (M e (Z.to_nat (a - (data + i (Z.of_nat e)))) He ltac:(lia)). unfold member in M.
      now replace (data + i (Z.of_nat e) + Z.of_nat (Z.to_nat (a - (data + i (Z.of_nat e))))) with a in M by lia.
    - clear M. assert (IN' : forall e, In e es -> (e < n)%nat) by (intros; now apply IN). clear IN. induction ND as [|e es N ND IH]; [constructor|]. cbn [map]. constructor.
      + apply Forall_forall. intros p Hp. apply in_map_iff in Hp. destruct Hp as (e' & <- & He'). intros a H1 H2. unfold blk, struct_block, column in H1, H2.
        cbn [fst snd] in H1, H2. rewrite map_length in H1, H2. assert (e <> e') by congruence. pose proof (D e e' (IN' e (or_introl eq_refl)) (IN' e' (or_intror He')) ltac:(auto)). lia.
      + apply IH. intros x Hx. apply IN'. now right.
    - exists m'. split; [exact E|]. split.
      + intros e c v He Hc. assert (Hp : In (struct_block data vs e) (map (struct_block data vs) es)) by (apply in_map, IN, He).
        specialize (H1 _ Hp c). cbn [fst snd struct_block] in H1. unfold column in H1. rewrite map_length in H1.
        assert (Hc' : (c < length vs)%nat) by (apply nth_error_Some; congruence). specialize (H1 Hc'). rewrite nth_error_map, Hc in H1. cbn [option_map] in H1.
        unfold member. rewrite H1. symmetry. apply nth_error_nth'. rewrite Forall_forall in L. rewrite (L v); [exact He|]. eapply nth_error_In; eauto.
      + intros a Ha. apply H2. intros p Hp Bp. apply in_map_iff in Hp. destruct Hp as (e & <- & He). apply IN in He. unfold blk, struct_block, column in Bp.
        cbn [fst snd] in Bp. rewrite map_length in Bp. apply (Ha e (Z.to_nat (a - (data + i (Z.of_nat e)))) He); [lia|]. unfold member. lia.
  Qed.

  Lemma written_mapped data (vs : list (list A)) (m m' : memory A) : Forall (fun v => length v = n) vs -> structs_written n data i vs m m' -> forall a, m a <> None -> m' a <> None.
  Proof.
    intros L [W1 W2] a Ha.
    destruct (existsb (fun e => existsb (fun c => a =? member data i e c) (seq 0 (length vs))) (seq 0 n)) eqn:Q.
    - apply existsb_exists in Q. destruct Q as (e & He & Q). apply existsb_exists in Q. destruct Q as (c & Hc & Q). apply Z.eqb_eq in Q. subst a.
      apply in_seq in He, Hc. destruct (nth_error vs c) as [v|] eqn:Ev; [|apply nth_error_None in Ev; lia]. rewrite (W1 e c v) by (auto; lia).
      apply nth_error_Some. rewrite Forall_forall in L. rewrite (L v); [lia|]. eapply nth_error_In; eauto.
    - rewrite W2; [exact Ha|]. intros e c He Hc Eq. assert (X : existsb (fun e => existsb (fun c => a =? member data i e c) (seq 0 (length vs))) (seq 0 n) = true).
      { apply existsb_exists. exists e. split; [apply in_seq; lia|]. apply existsb_exists. exists c. split; [apply in_seq; lia|]. now apply Z.eqb_eq. }
      congruence.
  Qed.
  (** writing the first k1 members and then the next ones *)
  Lemma written_app data (vs1 vs2 : list (list A)) (m m1 m2 : memory A) :
    disjoint_structs n (length vs1 + length vs2) i ->
    structs_written n data i vs1 m m1 -> structs_written n (data + Z.of_nat (length vs1)) i vs2 m1 m2 -> structs_written n data i (vs1 ++ vs2) m m2.
  Proof.
    intros D [W1 W2] [W3 W4]. split.
    - intros e c v He Hc. destruct (Nat.lt_ge_cases c (length vs1)) as [Q|Q].
      + rewrite nth_error_app1 in Hc by auto. rewrite W4; [now apply W1|]. intros e' c' He' Hc' Eq. unfold member in Eq.
        destruct (Nat.eq_dec e e') as [->|N]; [lia|]. pose proof (D e e' He He' N). lia.
      + rewrite nth_error_app2 in Hc by auto. rewrite <- (W3 e _ v He Hc). unfold member. f_equal. lia.
    - intros a Ha. rewrite app_length in Ha. rewrite W4; [apply W2|].
      + intros e c He Hc. apply Ha; lia.
      + intros e c He Hc. intros ->. apply (Ha e (length vs1 + c)%nat He ltac:(lia)). unfold member. lia.
  Qed.
  Lemma disjoint_le k k' : (k <= k')%nat -> disjoint_structs n k' i -> disjoint_structs n k i.
  Proof. intros H D e e' He He' N. specialize (D e e' He He' N). lia. Qed.
  Lemma mapped_le k k' data (m : memory A) : (k <= k')%nat -> members_mapped n k' data i m -> members_mapped n k data i m.
  Proof. intros H M e c He Hc. apply M; lia. Qed.

  (** a step that writes the vectors [vs] *)
  Definition writes (f : Z -> memory A -> option (memory A)) (vs : list (list A)) : Prop :=
    forall data m, disjoint_structs n (length vs) i -> members_mapped n (length vs) data i m ->
      exists m', f data m = Some m' /\ structs_written n data i vs m m'.
  Lemma writes_seq f g vs1 vs2 (k : Z) : Forall (fun v => length v = n) vs1 -> k = Z.of_nat (length vs1) -> writes f vs1 -> writes g vs2 ->
    writes (fun data m => m' <-- f data m; g (data + k) m') (vs1 ++ vs2).
  Proof.
    intros L -> F G data m D M. rewrite app_length in D, M.
    destruct (F data m) as (m1 & E1 & W1); [eapply disjoint_le; [|exact D]; lia|eapply mapped_le; [|exact M]; lia|].
    destruct (G (data + Z.of_nat (length vs1)) m1) as (m2 & E2 & W2); [eapply disjoint_le; [|exact D]; lia| |].
    - intros e c He Hc. apply (written_mapped data vs1 m m1 L W1). specialize (M e (length vs1 + c)%nat He ltac:(lia)). unfold member in *.
      now replace (data + Z.of_nat (length vs1) + i (Z.of_nat e) + Z.of_nat c) with (data + i (Z.of_nat e) + Z.of_nat (length vs1 + c)) by lia.
    - exists m2. rewrite E1. cbn [obind]. split; [exact E2|]. now apply written_app with m1.
  Qed.
  Lemma writes_stores vs es f : Forall (fun v => length v = n) vs -> NoDup es -> (forall e, In e es <-> (e < n)%nat) ->
    (forall data m, f data m = stores (map (struct_block data vs) es) m) -> writes f vs.
  Proof. intros L ND IN E data m D M. rewrite E. now apply struct_stores. Qed.
End Structs.

Fixpoint nodupb (l : list nat) : bool := match l with [] => true | x :: l' => negb (existsb (Nat.eqb x) l') && nodupb l' end.
Lemma nodup_dec (l : list nat) : nodupb l = true -> NoDup l.
Proof.
  induction l as [|x l IH]; intros H; [constructor|]. cbn [nodupb] in H. apply andb_true_iff in H. destruct H as [H1 H2]. constructor; [|now apply IH].
  intros HI. apply negb_true_iff in H1. assert (Q : existsb (Nat.eqb x) l = true) by (apply existsb_exists; exists x; split; [exact HI|apply Nat.eqb_refl]). congruence.
Qed.
Lemma in_upto n (l : list nat) : forallb (fun e => existsb (Nat.eqb e) l) (seq 0 n) = true -> forallb (fun e => Nat.ltb e n) l = true -> forall e, In e l <-> (e < n)%nat.
Proof.
  intros H1 H2 e. rewrite forallb_forall in H1, H2. split.
  - intros H. apply Nat.ltb_lt, H2, H.
  - intros H. specialize (H1 e ltac:(apply in_seq; lia)). apply existsb_exists in H1. destruct H1 as (x & Hx & E). apply Nat.eqb_eq in E. now subst.
Qed.
Ltac upto := (apply nodup_dec; reflexivity) || (apply in_upto; reflexivity).

(** v.scatter *)
Lemma scatter_writes {A} (zero : A) n i v : length v = n -> writes n i (fun data m => scatter_all zero v data i m) [v].
Proof.
  intros L. apply (writes_stores zero) with (es := seq 0 n); [now repeat constructor|apply seq_NoDup|intros e; rewrite in_seq; lia|].
  intros data m. unfold scatter_all. rewrite L. unfold tab.
  assert (G : forall es m, (forall e, In e es -> (e < n)%nat) -> act_list (scatter_lane zero v data i) (map Z.of_nat es) m = stores (map (struct_block zero i data [v]) es) m).
  { induction es as [|e es IH]; intros m0 H; [reflexivity|]. cbn [map act_list stores struct_block]. unfold scatter_lane at 1. unfold column. cbn [map mem_store].
    assert (Hz : znth zero v (Z.of_nat e) = nth e v zero).
    { unfold znth. rewrite Nat2Z.id. destruct (Z.leb_spec 0 (Z.of_nat e)), (Z.ltb_spec (Z.of_nat e) (Z.of_nat (length v))); try lia; [reflexivity|].
      specialize (H e (or_introl eq_refl)). lia. }
    rewrite Hz. destruct (mem_write m0 (data + i (Z.of_nat e)) (nth e v zero)) as [m1|]; [|reflexivity]. cbn [obind]. apply IH. intros x Hx. apply H. now right. }
  rewrite <- G by (intros e He; apply in_seq in He; lia). reflexivity.
Qed.

(** ** The shuffles *)
Definition kind_ok (n : Z) (kind : index_kind) (i : Z -> Z) : Prop :=
  match kind with Successive s => forall e, 0 <= e < n -> i e = i 0 + e * Z.of_nat s | AnyIndex => True end.

Ltac len8 v := destruct v as [|? [|? [|? [|? [|? [|? [|? [|? [|]]]]]]]]]; try discriminate.
Ltac len4 v := destruct v as [|? [|? [|? [|? [|]]]]]; try discriminate.
Ltac len2 v := destruct v as [|? [|? [|]]]; try discriminate.
Lemma cons_pair {A} (a b : Z) (x : list A) l l' : a = b -> l = l' -> (a, x) :: l = (b, x) :: l'.
Proof. now intros -> ->. Qed.
(** finish after the blocks of a contiguous store have been split *)
Ltac blocks_eq K :=
  rewrite ?(K 1), ?(K 2), ?(K 3), ?(K 4), ?(K 5), ?(K 6), ?(K 7) by lia;
  repeat (apply cons_pair; [cbn [length]; lia|]); reflexivity.

Fixpoint blocks_at {A} (a : Z) (bs : list (list A)) : list (Z * list A) :=
  match bs with [] => [] | b :: bs' => (a, b) :: blocks_at (a + Z.of_nat (length b)) bs' end.
Lemma mem_store_blocks {A} (bs : list (list A)) : forall a m, mem_store m a (concat bs) = stores (blocks_at a bs) m.
Proof.
  induction bs as [|b bs IH]; intros a m; [reflexivity|]. cbn [concat blocks_at stores]. rewrite mem_store_app. destruct (mem_store m a b); [|reflexivity]. cbn [obind]. apply IH.
Qed.
Lemma stores_blocks {A} (l : list (Z * list (list A))) : forall m,
  stores (map (fun p => (fst p, concat (snd p))) l) m = stores (flat_map (fun p => blocks_at (fst p) (snd p)) l) m.
Proof.
  induction l as [|[a bs] l IH]; intros m; [reflexivity|]. cbn [map flat_map stores fst snd]. rewrite stores_app, mem_store_blocks.
  destruct (stores (blocks_at a bs) m); [|reflexivity]. cbn [obind]. apply IH.
Qed.

Lemma i8_2 {A} (zero : A) va kind i v0 v1 : kind_ok 8 kind i -> length v0 = 8%nat -> length v1 = 8%nat ->
  writes 8 i (fun data => interleave8_2 zero va kind data i v0 v1) [v0; v1].
Proof.
  intros K L0 L1. apply (writes_stores zero) with (es := seq 0 8); [repeat constructor; assumption|upto|upto|].
  intros data m. unfold interleave8_2.
  assert (G : interleave8_2_any zero va data i v0 v1 m = stores (map (struct_block zero i data [v0; v1]) (seq 0 8)) m).
  { len8 v0. len8 v1. unfold interleave8_2_any. destruct (x86_64 va); reflexivity. }
  destruct kind as [|[|[|[|s]]]]; try exact G. clear G. cbn [kind_ok] in K. len8 v0. len8 v1. unfold interleave8_2_successive.
  rename a into x0, a0 into x1, a1 into x2, a2 into x3, a3 into x4, a4 into x5, a5 into x6, a6 into x7.
  rename a7 into y0, a8 into y1, a9 into y2, a10 into y3, a11 into y4, a12 into y5, a13 into y6, a14 into y7.
  transitivity (stores (map (fun p => (fst p, concat (snd p)))
    [(data + i 0, [[x0; y0]; [x1; y1]; [x2; y2]; [x3; y3]]); (data + i 4, [[x4; y4]; [x5; y5]; [x6; y6]; [x7; y7]])]) m); [reflexivity|].
  rewrite stores_blocks. f_equal. cbn [flat_map blocks_at fst snd app map seq struct_block]. unfold struct_block, column. cbn [map nth]. 
  cbn [Z.of_nat Pos.of_succ_nat Pos.succ]. blocks_eq K.
Qed.
Lemma i8_4 {A} (zero : A) kind i (v0 v1 v2 v3 : list A) : kind_ok 8 kind i -> length v0 = 8%nat -> length v1 = 8%nat -> length v2 = 8%nat -> length v3 = 8%nat ->
  writes 8 i (fun data => interleave8_4 kind data i v0 v1 v2 v3) [v0; v1; v2; v3].
Proof.
  intros K L0 L1 L2 L3. destruct (match kind with Successive 4 => true | _ => false end) eqn:Q.
  - destruct kind as [|[|[|[|[|[|s]]]]]]; try discriminate. cbn [kind_ok] in K.
    apply (writes_stores zero) with (es := seq 0 8); [repeat constructor; assumption|upto|upto|]. intros data m. unfold interleave8_4, interleave8_4_successive.
    len8 v0. len8 v1. len8 v2. len8 v3.
    match goal with |- context [struct_block _ _ _ [[?a0; ?a1; ?a2; ?a3; ?a4; ?a5; ?a6; ?a7]; [?b0; ?b1; ?b2; ?b3; ?b4; ?b5; ?b6; ?b7];
                                                [?c0; ?c1; ?c2; ?c3; ?c4; ?c5; ?c6; ?c7]; [?d0; ?d1; ?d2; ?d3; ?d4; ?d5; ?d6; ?d7]]] =>
      transitivity (stores (map (fun p => (fst p, concat (snd p)))
        [(data + i 0, [[a0; b0; c0; d0]; [a1; b1; c1; d1]]); (data + i 2, [[a2; b2; c2; d2]; [a3; b3; c3; d3]]);
         (data + i 4, [[a4; b4; c4; d4]; [a5; b5; c5; d5]]); (data + i 6, [[a6; b6; c6; d6]; [a7; b7; c7; d7]])]) m); [reflexivity|] end.
    rewrite stores_blocks. f_equal. cbn [flat_map blocks_at fst snd app map seq]. unfold struct_block, column. cbn [map nth].
    cbn [Z.of_nat Pos.of_succ_nat Pos.succ]. blocks_eq K.
  - apply (writes_stores zero) with (es := [0; 2; 4; 6; 1; 3; 5; 7]%nat); [repeat constructor; assumption|upto|upto|]. intros data m.
    assert (G : interleave8_4_any data i v0 v1 v2 v3 m = stores (map (struct_block zero i data [v0; v1; v2; v3]) [0; 2; 4; 6; 1; 3; 5; 7]%nat) m).
    { len8 v0. len8 v1. len8 v2. len8 v3. reflexivity. }
    unfold interleave8_4. destruct kind as [|[|[|[|[|[|s]]]]]]; try exact G. discriminate.
Qed.
Lemma i8_3 {A} (zero : A) va kind i v0 v1 v2 : kind_ok 8 kind i -> length v0 = 8%nat -> length v1 = 8%nat -> length v2 = 8%nat ->
  writes 8 i (fun data => interleave8_3 zero va kind data i v0 v1 v2) [v0; v1; v2].
Proof.
  intros K L0 L1 L2. unfold interleave8_3. destruct (maskmov_scatter va).
  - apply (writes_stores zero) with (es := seq 0 8); [repeat constructor; assumption|upto|upto|]. intros data m. len8 v0. len8 v1. len8 v2. cbv zeta.
    rewrite maskmoves_3 by (repeat constructor). reflexivity.
  - apply (writes_seq 8 i (fun data => interleave8_2 zero va kind data i v0 v1) (fun data => scatter_all zero v2 data i) [v0; v1] [v2]);
      [repeat constructor; assumption|reflexivity|now apply i8_2|now apply scatter_writes].
Qed.
Lemma interleave8_ok {A} (zero : A) va kind i vs : kind_ok 8 kind i -> Forall (fun v => length v = 8%nat) vs -> (2 <= length vs <= 8)%nat ->
  writes 8 i (fun data => interleave8 zero va kind data i vs) vs.
Proof.
  intros K F L.
  destruct vs as [|v0 [|v1 [|v2 [|v3 [|v4 [|v5 [|v6 [|v7 [|v8 vs]]]]]]]]]; cbn [length] in L; try lia; repeat (match goal with H : Forall _ (_ :: _) |- _ => inversion_clear H end);
    unfold interleave8.
  - now apply i8_2.
  - now apply i8_3.
  - now apply (i8_4 zero).
  - apply (writes_seq 8 i (fun data => interleave8_4 kind data i v0 v1 v2 v3) (fun data => scatter_all zero v4 data i) [v0; v1; v2; v3] [v4]);
      [repeat constructor; assumption|reflexivity|now apply (i8_4 zero)|now apply scatter_writes].
  - apply (writes_seq 8 i (fun data => interleave8_4 kind data i v0 v1 v2 v3) (fun data => interleave8_2 zero va kind data i v4 v5) [v0; v1; v2; v3] [v4; v5]);
      [repeat constructor; assumption|reflexivity|now apply (i8_4 zero)|now apply i8_2].
  - apply (writes_seq 8 i (fun data => interleave8_4 kind data i v0 v1 v2 v3) (fun data => interleave8_3 zero va kind data i v4 v5 v6) [v0; v1; v2; v3] [v4; v5; v6]);
      [repeat constructor; assumption|reflexivity|now apply (i8_4 zero)|now apply i8_3].
  - apply (writes_seq 8 i (fun data => interleave8_4 kind data i v0 v1 v2 v3) (fun data => interleave8_4 kind data i v4 v5 v6 v7) [v0; v1; v2; v3] [v4; v5; v6; v7]);
      [repeat constructor; assumption|reflexivity|now apply (i8_4 zero)|now apply (i8_4 zero)].
Qed.

Lemma i4_2_any {A} (zero : A) i (v0 v1 : list A) : length v0 = 4%nat -> length v1 = 4%nat ->
  writes 4 i (fun data => interleave4_2_any data i v0 v1) [v0; v1].
Proof.
  intros L0 L1. apply (writes_stores zero) with (es := seq 0 4); [repeat constructor; assumption|upto|upto|].
  intros data m. len4 v0. len4 v1. reflexivity.
Qed.
Lemma i4_2 {A} (zero : A) kind i (v0 v1 : list A) : kind_ok 4 kind i -> length v0 = 4%nat -> length v1 = 4%nat ->
  writes 4 i (fun data => interleave4_2 kind data i v0 v1) [v0; v1].
Proof.
  intros K L0 L1. pose proof (i4_2_any zero i v0 v1 L0 L1) as G. unfold interleave4_2. destruct kind as [|[|[|[|s]]]]; try exact G. clear G. cbn [kind_ok] in K.
  apply (writes_stores zero) with (es := seq 0 4); [repeat constructor; assumption|upto|upto|]. intros data m.
  len4 v0. len4 v1. unfold interleave4_2_successive.
  match goal with |- context [struct_block _ _ _ [[?a0; ?a1; ?a2; ?a3]; [?b0; ?b1; ?b2; ?b3]]] =>
    transitivity (stores (map (fun p => (fst p, concat (snd p))) [(data + i 0, [[a0; b0]; [a1; b1]]); (data + i 2, [[a2; b2]; [a3; b3]])]) m); [reflexivity|] end.
  rewrite stores_blocks. f_equal. cbn [flat_map blocks_at fst snd app map seq]. unfold struct_block, column. cbn [map nth].
  cbn [Z.of_nat Pos.of_succ_nat Pos.succ]. blocks_eq K.
Qed.
Lemma i4_4 {A} (zero : A) i (v0 v1 v2 v3 : list A) : length v0 = 4%nat -> length v1 = 4%nat -> length v2 = 4%nat -> length v3 = 4%nat ->
  writes 4 i (fun data => interleave4_4 data i v0 v1 v2 v3) [v0; v1; v2; v3].
Proof.
  intros L0 L1 L2 L3. apply (writes_stores zero) with (es := seq 0 4); [repeat constructor; assumption|upto|upto|].
  intros data m. len4 v0. len4 v1. len4 v2. len4 v3. reflexivity.
Qed.
Lemma i4_3 {A} (zero : A) va i v0 v1 v2 : length v0 = 4%nat -> length v1 = 4%nat -> length v2 = 4%nat ->
  writes 4 i (fun data => interleave4_3 zero va data i v0 v1 v2) [v0; v1; v2].
Proof.
  intros L0 L1 L2. unfold interleave4_3. cbv zeta. destruct (maskmov_scatter va).
  - apply (writes_stores zero) with (es := seq 0 4); [repeat constructor; assumption|upto|upto|]. intros data m. len4 v0. len4 v1. len4 v2.
    rewrite maskmoves_3 by (repeat constructor). reflexivity.
  - apply (writes_seq 4 i (fun data => interleave4_2_any data i v0 v1) (fun data => scatter_all zero v2 data i) [v0; v1] [v2]);
      [repeat constructor; assumption|reflexivity|now apply (i4_2_any zero)|now apply scatter_writes].
Qed.
Lemma interleave4_ok {A} (zero : A) va kind i vs : kind_ok 4 kind i -> Forall (fun v => length v = 4%nat) vs -> (2 <= length vs <= 8)%nat ->
  writes 4 i (fun data => interleave4 zero va kind data i vs) vs.
Proof.
  intros K F L.
  destruct vs as [|v0 [|v1 [|v2 [|v3 [|v4 [|v5 [|v6 [|v7 [|v8 vs]]]]]]]]]; cbn [length] in L; try lia; repeat (match goal with H : Forall _ (_ :: _) |- _ => inversion_clear H end);
    unfold interleave4.
  - now apply (i4_2 zero).
  - now apply i4_3.
  - now apply (i4_4 zero).
  - apply (writes_seq 4 i (fun data => interleave4_4 data i v0 v1 v2 v3) (fun data => scatter_all zero v4 data i) [v0; v1; v2; v3] [v4]);
      [repeat constructor; assumption|reflexivity|now apply (i4_4 zero)|now apply scatter_writes].
  - apply (writes_seq 4 i (fun data => interleave4_4 data i v0 v1 v2 v3) (fun data => interleave4_2 kind data i v4 v5) [v0; v1; v2; v3] [v4; v5]);
      [repeat constructor; assumption|reflexivity|now apply (i4_4 zero)|now apply (i4_2 zero)].
  - apply (writes_seq 4 i (fun data => interleave4_4 data i v0 v1 v2 v3) (fun data => interleave4_3 zero va data i v4 v5 v6) [v0; v1; v2; v3] [v4; v5; v6]);
      [repeat constructor; assumption|reflexivity|now apply (i4_4 zero)|now apply i4_3].
  - apply (writes_seq 4 i (fun data => interleave4_4 data i v0 v1 v2 v3) (fun data => interleave4_4 data i v4 v5 v6 v7) [v0; v1; v2; v3] [v4; v5; v6; v7]);
      [repeat constructor; assumption|reflexivity|now apply (i4_4 zero)|now apply (i4_4 zero)].
Qed.

Lemma i2_2 {A} (zero : A) i (v0 v1 : list A) : length v0 = 2%nat -> length v1 = 2%nat -> writes 2 i (fun data => interleave2_2 data i v0 v1) [v0; v1].
Proof.
  intros L0 L1. apply (writes_stores zero) with (es := seq 0 2); [repeat constructor; assumption|upto|upto|]. intros data m. len2 v0. len2 v1. reflexivity.
Qed.
Lemma i2_3 {A} (zero : A) i v0 v1 v2 : length v0 = 2%nat -> length v1 = 2%nat -> length v2 = 2%nat ->
  writes 2 i (fun data => interleave2_3 zero data i v0 v1 v2) [v0; v1; v2].
Proof.
  intros L0 L1 L2. apply (writes_seq 2 i (fun data => interleave2_2 data i v0 v1) (fun data => scatter_all zero v2 data i) [v0; v1] [v2]);
    [repeat constructor; assumption|reflexivity|now apply (i2_2 zero)|now apply scatter_writes].
Qed.
Lemma i2_4 {A} (zero : A) i (v0 v1 v2 v3 : list A) : length v0 = 2%nat -> length v1 = 2%nat -> length v2 = 2%nat -> length v3 = 2%nat ->
  writes 2 i (fun data => interleave2_4 data i v0 v1 v2 v3) [v0; v1; v2; v3].
Proof.
  intros L0 L1 L2 L3. apply (writes_seq 2 i (fun data => interleave2_2 data i v0 v1) (fun data => interleave2_2 data i v2 v3) [v0; v1] [v2; v3]);
    [repeat constructor; assumption|reflexivity|now apply (i2_2 zero)|now apply (i2_2 zero)].
Qed.
Lemma interleave2_ok {A} (zero : A) i vs : Forall (fun v => length v = 2%nat) vs -> (2 <= length vs <= 8)%nat ->
  writes 2 i (fun data => interleave2 zero data i vs) vs.
Proof.
  intros F L.
  destruct vs as [|v0 [|v1 [|v2 [|v3 [|v4 [|v5 [|v6 [|v7 [|v8 vs]]]]]]]]]; cbn [length] in L; try lia; repeat (match goal with H : Forall _ (_ :: _) |- _ => inversion_clear H end);
    unfold interleave2.
  - now apply (i2_2 zero).
  - now apply i2_3.
  - now apply (i2_4 zero).
  - apply (writes_seq 2 i (fun data => interleave2_4 data i v0 v1 v2 v3) (fun data => scatter_all zero v4 data i) [v0; v1; v2; v3] [v4]);
      [repeat constructor; assumption|reflexivity|now apply (i2_4 zero)|now apply scatter_writes].
  - apply (writes_seq 2 i (fun data => interleave2_4 data i v0 v1 v2 v3) (fun data => interleave2_2 data i v4 v5) [v0; v1; v2; v3] [v4; v5]);
      [repeat constructor; assumption|reflexivity|now apply (i2_4 zero)|now apply (i2_2 zero)].
  - apply (writes_seq 2 i (fun data => interleave2_4 data i v0 v1 v2 v3) (fun data => interleave2_3 zero data i v4 v5 v6) [v0; v1; v2; v3] [v4; v5; v6]);
      [repeat constructor; assumption|reflexivity|now apply (i2_4 zero)|now apply i2_3].
  - apply (writes_seq 2 i (fun data => interleave2_4 data i v0 v1 v2 v3) (fun data => interleave2_4 data i v4 v5 v6 v7) [v0; v1; v2; v3] [v4; v5; v6; v7]);
      [repeat constructor; assumption|reflexivity|now apply (i2_4 zero)|now apply (i2_4 zero)].
Qed.

Lemma i1_store {A} (zero : A) i vs : forall c data m, interleave1_upto4 zero data i c vs m = mem_store m (data + i 0 + c) (map (scalar_data zero) vs).
Proof.
  induction vs as [|v vs IH]; intros c data m; [reflexivity|]. cbn [interleave1_upto4 map mem_store].
  replace (data + (i 0 + c)) with (data + i 0 + c) by lia. destruct (mem_write m (data + i 0 + c) (scalar_data zero v)); [|reflexivity]. cbn [obind].
  rewrite IH. f_equal. lia.
Qed.
Lemma scalar_column {A} (zero : A) vs : Forall (fun v => length v = 1%nat) vs -> map (scalar_data zero) vs = column zero vs 0.
Proof. induction 1 as [|v vs H1 H2 IH]; [reflexivity|]. cbn [map column]. f_equal; [|exact IH]. destruct v as [|x [|]]; try discriminate. reflexivity. Qed.
Lemma i1_upto4 {A} (zero : A) i vs : Forall (fun v => length v = 1%nat) vs -> writes 1 i (fun data => interleave1_upto4 zero data i 0 vs) vs.
Proof.
  intros F. apply (writes_stores zero) with (es := [0%nat]); [exact F|upto|upto|]. intros data m. rewrite i1_store, scalar_column by exact F.
  cbn [map stores struct_block]. unfold struct_block. cbn [stores]. rewrite Z.add_0_r. cbn [Z.of_nat]. destruct (mem_store m (data + i 0) (column zero vs 0)); reflexivity.
Qed.
Lemma interleave1_ok {A} (zero : A) i vs : Forall (fun v => length v = 1%nat) vs -> (2 <= length vs <= 8)%nat ->
  writes 1 i (fun data => interleave1 zero data i vs) vs.
Proof.
  intros F L.
  destruct vs as [|v0 [|v1 [|v2 [|v3 [|v4 [|v5 [|v6 [|v7 [|v8 vs]]]]]]]]]; cbn [length] in L; try lia; unfold interleave1; try (now apply i1_upto4);
  assert (F1 : Forall (fun v => length v = 1%nat) [v0; v1; v2; v3]) by (repeat (match goal with H : Forall _ (_ :: _) |- _ => inversion_clear H end); repeat constructor; assumption);
  assert (F2 : Forall (fun v => length v = 1%nat) (skipn 4 [v0; v1; v2; v3])) by constructor.
  - assert (F3 : Forall (fun v => length v = 1%nat) [v4]) by (repeat (match goal with H : Forall _ (_ :: _) |- _ => inversion_clear H end); repeat constructor; assumption).
    pose proof (writes_seq 1 i (fun data => interleave1_upto4 zero data i 0 [v0; v1; v2; v3]) (fun data => interleave1_upto4 zero data i 0 [v4]) [v0; v1; v2; v3] [v4] 4 F1 eq_refl
      (i1_upto4 zero i _ F1) (i1_upto4 zero i _ F3)) as W. intros data m D M. destruct (W data m D M) as (m' & E & R). exists m'. split; [|exact R]. rewrite <- E.
    destruct (interleave1_upto4 zero data i 0 [v0; v1; v2; v3] m) as [m1|]; [|reflexivity]. cbn [obind interleave1_upto4].
    replace (data + 4 + (i 0 + 0)) with (data + (i 0 + 4)) by lia. destruct (mem_write m1 (data + (i 0 + 4)) (scalar_data zero v4)); reflexivity.
  - assert (F3 : Forall (fun v => length v = 1%nat) [v4; v5]) by (repeat (match goal with H : Forall _ (_ :: _) |- _ => inversion_clear H end); repeat constructor; assumption).
    exact (writes_seq 1 i (fun data => interleave1_upto4 zero data i 0 [v0; v1; v2; v3]) (fun data => interleave1_upto4 zero data i 0 [v4; v5]) [v0; v1; v2; v3] [v4; v5] 4 F1 eq_refl
      (i1_upto4 zero i _ F1) (i1_upto4 zero i _ F3)).
  - assert (F3 : Forall (fun v => length v = 1%nat) [v4; v5; v6]) by (repeat (match goal with H : Forall _ (_ :: _) |- _ => inversion_clear H end); repeat constructor; assumption).
    exact (writes_seq 1 i (fun data => interleave1_upto4 zero data i 0 [v0; v1; v2; v3]) (fun data => interleave1_upto4 zero data i 0 [v4; v5; v6]) [v0; v1; v2; v3] [v4; v5; v6] 4 F1 eq_refl
      (i1_upto4 zero i _ F1) (i1_upto4 zero i _ F3)).
  - assert (F3 : Forall (fun v => length v = 1%nat) [v4; v5; v6; v7]) by (repeat (match goal with H : Forall _ (_ :: _) |- _ => inversion_clear H end); repeat constructor; assumption).
    exact (writes_seq 1 i (fun data => interleave1_upto4 zero data i 0 [v0; v1; v2; v3]) (fun data => interleave1_upto4 zero data i 0 [v4; v5; v6; v7]) [v0; v1; v2; v3] [v4; v5; v6; v7] 4 F1 eq_refl
      (i1_upto4 zero i _ F1) (i1_upto4 zero i _ F3)).
Qed.

Lemma interleave_impl_ok {A} (zero : A) va n kind i vs : In n [1; 2; 4; 8]%nat -> kind_ok (Z.of_nat n) kind i -> Forall (fun v => length v = n) vs -> (2 <= length vs <= 8)%nat ->
  writes n i (fun data => interleave_impl zero va n kind data i vs) vs.
Proof.
  intros [<-|[<-|[<-|[<-|[]]]]] K F L; unfold interleave_impl.
  - now apply interleave1_ok.
  - now apply interleave2_ok.
  - now apply interleave4_ok.
  - now apply interleave8_ok.
Qed.

(** ** Reading *)
Definition rows {A} (n k : nat) (f : nat -> nat -> A) : list (list A) := map (fun c => map (fun e => f e c) (seq 0 n)) (seq 0 k).

Lemma mem_load_f {A} (m : memory A) (g : nat -> A) n : forall a s, (forall c, (c < n)%nat -> m (a + Z.of_nat c) = Some (g (s + c)%nat)) -> mem_load m a n = Some (map g (seq s n)).
Proof.
  induction n as [|n IH]; intros a s H; [reflexivity|]. cbn [mem_load seq map]. pose proof (H 0%nat ltac:(lia)) as H0. rewrite Z.add_0_r, Nat.add_0_r in H0. rewrite H0.
  rewrite (IH (a + 1) (S s)); [reflexivity|]. intros c Hc. replace (a + 1 + Z.of_nat c) with (a + Z.of_nat (S c)) by lia. rewrite H by lia. f_equal. f_equal. lia.
Qed.
Section Reads.
  Context {A : Type} (zero : A) (i : Z -> Z) (m : memory A).
  Definition available (n r : nat) (data : Z) (f : nat -> nat -> A) : Prop :=
    forall e c, (e < n)%nat -> (c < r)%nat -> m (member data i e c) = Some (f e c).
  Lemma load_row n r data f e cnt : available n r data f -> (cnt <= r)%nat -> (e < n)%nat -> mem_load m (data + i (Z.of_nat e)) cnt = Some (map (f e) (seq 0 cnt)).
  Proof. intros H Hc He. apply mem_load_f. intros c Hc'. apply H; lia. Qed.
  Lemma available_le n r r' data f : (r' <= r)%nat -> available n r data f -> available n r' data f.
  Proof. intros Hr H e c He Hc. apply H; lia. Qed.
  Lemma available_shift n r data f k : (k <= r)%nat -> available n r data f -> available n (r - k) (data + Z.of_nat k) (fun e c => f e (k + c)%nat).
  Proof.
    intros Hk H e c He Hc. rewrite <- (H e (k + c)%nat He ltac:(lia)). unfold member. f_equal. lia.
  Qed.
  Lemma rows_app n k1 k2 (f : nat -> nat -> A) : rows n k1 f ++ rows n k2 (fun e c => f e (k1 + c)%nat) = rows n (k1 + k2) f.
  Proof.
    unfold rows. rewrite seq_app, map_app. f_equal. cbn [Nat.add].
    assert (G : forall s, map (fun c => map (fun e => f e (k1 + c)%nat) (seq 0 n)) (seq s k2) = map (fun c => map (fun e => f e c) (seq 0 n)) (seq (k1 + s) k2)).
    { induction k2 as [|k2 IH]; intros s; [reflexivity|]. cbn [seq map]. f_equal. rewrite IH. do 2 f_equal. lia. }
    rewrite G. now rewrite Nat.add_0_r.
  Qed.

  Lemma gather_v_ok n data f : available n 1 data f -> gather_v zero n m data i = Some (map (fun e => f e 0%nat) (seq 0 n)).
  Proof.
    intros H. unfold gather_v, gather_all. rewrite repeat_length. unfold tab.
    assert (G : forall es, (forall e, In e es -> (e < n)%nat) -> sequence (map (fun e => m (data + i (Z.of_nat e))) es) = Some (map (fun e => f e 0%nat) es)).
    { induction es as [|e es IH]; intros Hes; [reflexivity|]. cbn [map sequence].
      pose proof (H e 0%nat (Hes e (or_introl eq_refl)) ltac:(lia)) as He. unfold member in He. rewrite Z.add_0_r in He. rewrite He.
      rewrite IH; [reflexivity|]. intros x Hx. apply Hes. now right. }
    apply G. intros e He. apply in_seq in He. lia.
  Qed.

  Lemma load8_ok r cnt data f : available 8 r data f -> (cnt <= r)%nat -> (cnt <= 8)%nat ->
    load8 zero cnt data i m = Some (map (fun e => map (f e) (seq 0 cnt) ++ repeat zero (8 - cnt)) (seq 0 8)).
  Proof.
    intros H Hc H8. unfold load8, load_part, tab.
    assert (G : forall es, (forall e, In e es -> (e < 8)%nat) -> sequence (map (fun e => option_map (fun l => l ++ repeat zero (8 - cnt)) (mem_load m (data + i (Z.of_nat e)) cnt)) es) =
      Some (map (fun e => map (f e) (seq 0 cnt) ++ repeat zero (8 - cnt)) es)).
    { induction es as [|e es IH]; intros Hes; [reflexivity|]. cbn [map sequence]. rewrite (load_row 8 r data f e cnt H Hc (Hes e (or_introl eq_refl))). cbn [option_map].
      rewrite IH; [reflexivity|]. intros x Hx. apply Hes. now right. }
    apply G. intros e He. apply in_seq in He. lia.
  Qed.
  Lemma load4_ok r cnt data f : available 4 r data f -> (cnt <= r)%nat -> (cnt <= 4)%nat ->
    load4 zero cnt data i m = Some (map (fun e => map (f e) (seq 0 cnt) ++ repeat zero (4 - cnt)) (seq 0 4)).
  Proof.
    intros H Hc H8. unfold load4, load_part, tab.
    assert (G : forall es, (forall e, In e es -> (e < 4)%nat) -> sequence (map (fun e => option_map (fun l => l ++ repeat zero (4 - cnt)) (mem_load m (data + i (Z.of_nat e)) cnt)) es) =
      Some (map (fun e => map (f e) (seq 0 cnt) ++ repeat zero (4 - cnt)) es)).
    { induction es as [|e es IH]; intros Hes; [reflexivity|]. cbn [map sequence]. rewrite (load_row 4 r data f e cnt H Hc (Hes e (or_introl eq_refl))). cbn [option_map].
      rewrite IH; [reflexivity|]. intros x Hx. apply Hes. now right. }
    apply G. intros e He. apply in_seq in He. lia.
  Qed.
  Lemma d8_2 data f : available 8 2 data f -> deinterleave8_2 zero data i m = Some (rows 8 2 f).
  Proof. intros H. unfold deinterleave8_2. rewrite (load8_ok 2 2 data f) by (auto; lia). reflexivity. Qed.
  Lemma d8_34 k data f : available 8 4 data f -> In k [3; 4]%nat -> deinterleave8_34 zero k data i m = Some (rows 8 k f).
  Proof. intros H Hk. unfold deinterleave8_34. rewrite (load8_ok 4 4 data f) by (auto; lia). destruct Hk as [<-|[<-|[]]]; reflexivity. Qed.
  Lemma d8_58 k data f : available 8 8 data f -> In k [5; 6; 7; 8]%nat -> deinterleave8_58 zero k data i m = Some (rows 8 k f).
  Proof. intros H Hk. unfold deinterleave8_58. rewrite (load8_ok 8 8 data f) by (auto; lia). destruct Hk as [<-|[<-|[<-|[<-|[]]]]]; reflexivity. Qed.
  Lemma d4_2 data f : available 4 2 data f -> deinterleave4_2 zero data i m = Some (rows 4 2 f).
  Proof. intros H. unfold deinterleave4_2. rewrite (load4_ok 2 2 data f) by (auto; lia). reflexivity. Qed.
  Lemma d4_34 k data f : available 4 4 data f -> In k [3; 4]%nat -> deinterleave4_34 zero k data i m = Some (rows 4 k f).
  Proof. intros H Hk. unfold deinterleave4_34. rewrite (load4_ok 4 4 data f) by (auto; lia). destruct Hk as [<-|[<-|[]]]; reflexivity. Qed.
  Lemma d2_2 data f : available 2 2 data f -> deinterleave2_2 data i m = Some (rows 2 2 f).
  Proof.
    intros H. unfold deinterleave2_2. pose proof (load_row 2 2 data f 0 2 H) as H0. pose proof (load_row 2 2 data f 1 2 H) as H1. cbn [Z.of_nat Pos.of_succ_nat] in H0, H1.
    rewrite H0, H1 by lia. reflexivity.
  Qed.
  Lemma d1_upto4 k data f : available 1 k data f -> deinterleave1_upto4 k data i m = Some (rows 1 k f).
  Proof.
    intros H. unfold deinterleave1_upto4, rows, tab.
    assert (G : forall cs, (forall c, In c cs -> (c < k)%nat) -> sequence (map (fun c => option_map (fun x => [x]) (m (data + (i 0 + Z.of_nat c)))) cs) =
      Some (map (fun c => map (fun e => f e c) (seq 0 1)) cs)).
    { induction cs as [|c cs IH]; intros Hcs; [reflexivity|]. cbn [map sequence seq]. pose proof (H 0%nat c ltac:(lia) (Hcs c (or_introl eq_refl))) as Hc. unfold member in Hc. cbn [Z.of_nat] in Hc.
      replace (data + (i 0 + Z.of_nat c)) with (data + i 0 + Z.of_nat c) by lia. rewrite Hc. cbn [option_map].
      rewrite IH; [reflexivity|]. intros x Hx. apply Hcs. now right. }
    apply G. intros e He. apply in_seq in He. lia.
  Qed.

  Lemma gather_at n r data f k : available n r data f -> (k < r)%nat -> gather_v zero n m (data + Z.of_nat k) i = Some (map (fun e => f e k) (seq 0 n)).
  Proof.
    intros H Hk. rewrite (gather_v_ok n (data + Z.of_nat k) (fun e c => f e (k + c)%nat)).
    - f_equal. apply map_ext. intros e. now rewrite Nat.add_0_r.
    - eapply available_le; [|apply available_shift; [|exact H]; lia]. lia.
  Qed.

  Theorem deinterleave_ok n k data f : In n [1; 2; 4; 8]%nat -> (2 <= k <= 8)%nat -> available n (members_read n k) data f ->
    deinterleave_impl zero n k data i m = Some (rows n k f).
  Proof.
    intros Hn Hk H.
    assert (Ks : In k [2; 3; 4; 5; 6; 7; 8]%nat) by (do 9 (destruct k as [|k]; [cbn; lia|]); lia).
    destruct Hn as [<-|[<-|[<-|[<-|[]]]]]; unfold deinterleave_impl.
    - assert (R : members_read 1 k = k) by reflexivity. rewrite R in H. destruct Ks as [<-|[<-|[<-|[<-|[<-|[<-|[<-|[]]]]]]]]; unfold deinterleave1; try (now apply d1_upto4).
      + rewrite (d1_upto4 4 data f) by (eapply available_le; [|exact H]; lia). cbn [obind]. pose proof (H 0%nat 4%nat ltac:(lia) ltac:(lia)) as Hc. unfold member in Hc.
        cbn [Z.of_nat] in Hc. replace (data + (i 0 + 4)) with (data + i 0 + 4) by lia. change (Z.pos (Pos.of_succ_nat 3)) with 4 in Hc. rewrite Hc. reflexivity.
      + rewrite (d1_upto4 4 data f) by (eapply available_le; [|exact H]; lia). cbn [obind].
        rewrite (d1_upto4 (6 - 4) (data + 4) (fun e c => f e (4 + c)%nat)) by (apply (available_shift 1 6 data f 4); [lia|exact H]). reflexivity.
      + rewrite (d1_upto4 4 data f) by (eapply available_le; [|exact H]; lia). cbn [obind].
        rewrite (d1_upto4 (7 - 4) (data + 4) (fun e c => f e (4 + c)%nat)) by (apply (available_shift 1 7 data f 4); [lia|exact H]). reflexivity.
      + rewrite (d1_upto4 4 data f) by (eapply available_le; [|exact H]; lia). cbn [obind].
        rewrite (d1_upto4 (8 - 4) (data + 4) (fun e c => f e (4 + c)%nat)) by (apply (available_shift 1 8 data f 4); [lia|exact H]). reflexivity.
    - assert (R : members_read 2 k = k) by reflexivity. rewrite R in H.
      assert (P : forall j, (j + 2 <= k)%nat -> deinterleave2_2 (data + Z.of_nat j) i m = Some (rows 2 2 (fun e c => f e (j + c)%nat))).
      { intros j Hj. apply d2_2. eapply available_le; [|apply available_shift; [|exact H]; lia]. lia. }
      assert (P0 : deinterleave2_2 data i m = Some (rows 2 2 f)) by (apply d2_2; eapply available_le; [|exact H]; lia).
      pose proof (P 2%nat) as P2. pose proof (P 4%nat) as P4. pose proof (P 6%nat) as P6.
      pose proof (gather_at 2 k data f 2 H) as G2. pose proof (gather_at 2 k data f 4 H) as G4. pose proof (gather_at 2 k data f 6 H) as G6.
      change (Z.of_nat 2) with 2 in *. change (Z.of_nat 4) with 4 in *. change (Z.of_nat 6) with 6 in *. clear P.
      destruct Ks as [<-|[<-|[<-|[<-|[<-|[<-|[<-|[]]]]]]]]; unfold deinterleave2;
        rewrite ?G2, ?G4, ?G6, ?P0, ?P2, ?P4, ?P6 by lia; cbn [obind]; reflexivity.
    - destruct (Nat.eq_dec k 2) as [->|N2]; [now apply d4_2|]. destruct (Nat.eq_dec k 3) as [->|N3]; [apply d4_34; [exact H|cbn; auto]|].
      destruct (Nat.eq_dec k 4) as [->|N4]; [apply d4_34; [exact H|cbn; auto]|].
      assert (R4 : (4 <= members_read 4 k)%nat /\ (k <= members_read 4 k)%nat) by (destruct Ks as [<-|[<-|[<-|[<-|[<-|[<-|[<-|[]]]]]]]]; try congruence; cbn; lia).
      pose proof (d4_34 4 data f (available_le 4 (members_read 4 k) 4 data f (proj1 R4) H) ltac:(cbn; auto)) as P0.
      pose proof (available_shift 4 (members_read 4 k) data f 4 (proj1 R4) H) as HS. change (Z.of_nat 4) with 4 in HS.
      pose proof (gather_at 4 _ data f 4 H) as G4. change (Z.of_nat 4) with 4 in G4.
      destruct Ks as [<-|[<-|[<-|[<-|[<-|[<-|[<-|[]]]]]]]]; try congruence; unfold deinterleave4; rewrite P0; cbn [obind]; cbn [members_read Nat.sub] in *.
      + rewrite G4 by lia. reflexivity.
      + rewrite (d4_2 (data + 4) _ HS). reflexivity.
      + rewrite (d4_34 3 (data + 4) _ HS) by (cbn; auto). reflexivity.
      + rewrite (d4_34 4 (data + 4) _ HS) by (cbn; auto). reflexivity.
    - destruct Ks as [<-|[<-|[<-|[<-|[<-|[<-|[<-|[]]]]]]]]; unfold deinterleave8; cbn [members_read] in H;
        [now apply d8_2|apply d8_34|apply d8_34|apply d8_58|apply d8_58|apply d8_58|apply d8_58]; auto; cbn; auto 10.
  Qed.
  Lemma rows_read n k data f : available n k data f -> structs_read n k data i m (rows n k f).
  Proof.
    intros H. split; [unfold rows; now rewrite map_length, seq_length|]. intros c v Hv. unfold rows in Hv.
    assert (Hc : (c < k)%nat). { assert (Q : nth_error (map (fun c => map (fun e => f e c) (seq 0 n)) (seq 0 k)) c <> None) by congruence. apply nth_error_Some in Q. now rewrite map_length, seq_length in Q. }
    rewrite nth_error_map, (nth_error_nth' _ 0%nat) in Hv by (now rewrite seq_length). rewrite seq_nth in Hv by exact Hc. cbn [option_map Nat.add] in Hv.
    injection Hv as <-. split; [now rewrite map_length, seq_length|]. intros e He. rewrite (H e c He Hc), nth_error_map, (nth_error_nth' _ 0%nat) by (now rewrite seq_length).
    now rewrite seq_nth.
  Qed.
End Reads.
