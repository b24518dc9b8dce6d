From Coq Require Import ZArith List Bool Lia.
From Verif.Spec Require Import Seq MemSpec.
From Verif.Model Require Import Mem SimdArray MemoryClass Malloc.
From Verif.Proof Require Import SeqP AlgorithmsP SimdArrayOpsP.
Import ListNotations.
Local Open Scope Z_scope.

(** * sizes *)
Lemma offset_small z : 0 <= z < 2 ^ 63 -> offset z = z.
Proof. intros H. unfold offset, size_t. rewrite Z.mod_small by lia. destruct (Z.ltb_spec z (2 ^ 63)); lia. Qed.
Lemma size_t_small z : 0 <= z < 2 ^ 64 -> size_t z = z.
Proof. intros H. unfold size_t. apply Z.mod_small. lia. Qed.

Lemma padded_pow2 k width size : width = (2 ^ k)%nat -> Z.of_nat width < 2 ^ 62 -> 0 <= size < 2 ^ 62 ->
  padded_size width size = Z.of_nat width * ((size + (Z.of_nat width - 1)) / Z.of_nat width).
Proof.
  intros Hk Hw Hs. assert (EW : Z.of_nat width = 2 ^ Z.of_nat k) by (rewrite Hk, Nat2Z.inj_pow; reflexivity).
  assert (P : 0 < 2 ^ Z.of_nat k) by (apply Z.pow_pos_nonneg; lia).
  unfold padded_size. rewrite (size_t_small (Z.of_nat width - 1)) by lia. rewrite EW.
  replace (2 ^ Z.of_nat k - 1) with (Z.ones (Z.of_nat k)) by (rewrite Z.ones_equiv; lia). rewrite Z.land_ones by lia.
  set (W := 2 ^ Z.of_nat k) in *. pose proof (Z.mod_pos_bound size W P) as MB. pose proof (Z.div_mod size W ltac:(lia)) as DM.
  destruct (Z.eqb_spec (size mod W) 0) as [E|E].
  - replace (size + Z.ones (Z.of_nat k)) with ((Z.ones (Z.of_nat k)) + (size / W) * W) by lia. rewrite Z.div_add by lia.
    rewrite Z.div_small by (rewrite Z.ones_equiv; fold W; lia). lia.
  - rewrite (size_t_small (W - size mod W)) by lia. rewrite size_t_small by lia.
    replace (size + Z.ones (Z.of_nat k)) with ((size mod W - 1) + (size / W + 1) * W) by (rewrite Z.ones_equiv; fold W; lia).
    rewrite Z.div_add by lia. rewrite (Z.div_small (size mod W - 1)) by lia. lia.
Qed.
Lemma padded_facts k width size : width = (2 ^ k)%nat -> Z.of_nat width < 2 ^ 62 -> 0 <= size < 2 ^ 62 ->
  padded_size width size = vectors_count width size * Z.of_nat width /\
  size <= padded_size width size < size + Z.of_nat width /\ 0 <= vectors_count width size /\ (1 <= size -> 1 <= vectors_count width size).
Proof.
  intros Hk Hw Hs. assert (P : 0 < Z.of_nat width) by (rewrite Hk, Nat2Z.inj_pow; apply Z.pow_pos_nonneg; lia).
  pose proof (padded_pow2 k width size Hk Hw Hs) as E. unfold vectors_count. rewrite E. set (W := Z.of_nat width) in *.
  rewrite (Z.mul_comm W), Z.div_mul by lia.
  pose proof (Z.div_mod (size + (W - 1)) W ltac:(lia)). pose proof (Z.mod_pos_bound (size + (W - 1)) W P).
  repeat split; try nia.

Qed.

(** * the vectors of an object *)
Definition vec {A} (width : nat) (xs : list A) (i : nat) : list A := firstn width (skipn (i * width) xs).
Lemma vec_length {A} width (xs : list A) count i : length xs = (count * width)%nat -> (i < count)%nat -> length (vec width xs i) = width.
Proof. intros L H. unfold vec. rewrite firstn_length_le; [reflexivity|]. rewrite skipn_length. nia. Qed.
Lemma firstn_step {A} (w n : nat) (xs : list A) : firstn (n + w) xs = firstn n xs ++ firstn w (skipn n xs).
Proof.
  revert xs. induction n as [|n IH]; intros xs; [reflexivity|]. destruct xs as [|x xs]; [cbn; now rewrite firstn_nil|].
  cbn [Nat.add firstn skipn app]. now rewrite IH.
Qed.
Lemma firstn_vec {A} width (xs : list A) i : firstn (S i * width) xs = firstn (i * width) xs ++ vec width xs i.
Proof. unfold vec. rewrite <- firstn_step. f_equal. lia. Qed.
Lemma cells_vec {A} width (m : memory A) base xs count i : length xs = (count * width)%nat -> (i < count)%nat -> cells m base xs ->
  cells m (base + Z.of_nat (i * width)) (vec width xs i).
Proof.
  intros L H C. rewrite <- (firstn_skipn (i * width) xs) in C. apply cells_app in C. rewrite firstn_length_le in C by nia. destruct C as [_ C].
  unfold vec. rewrite <- (firstn_skipn width (skipn (i * width) xs)) in C. apply cells_app in C. apply C.
Qed.
Lemma load_vector_ok {A} width (m : memory A) base i v : Z.of_nat (i * width) < 2 ^ 63 -> length v = width -> cells m (base + Z.of_nat (i * width)) v ->
  load_vector width m base (Z.of_nat i) = Some v.
Proof.
  intros H L C. unfold load_vector, vec_addr. rewrite offset_small by nia. unfold cells in C. rewrite L in C. rewrite <- C. f_equal. nia.
Qed.
Lemma store_vector_ok {A} width (m : memory A) base i old v : Z.of_nat (i * width) < 2 ^ 63 -> length v = length old -> cells m (base + Z.of_nat (i * width)) old ->
  exists m', store_vector width m base (Z.of_nat i) v = Some m' /\ overwritten m (base + Z.of_nat (i * width)) v m'.
Proof.
  intros H L C. unfold store_vector, vec_addr. rewrite offset_small by nia. replace (base + Z.of_nat i * Z.of_nat width) with (base + Z.of_nat (i * width)) by nia.
  eapply store_overwrites; eauto.
Qed.
Lemma overwritten_cells_at {A} (m : memory A) dst out m' base v : overwritten m dst out m' ->
  (base + Z.of_nat (length v) <= dst \/ dst + Z.of_nat (length out) <= base) -> cells m base v -> cells m' base v.
Proof. intros [_ F] D C. eapply cells_ext; [|exact C]. intros a Ha. apply F. lia. Qed.

Section Loop.
  Context {A : Type} (width : nat) (count : nat).
  Variables (m : memory A) (dst : Z) (out : list A).
  Hypothesis Hout : length out = (count * width)%nat.
  Definition Inv (i : nat) (mi : memory A) : Prop := overwritten m dst (firstn (i * width) out) mi.

  Lemma Inv_0 : Inv 0 m.
  Proof. split; [reflexivity|auto]. Qed.
  Lemma Inv_step i mi m' : (i < count)%nat -> Inv i mi -> overwritten mi (dst + Z.of_nat (i * width)) (vec width out i) m' -> Inv (S i) m'.
  Proof.
    intros Hi I O. unfold Inv. rewrite firstn_vec. apply (overwritten_app _ mi); [exact I|]. rewrite firstn_length_le by nia. exact O.
  Qed.
  Lemma Inv_end mi : Inv count mi -> overwritten m dst out mi.
  Proof. unfold Inv. rewrite <- Hout, firstn_all. auto. Qed.
  (** vector j >= i of any object not behind the written part is unchanged *)
  Lemma Inv_read i mi src xs j : Inv i mi -> (i <= count)%nat -> length xs = (count * width)%nat -> cells m src xs -> (dst <= src \/ src + Z.of_nat (count * width) <= dst) ->
    (i <= j < count)%nat -> cells mi (src + Z.of_nat (j * width)) (vec width xs j).
  Proof.
    intros I Hi L C D Hj. eapply overwritten_cells_at; [exact I| |eapply cells_vec; eauto; lia].
    rewrite (vec_length width xs count j L) by lia. rewrite firstn_length_le by nia. nia.
  Qed.
  Lemma Inv_old old i mi j : length old = (count * width)%nat -> cells m dst old -> Inv i mi -> (i <= j < count)%nat -> cells mi (dst + Z.of_nat (j * width)) (vec width old j).
  Proof. intros L C I Hj. eapply (Inv_read i mi dst old j I); auto; lia. Qed.

  Lemma for_vectors_ok (body : Z -> memory A -> option (memory A)) :
    (forall i mi, (i < count)%nat -> Inv i mi -> exists m', body (Z.of_nat i) mi = Some m' /\ overwritten mi (dst + Z.of_nat (i * width)) (vec width out i) m') ->
    exists m', for_vectors count 0 body m = Some m' /\ overwritten m dst out m'.
  Proof.
    intros HB. enough (G : forall n i mi, (i + n = count)%nat -> Inv i mi -> exists m', for_vectors n (Z.of_nat i) body mi = Some m' /\ Inv count m').
    { destruct (G count 0%nat m eq_refl Inv_0) as (m' & E & I). exists m'. split; [exact E|now apply Inv_end]. }
    induction n as [|n IH]; intros i mi Hn I; cbn [for_vectors].
    - exists mi. split; [reflexivity|]. now replace count with i by lia.
    - destruct (HB i mi ltac:(lia) I) as (m1 & E1 & O1). rewrite E1. cbn [obind].
      replace (Z.of_nat i + 1) with (Z.of_nat (S i)) by lia. apply IH; [lia|]. eapply Inv_step; eauto. lia.
  Qed.
End Loop.

Lemma concat_repeat_vec {A} (v : list A) count i : (i < count)%nat -> vec (length v) (concat (repeat v count)) i = v.
Proof.
  revert i. induction count as [|n IH]; intros i H; [lia|]. cbn [repeat concat]. destruct i as [|i].
  - unfold vec. cbn [Nat.mul skipn]. rewrite firstn_app, Nat.sub_diag, firstn_all. cbn. now rewrite app_nil_r.
  - unfold vec. cbn [Nat.mul]. rewrite skipn_app, skipn_all2 by lia. cbn [app]. replace (length v + i * length v - length v)%nat with (i * length v)%nat by lia. apply IH. lia.
Qed.
Lemma concat_repeat_length {A} (v : list A) count : length (concat (repeat v count)) = (count * length v)%nat.
Proof. induction count as [|n IH]; [reflexivity|]. cbn [repeat concat Nat.mul]. now rewrite app_length, IH. Qed.
Lemma map2_length_eq {A B C} (f : A -> B -> C) : forall xs ys, length xs = length ys -> length (map2 f xs ys) = length xs.
Proof. induction xs as [|x xs IH]; intros [|y ys] L; try discriminate; [reflexivity|]. cbn. f_equal. apply IH. now injection L. Qed.
Lemma map2_firstn {A B C} (f : A -> B -> C) : forall n xs ys, firstn n (map2 f xs ys) = map2 f (firstn n xs) (firstn n ys).
Proof. induction n as [|n IH]; intros [|x xs] [|y ys]; try reflexivity. cbn. now rewrite IH. Qed.
Lemma map2_nil_r {A B C} (f : A -> B -> C) xs : map2 f xs [] = [].
Proof. destruct xs; reflexivity. Qed.
Lemma map2_skipn {A B C} (f : A -> B -> C) : forall n xs ys, skipn n (map2 f xs ys) = map2 f (skipn n xs) (skipn n ys).
Proof. induction n as [|n IH]; intros [|x xs] [|y ys]; try reflexivity; [cbn; now rewrite map2_nil_r|]. cbn. apply IH. Qed.
Lemma map2_vec {A B C} (f : A -> B -> C) width xs ys i : vec width (map2 f xs ys) i = map2 f (vec width xs i) (vec width ys i).
Proof. unfold vec. now rewrite map2_skipn, map2_firstn. Qed.
Lemma repeat_vec {A} (s : A) width count i : (i < count)%nat -> vec width (repeat s (count * width)) i = repeat s width.
Proof.
  intros H. unfold vec. assert (E : (count * width = i * width + (width + (count - i - 1) * width))%nat) by nia. rewrite E, repeat_app.
  rewrite skipn_app, skipn_all2 by (rewrite repeat_length; lia). rewrite repeat_length, Nat.sub_diag. cbn [app skipn].
  rewrite repeat_app, firstn_app, repeat_length, Nat.sub_diag, firstn_all2 by (rewrite repeat_length; lia). now rewrite firstn_O, app_nil_r.
Qed.

Section Ops.
  Context {A : Type} (width : nat) (count : nat) (m : memory A) (dst : Z) (old : list A).
  Hypothesis small : Z.of_nat (count * width) < 2 ^ 63.
  Hypothesis Hold : length old = (count * width)%nat.
  Hypothesis Cold : cells m dst old.

  Lemma assign_vector_ok v : length v = width ->
    exists m', assign_vector width m dst (Z.of_nat count) v = Some m' /\ overwritten m dst (concat (repeat v count)) m'.
  Proof.
    intros L. unfold assign_vector. rewrite Nat2Z.id. assert (LO : length (concat (repeat v count)) = (count * width)%nat) by (rewrite concat_repeat_length; nia).
    apply (for_vectors_ok width count m dst _ LO). intros i mi Hi I.
    assert (EV : vec width (concat (repeat v count)) i = v) by (rewrite <- L; now apply concat_repeat_vec). rewrite EV. apply store_vector_ok with (old := vec width old i); [nia|now rewrite (vec_length width old count)|].
    exact (Inv_old width count m dst _ LO old i mi i Hold Cold I ltac:(lia)).
  Qed.
  Lemma op_assign_ok op rhs ys : length ys = (count * width)%nat -> cells m rhs ys -> (dst <= rhs \/ rhs + Z.of_nat (count * width) <= dst) ->
    exists m', op_assign width op m dst rhs (Z.of_nat count) = Some m' /\ overwritten m dst (map2 op old ys) m'.
  Proof.
    intros Ly Cy D. unfold op_assign. rewrite Nat2Z.id.
    assert (LO : length (map2 op old ys) = (count * width)%nat) by (rewrite map2_length_eq; congruence).
    apply (for_vectors_ok width count m dst _ LO). intros i mi Hi I.
    pose proof (Inv_old width count m dst _ LO old i mi i Hold Cold I ltac:(lia)) as C1.
    pose proof (Inv_read width count m dst _ LO i mi rhs ys i I ltac:(lia) Ly Cy D ltac:(lia)) as C2.
    rewrite (load_vector_ok width mi dst i _ ltac:(nia) (vec_length width old count i Hold Hi) C1). cbn [obind].
    rewrite (load_vector_ok width mi rhs i _ ltac:(nia) (vec_length width ys count i Ly Hi) C2). cbn [obind].
    rewrite map2_vec. apply store_vector_ok with (old := vec width old i); [nia| |exact C1].
    rewrite map2_length_eq; [reflexivity|]. now rewrite !(vec_length width _ count).
  Qed.
  Lemma op_assign_scalar_ok op s :
    exists m', op_assign_scalar width op m dst (Z.of_nat count) s = Some m' /\ overwritten m dst (map (fun x => op x s) old) m'.
  Proof.
    unfold op_assign_scalar. rewrite Nat2Z.id.
    assert (EO : map (fun x => op x s) old = map2 op old (repeat s (count * width))).
    { rewrite <- Hold. clear. induction old as [|x l IH]; [reflexivity|]. cbn. now rewrite IH. }
    rewrite EO. assert (LO : length (map2 op old (repeat s (count * width))) = (count * width)%nat) by (rewrite map2_length_eq; [exact Hold|now rewrite repeat_length]).
    apply (for_vectors_ok width count m dst _ LO). intros i mi Hi I.
    pose proof (Inv_old width count m dst _ LO old i mi i Hold Cold I ltac:(lia)) as C1.
    rewrite (load_vector_ok width mi dst i _ ltac:(nia) (vec_length width old count i Hold Hi) C1). cbn [obind].
    rewrite map2_vec, repeat_vec by auto. apply store_vector_ok with (old := vec width old i); [nia| |exact C1].
    rewrite map2_length_eq; [reflexivity|]. now rewrite (vec_length width _ count), repeat_length.
  Qed.

  Lemma copy_step xs i mi : length xs = (count * width)%nat -> (i < count)%nat -> Inv width m dst xs i mi ->
    exists m', store_vector width mi dst (Z.of_nat i) (vec width xs i) = Some m' /\ Inv width m dst xs (S i) m'.
  Proof.
    intros L Hi I. destruct (store_vector_ok width mi dst i (vec width old i) (vec width xs i)) as (m' & E & O).
    - nia.
    - now rewrite !(vec_length width _ count).
    - exact (Inv_old width count m dst xs L old i mi i Hold Cold I ltac:(lia)).
    - exists m'. split; [exact E|]. exact (Inv_step width count m dst xs L i mi m' Hi I O).
  Qed.
  Lemma copy_vectors_ok src xs : length xs = (count * width)%nat -> cells m src xs -> (dst <= src \/ src + Z.of_nat (count * width) <= dst) ->
    exists m', copy_vectors width m dst src (Z.of_nat count) = Some m' /\ overwritten m dst xs m'.
  Proof.
    intros L C D.
    assert (RD : forall i mi j, Inv width m dst xs i mi -> (i <= j < count)%nat -> load_vector width mi src (Z.of_nat j) = Some (vec width xs j)).
    { intros i mi j I Hj. apply load_vector_ok; [nia|now apply (vec_length width _ count)|]. apply (Inv_read width count m dst xs L i mi src xs j I); auto; lia. }
    assert (R : forall fuel i mi, (i <= count)%nat -> (count - i <= fuel)%nat -> Inv width m dst xs i mi ->
      exists m', copy1 width fuel dst src (Z.of_nat i) (Z.of_nat count) mi = Some m' /\ Inv width m dst xs count m').
    { induction fuel as [|fuel IH]; intros i mi Hi Hf I.
      - cbn [copy1]. destruct (Z.ltb_spec (Z.of_nat i) (Z.of_nat count)); [lia|]. exists mi. split; [reflexivity|]. now replace count with i by lia.
      - cbn [copy1]. destruct (Z.ltb_spec (Z.of_nat i) (Z.of_nat count)).
        + rewrite (RD i mi i I) by lia. cbn [obind]. destruct (copy_step xs i mi L ltac:(lia) I) as (m1 & E1 & I1). rewrite E1. cbn [obind].
          replace (Z.of_nat i + 1) with (Z.of_nat (S i)) by lia. apply IH; auto; lia.
        + exists mi. split; [reflexivity|]. now replace count with i by lia. }
    assert (F : forall fuel i mi, (i <= count)%nat -> (count - i <= fuel)%nat -> Inv width m dst xs i mi ->
      exists i' m', copy4 width fuel dst src (Z.of_nat i + 3) (Z.of_nat count) mi = Some (Z.of_nat i' + 3, m') /\ (i' <= count)%nat /\ Inv width m dst xs i' m').
    { induction fuel as [|fuel IH]; intros i mi Hi Hf I; cbn [copy4].
      - destruct (Z.ltb_spec (Z.of_nat i + 3) (Z.of_nat count)); [lia|]. exists i, mi. auto.
      - destruct (Z.ltb_spec (Z.of_nat i + 3) (Z.of_nat count)); [|exists i, mi; auto].
        replace (Z.of_nat i + 3 - 3) with (Z.of_nat i) by lia. replace (Z.of_nat i + 3 - 2) with (Z.of_nat (S i)) by lia.
        replace (Z.of_nat i + 3 - 1) with (Z.of_nat (S (S i))) by lia. replace (Z.of_nat i + 3 - 0) with (Z.of_nat (S (S (S i)))) by lia.
        rewrite !(RD i mi) by (auto; lia). cbn [obind].
        destruct (copy_step xs i mi L ltac:(lia) I) as (m1 & E1 & I1). rewrite E1. cbn [obind].
        destruct (copy_step xs (S i) m1 L ltac:(lia) I1) as (m2 & E2 & I2). rewrite E2. cbn [obind].
        destruct (copy_step xs (S (S i)) m2 L ltac:(lia) I2) as (m3 & E3 & I3). rewrite E3. cbn [obind].
        destruct (copy_step xs (S (S (S i))) m3 L ltac:(lia) I3) as (m4 & E4 & I4). rewrite E4. cbn [obind].
        replace (Z.of_nat i + 3 + 4) with (Z.of_nat (S (S (S (S i)))) + 3) by lia. apply IH; auto; lia. }
    unfold copy_vectors. rewrite Nat2Z.id. change 3 with (Z.of_nat 0 + 3) at 1.
    destruct (F count 0%nat m ltac:(lia) ltac:(lia) (Inv_0 width m dst xs)) as (i' & m1 & E1 & Hi' & I1). rewrite E1. cbn [obind fst snd].
    replace (Z.of_nat i' + 3 - 3) with (Z.of_nat i') by lia. destruct (R count i' m1 Hi' ltac:(lia) I1) as (m2 & E2 & I2).
    exists m2. split; [exact E2|]. exact (Inv_end width count m dst xs L m2 I2).
  Qed.
End Ops.

(** * comparisons *)
Lemma vecs_cons {A} width (xs : list A) i : vec width xs (S i) = vec width (skipn width xs) i.
Proof. unfold vec. rewrite skipn_skipn. f_equal. f_equal. lia. Qed.
Lemma forallb_split {X} (p : X -> bool) w (ks : list X) : forallb p ks = forallb p (firstn w ks) && forallb p (skipn w ks).
Proof. rewrite <- forallb_app, firstn_skipn. reflexivity. Qed.
Lemma compare_ok {A} (p : bool -> bool) (rel : A -> A -> bool) width count m a b xs ys :
  Z.of_nat (count * width) < 2 ^ 63 -> length xs = (count * width)%nat -> length ys = (count * width)%nat -> cells m a xs -> cells m b ys ->
  compare_loop width (forallb p) rel count 0 a b m = Some (forallb p (map2 rel xs ys)).
Proof.
  intros small Lx Ly Ca Cb.
  enough (G : forall n i, (i + n = count)%nat -> compare_loop width (forallb p) rel n (Z.of_nat i) a b m = Some (forallb p (skipn (i * width) (map2 rel xs ys)))).
  { exact (G count 0%nat eq_refl). }
  induction n as [|n IH]; intros i Hn; cbn [compare_loop].
  - replace i with count by lia. rewrite skipn_all2; [reflexivity|]. rewrite map2_length_eq by congruence. lia.
  - rewrite (load_vector_ok width m a i _ ltac:(nia) (vec_length width xs count i Lx ltac:(lia)) (cells_vec width m a xs count i Lx ltac:(lia) Ca)). cbn [obind].
    rewrite (load_vector_ok width m b i _ ltac:(nia) (vec_length width ys count i Ly ltac:(lia)) (cells_vec width m b ys count i Ly ltac:(lia) Cb)). cbn [obind].
    rewrite <- map2_vec. rewrite (forallb_split p width (skipn (i * width) (map2 rel xs ys))). unfold vec. rewrite skipn_skipn.
    destruct (forallb p (firstn width (skipn (i * width) (map2 rel xs ys)))); cbn [negb andb]; [|reflexivity].
    replace (Z.of_nat i + 1) with (Z.of_nat (S i)) by lia. rewrite IH by lia. reflexivity.
Qed.

(** stores never deallocate *)
Lemma mem_store_allocated {A} (xs : list A) : forall (m m' : memory A) base a, mem_store m base xs = Some m' -> m a <> None -> m' a <> None.
Proof.
  induction xs as [|x xs IH]; intros m m' base a E H; cbn [mem_store] in E; [congruence|].
  unfold mem_write in E. destruct (m base); [|discriminate E]. eapply IH; [exact E|]. unfold mem_set. destruct (a =? base); [discriminate|exact H].
Qed.
