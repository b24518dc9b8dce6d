(** access to arrays of structs (InterleavedMemoryWrapper) and deinterleave (proofs). *)
From Coq Require Import ZArith List Bool Lia Permutation.
From Verif.Spec Require Import Seq MemSpec InterleaveSpec.
From Verif.Model Require Import SplitSize SimdArray Mem Word SseReg SseMove SseInt SseBuild Interleave CheckIndexes Deinterleave.
Import ListNotations.
Local Open Scope Z_scope.
From Verif.Proof Require Import SeqP WordP AlgorithmsP SseIntP SseEmulP SseBuildP SseBuildMain InterleaveP.

Lemma nth_error_ext' {A} (xs ys : list A) : (forall i, nth_error xs i = nth_error ys i) -> xs = ys.
Proof.
  revert ys. induction xs as [|x xs IH]; intros [|y ys] H; [reflexivity|specialize (H 0%nat); discriminate H|specialize (H 0%nat); discriminate H|].
  f_equal; [specialize (H 0%nat); now injection H|]. apply IH. intros i. exact (H (S i)).
Qed.
Lemma znth_nth {A} (d : A) xs k : 0 <= k < Z.of_nat (length xs) -> znth d xs k = nth (Z.to_nat k) xs d.
Proof. intros H. unfold znth. destruct (Z.leb_spec 0 k); [|lia]. destruct (Z.ltb_spec k (Z.of_nat (length xs))); [reflexivity|lia]. Qed.
Lemma nth_tab {A} (d : A) n f i : (i < n)%nat -> nth i (tab n f) d = f (Z.of_nat i).
Proof. intros H. unfold tab. rewrite (nth_indep _ d (f (Z.of_nat 0))) by (now rewrite map_length, seq_length). rewrite (map_nth (fun j => f (Z.of_nat j))). now rewrite seq_nth. Qed.
Lemma available_mapped {A} (zero : A) n r data i (m : memory A) : members_mapped n r data i m ->
  available i m n r data (fun e c => match m (member data i e c) with Some x => x | None => zero end).
Proof. intros H e c He Hc. specialize (H e c He Hc). destruct (m (member data i e c)); [reflexivity|congruence]. Qed.
Lemma members_read_ge n k : (k <= members_read n k)%nat.
Proof.
  unfold members_read. destruct n as [|[|[|[|[|[|[|[|[|n]]]]]]]]]; try apply Nat.le_refl; destruct k as [|[|[|[|[|[|[|[|k]]]]]]]]; lia.
Qed.
Lemma read_ok {A} (zero : A) n k data i (m : memory A) : In n [1; 2; 4; 8]%nat -> (2 <= k <= 8)%nat -> members_mapped n (members_read n k) data i m ->
  exists vs, deinterleave_impl zero n k data i m = Some vs /\ structs_read n k data i m vs.
Proof.
  intros Hn Hk H. apply (available_mapped zero) in H. eexists. split; [apply deinterleave_ok; [exact Hn|exact Hk|exact H]|].
  apply rows_read. eapply available_le; [|exact H]. apply members_read_ge.
Qed.

Lemma C27_interleave_main :
  forall (A : Type) (zero : A) va n kind data (i : Z -> Z) vs (m : memory A),
    In n [1; 2; 4; 8]%nat -> (2 <= length vs <= 8)%nat -> (forall v, In v vs -> length v = n) ->
    (forall s, kind = Successive s -> forall e, 0 <= e < Z.of_nat n -> i e = i 0 + e * Z.of_nat s) ->
    disjoint_structs n (length vs) i -> members_mapped n (length vs) data i m ->
    exists m', interleave_impl zero va n kind data i vs m = Some m' /\ structs_written n data i vs m m'.
Proof.
  intros A zero va n kind data i vs m Hn L F K D M. apply interleave_impl_ok; auto.
  - destruct kind; cbn [kind_ok]; [auto|]. now apply K.
  - now apply Forall_forall.
Qed.

Lemma C27_deinterleave_main :
  forall (A : Type) (zero : A) n k data (i : Z -> Z) (m : memory A),
    In n [1; 2; 4; 8]%nat -> (2 <= k <= 8)%nat -> members_mapped n (members_read n k) data i m ->
    exists vs, deinterleave_impl zero n k data i m = Some vs /\ structs_read n k data i m vs.
Proof.
  intros A zero n k data i m Hn Hk H. now apply read_ok.
Qed.

Lemma C27_deinterleave_refuted_main :
  forall n k, In (n, k) [(4, 3); (8, 3); (8, 5); (8, 6); (8, 7); (4, 7)]%nat ->
  exists (m : memory Z) (data : Z) (i : Z -> Z),
    members_mapped n k data i m /\ disjoint_structs n k i /\ deinterleave_impl 0 n k data i m = None.
Proof.
  intros n k H. exists (mem_of_list 0 (repeat 0 (n * k))), 0, (fun e => e * Z.of_nat k). split; [|split].
  - intros e c He Hc. unfold member, mem_of_list. cbn beta.
    repeat (destruct H as [H|H]; [injection H as <- <-|]); try contradiction;
    (match goal with |- (if ?b then _ else _) <> None => assert (Q : b = true) by (apply andb_true_intro; split; [apply Z.leb_le|apply Z.ltb_lt]; cbn [length repeat Nat.mul Nat.add]; lia) end; rewrite Q;
     apply nth_error_Some; rewrite repeat_length; lia).
  - intros e e' He He' N. cbn beta. nia.
  - repeat (destruct H as [H|H]; [injection H as <- <-; vm_compute; reflexivity|]). contradiction.
Qed.

Lemma to_int32_id z : - 2 ^ 31 <= z < 2 ^ 31 -> to_int32 z = z.
Proof.
  intros H. unfold to_int32. destruct (Z_le_dec 0 z).
  - rewrite Z.mod_small by lia. destruct (Z.ltb_spec z (2 ^ 31)); lia.
  - replace (z mod 2 ^ 32) with (z + 2 ^ 32) by (symmetry; rewrite <- (Z.mod_add z 1) by lia; apply Z.mod_small; lia). destruct (Z.ltb_spec (z + 2 ^ 32) (2 ^ 31)); lia.
Qed.
Lemma scaled_index_ok S x : 0 <= S < 2 ^ 31 -> - 2 ^ 31 <= x * S < 2 ^ 31 -> scaled_index S x = x * S.
Proof.
  intros HS H. unfold scaled_index. rewrite (to_int32_id S) by lia. rewrite !Z.shiftl_mul_pow2 by lia.
  destruct (Z.eqb_spec S 1) as [->|]; [lia|]. destruct (Z.eqb_spec S 2) as [->|]; [now apply to_int32_id|].
  destruct (Z.eqb_spec S 4) as [->|]; [now apply to_int32_id|]. destruct (Z.eqb_spec S 8) as [->|]; [now apply to_int32_id|].
  destruct (Z.eqb_spec S 16) as [->|]; [now apply to_int32_id|]. now apply to_int32_id.
Qed.
Lemma scaled_first_ok S x : 0 <= S < 2 ^ 31 -> 0 <= x -> x * S < 2 ^ 64 -> scaled_first S x = x * S.
Proof.
  intros HS Hx H. unfold scaled_first. rewrite (to_int32_id S) by lia. rewrite !Z.shiftl_mul_pow2 by lia. unfold to_size_t. rewrite (Z.mod_small S) by lia.
  change (2 ^ 1) with 2. change (2 ^ 2) with 4. change (2 ^ 3) with 8. change (2 ^ 4) with 16.
  destruct (Z.eqb_spec S 1) as [->|]; [lia|]. destruct (Z.eqb_spec S 2) as [->|]; [apply Z.mod_small; lia|].
  destruct (Z.eqb_spec S 4) as [->|]; [apply Z.mod_small; lia|]. destruct (Z.eqb_spec S 8) as [->|]; [apply Z.mod_small; lia|].
  destruct (Z.eqb_spec S 16) as [->|]; [apply Z.mod_small; lia|]. apply Z.mod_small; nia.
Qed.
Lemma subscript_ok n S s e : 0 < Z.of_nat S < 2 ^ 31 -> offsets_representable n S s -> 0 <= e < Z.of_nat n -> subscript_at S s e = struct_offset S s e.
Proof.
  intros HS H He. destruct s as [idx|f]; cbn [offsets_representable subscript_at struct_offset] in *.
  - destruct H as [L H]. apply scaled_index_ok; [lia|]. apply H. rewrite znth_nth by lia. apply nth_In. lia.
  - destruct H as [Hf H]. rewrite scaled_first_ok by nia. unfold successive_at, to_size_t. rewrite Z.mod_small by nia. lia.
Qed.
Lemma member_ext data i i' e c : i (Z.of_nat e) = i' (Z.of_nat e) -> member data i e c = member data i' e c.
Proof. unfold member. intros ->. reflexivity. Qed.
Section Ext.
  Context {A : Type} (n : nat) (data : Z) (i i' : Z -> Z).
  Hypothesis E : forall e, 0 <= e < Z.of_nat n -> i e = i' e.
  Lemma written_ext (vs : list (list A)) m m' : structs_written n data i vs m m' -> structs_written n data i' vs m m'.
  Proof.
    intros [H1 H2]. split.
    - intros e c v He Hc. rewrite <- (H1 e c v He Hc). f_equal. symmetry. apply member_ext, E. lia.
    - intros a Ha. apply H2. intros e c He Hc. rewrite (member_ext data i i' e c) by (apply E; lia). now apply Ha.
  Qed.
  Lemma read_ext k (vs : list (list A)) m : structs_read n k data i m vs -> structs_read n k data i' m vs.
  Proof.
    intros [H1 H2]. split; [exact H1|]. intros c v Hc. destruct (H2 c v Hc) as [L H]. split; [exact L|]. intros e He. rewrite <- (H e He). f_equal. symmetry. apply member_ext, E. lia.
  Qed.
  Lemma mapped_ext k (m : memory A) : members_mapped n k data i' m -> members_mapped n k data i m.
  Proof. intros H e c He Hc. rewrite (member_ext data i i' e c) by (apply E; lia). now apply H. Qed.
  Lemma disjoint_ext k : disjoint_structs n k i' -> disjoint_structs n k i.
  Proof. intros H e e' He He' N. rewrite !E by lia. now apply H. Qed.
End Ext.
Lemma offset_disjoint n S k s : (k <= S)%nat -> offsets_representable n S s -> different_structs s -> disjoint_structs n k (struct_offset S s).
Proof.
  intros Hk R D e e' He He' N. destruct s as [idx|f]; cbn [struct_offset offsets_representable different_structs] in *; [|nia].
  destruct R as [L _]. assert (Q : znth 0 idx (Z.of_nat e) <> znth 0 idx (Z.of_nat e')).
  { rewrite !znth_nth, !Nat2Z.id by lia. intros C. apply N.
    rewrite (NoDup_nth idx 0) in D. apply D; auto; lia. }
  nia.
Qed.

Lemma C26_write_main :
  forall (A : Type) (zero : A) va n struct_size data s vs (m : memory A),
    In n [1; 2; 4; 8]%nat -> (2 <= length vs <= 8)%nat -> (length vs <= struct_size)%nat -> Z.of_nat struct_size < 2 ^ 31 ->
    (forall v, In v vs -> length v = n) -> offsets_representable n struct_size s -> different_structs s ->
    members_mapped n (length vs) data (struct_offset struct_size s) m ->
    exists m', wrapper_write zero va n struct_size data s vs m = Some m' /\
      structs_written n data (struct_offset struct_size s) vs m m'.
Proof.
  intros A zero va n S data s vs m Hn L LS HS F R D M.
  assert (E : forall e, 0 <= e < Z.of_nat n -> subscript_at S s e = struct_offset S s e) by (intros e He; apply (subscript_ok n); auto; lia).
  destruct (C27_interleave_main A zero va n (subscript_kind S s) data (subscript_at S s) vs m Hn L F) as (m' & E1 & W).
  - intros k Hk e He. destruct s as [idx|f]; cbn [subscript_kind] in Hk; [discriminate|]. injection Hk as <-.
    assert (0 <= 0 < Z.of_nat n) by (destruct Hn as [<-|[<-|[<-|[<-|[]]]]]; lia). rewrite !E by lia. cbn [struct_offset]. lia.
  - apply disjoint_ext with (i' := struct_offset S s); [exact E|]. now apply offset_disjoint.
  - apply mapped_ext with (i' := struct_offset S s); [exact E|exact M].
  - exists m'. split; [|apply written_ext with (i := subscript_at S s); [exact E|exact W]]. unfold wrapper_write.
    destruct (Nat.leb_spec (length vs) S); [exact E1|lia].
Qed.

Lemma C26_read_main :
  forall (A : Type) (zero : A) n struct_size k data s (m : memory A),
    In n [1; 2; 4; 8]%nat -> (2 <= k <= 8)%nat -> (0 < struct_size)%nat -> Z.of_nat struct_size < 2 ^ 31 ->
    offsets_representable n struct_size s ->
    members_mapped n (members_read n k) data (struct_offset struct_size s) m ->
    exists vs, wrapper_read zero n struct_size k data s m = Some vs /\ structs_read n k data (struct_offset struct_size s) m vs.
Proof.
  intros A zero n S k data s m Hn Hk HS0 HS R M.
  assert (E : forall e, 0 <= e < Z.of_nat n -> subscript_at S s e = struct_offset S s e) by (intros e He; apply (subscript_ok n); auto; lia).
  destruct (read_ok zero n k data (subscript_at S s) m Hn Hk) as (vs & E1 & W).
  - apply mapped_ext with (i' := struct_offset S s); [exact E|exact M].
  - exists vs. split; [exact E1|]. apply read_ext with (i := subscript_at S s); [exact E|exact W].
Qed.

Lemma C26_round_trip_main :
  forall (A : Type) (zero : A) va n struct_size data s vs (m m' : memory A),
    In n [1; 2; 4; 8]%nat -> (2 <= length vs <= 8)%nat -> Z.of_nat struct_size < 2 ^ 31 ->
    (forall v, In v vs -> length v = n) -> offsets_representable n struct_size s -> different_structs s ->
    members_mapped n (members_read n (length vs)) data (struct_offset struct_size s) m ->
    wrapper_write zero va n struct_size data s vs m = Some m' ->
    wrapper_read zero n struct_size (length vs) data s m' = Some vs.
Proof.
  intros A zero va n S data s vs m m' Hn L HS F R D M HW.
  assert (LS : (length vs <= S)%nat) by (unfold wrapper_write in HW; destruct (Nat.leb_spec (length vs) S); [lia|discriminate]).
  destruct (C26_write_main A zero va n S data s vs m Hn L LS HS F R D) as (m1 & E1 & W).
  { eapply mapped_le; [|exact M]. apply members_read_ge. }
  rewrite HW in E1. injection E1 as <-.
  destruct (C26_read_main A zero n S (length vs) data s m' Hn L ltac:(lia) HS R) as (vs' & E2 & (L2 & H2)).
  { intros e c He Hc. eapply written_mapped; [|exact W|now apply M]. now apply Forall_forall. }
  rewrite E2. f_equal. apply nth_error_ext'. intros c. destruct (nth_error vs' c) as [v'|] eqn:Q'.
  - assert (Hc : (c < length vs)%nat) by (rewrite <- L2; apply nth_error_Some; congruence).
    destruct (nth_error vs c) as [v|] eqn:Q; [|apply nth_error_None in Q; lia]. f_equal. destruct (H2 c v' Q') as [Lv' G'].
    assert (Lv : length v = n) by (apply F; eapply nth_error_In; eauto). apply nth_error_ext'. intros e.
    destruct (Nat.lt_ge_cases e n) as [He|He].
    + rewrite <- (G' e He). now apply (proj1 W).
    + rewrite (proj2 (nth_error_None v' e)), (proj2 (nth_error_None v e)) by lia. reflexivity.
  - apply nth_error_None in Q'. symmetry. apply nth_error_None. lia.
Qed.

Lemma C26_write_refuted_main :
  subscript_at 8 (Indexes [2 ^ 28]) 0 = - 2 ^ 31 /\ struct_offset 8 (Indexes [2 ^ 28]) 0 = 2 ^ 31 /\
  forall x, (2 ^ 31 <= x * 8 -> x < 2 ^ 31 -> subscript_at 8 (Indexes [x]) 0 <> struct_offset 8 (Indexes [x]) 0).
Proof.
  split; [reflexivity|]. split; [reflexivity|]. intros x H1 H2. cbn [subscript_at struct_offset]. rewrite znth_nth by (cbn; lia). cbn [Z.to_nat nth].
  assert (E : scaled_index (Z.of_nat 8) x = to_int32 (x * 8)) by (change (Z.of_nat 8) with 8; unfold scaled_index; cbn [Z.eqb Pos.eqb]; now rewrite Z.shiftl_mul_pow2 by lia).
  rewrite E. change (Z.of_nat 8) with 8. unfold to_int32. pose proof (Z.mod_pos_bound (x * 8) (2 ^ 32) ltac:(lia)). destruct (Z.ltb_spec ((x * 8) mod 2 ^ 32) (2 ^ 31)); lia.
Qed.

Lemma sorted_nth {A} (le : A -> A -> bool) d : forall xs i j, sorted_spec le xs -> (i < j < length xs)%nat -> le (nth i xs d) (nth j xs d) = true.
Proof.
  induction xs as [|x xs IH]; intros i j H Hij; cbn [length] in Hij; [lia|]. destruct H as [H1 H2]. destruct j as [|j]; [lia|]. destruct i as [|i]; cbn [nth].
  - apply H1, nth_In. lia.
  - apply IH; [exact H2|lia].
Qed.
Lemma unique_check (xs : list (word 4)) : (2 <= length xs)%nat -> sorted_spec le_s xs ->
  (forallb negb (map2 (fun a b => uval a =? uval b) xs (rotate_spec (w0 4) xs 1)) = true <-> NoDup xs).
Proof.
  intros L SO. set (n := length xs).
  assert (R : forall i, (i < n)%nat -> nth i (rotate_spec (w0 4) xs 1) (w0 4) = nth ((i + 1) mod n) xs (w0 4)).
  { intros i Hi. unfold rotate_spec. fold n. rewrite nth_tab by exact Hi. pose proof (Nat.mod_upper_bound (i + 1) n ltac:(unfold n; lia)).
    replace ((Z.of_nat i + 1) mod Z.of_nat n) with (Z.of_nat ((i + 1) mod n)) by (rewrite Nat2Z.inj_mod; f_equal; lia).
    rewrite znth_nth by (fold n; lia). now rewrite Nat2Z.id. }
  assert (LR : length (rotate_spec (w0 4) xs 1) = n) by (unfold rotate_spec; now rewrite tab_length).
  assert (FB : forallb negb (map2 (fun a b => uval a =? uval b) xs (rotate_spec (w0 4) xs 1)) = true <-> forall i, (i < n)%nat -> nth i xs (w0 4) <> nth ((i + 1) mod n) xs (w0 4)).
  { set (f := fun a b : word 4 => uval a =? uval b). assert (LM : length (map2 f xs (rotate_spec (w0 4) xs 1)) = n) by (rewrite map2_length, LR; unfold n; lia).
    assert (NM : forall i, (i < n)%nat -> nth i (map2 f xs (rotate_spec (w0 4) xs 1)) true = f (nth i xs (w0 4)) (nth ((i + 1) mod n) xs (w0 4))).
    { intros i Hi. rewrite <- R by exact Hi. clear R LM. revert i Hi. unfold n in *. clear n SO L. revert LR. generalize (rotate_spec (w0 4) xs 1). intros ys.
      revert ys. induction xs as [|x l IH]; intros ys LR i Hi; cbn [length] in Hi; [lia|]. destruct ys as [|y ys]; [discriminate|]. destruct i as [|i]; [reflexivity|].
      cbn [map2 nth]. apply IH; cbn [length] in LR; lia. }
    rewrite forallb_forall. split.
    - intros H i Hi Q. specialize (H _ (nth_In _ true (eq_ind_r (fun l => (i < l)%nat) Hi LM))). rewrite NM in H by exact Hi. unfold f in H. rewrite Q, Z.eqb_refl in H. discriminate.
    - intros H b Hb. apply (In_nth _ _ true) in Hb. destruct Hb as (i & Hi & <-). rewrite LM in Hi. rewrite NM by exact Hi. unfold f.
      destruct (Z.eqb_spec (uval (nth i xs (w0 4))) (uval (nth ((i + 1) mod n) xs (w0 4)))) as [Q|Q]; [|reflexivity]. apply word_ext in Q. now apply H in Q. }
  rewrite FB. split.
  - intros H. assert (G : forall i j, (i < j < n)%nat -> nth i xs (w0 4) <> nth j xs (w0 4)).
    { intros i j Hij Q. destruct (Nat.eq_dec j (i + 1)) as [->|N]; [apply (H i); [lia|]; now rewrite (Nat.mod_small (i + 1) n) by lia|].
      pose proof (sorted_nth le_s (w0 4) xs i (i + 1) SO ltac:(fold n; lia)) as Q1. pose proof (sorted_nth le_s (w0 4) xs (i + 1) j SO ltac:(fold n; lia)) as Q2.
      apply (H i); [lia|]. rewrite (Nat.mod_small (i + 1) n) by lia. apply (to_antisym _ (le_s_total 4)); [exact Q1|]. now rewrite Q. }
    apply (NoDup_nth xs (w0 4)). fold n. intros i j Hi Hj Q. destruct (Nat.lt_trichotomy i j) as [C|[C|C]]; [|exact C|].
    + now apply (G i j) in Q; [|lia].
    + now apply eq_sym, (G j i) in Q; [|lia].
  - intros D i Hi Q. rewrite (NoDup_nth xs (w0 4)) in D. fold n in D. specialize (D i ((i + 1) mod n)%nat Hi (Nat.mod_upper_bound (i + 1) n ltac:(lia)) Q).
    destruct (Nat.eq_dec (i + 1) n) as [C|C]; [rewrite C, Nat.mod_same in D by lia; lia|]. rewrite Nat.mod_small in D by lia. lia.
Qed.

Lemma C26_unique_assertion_main :
  forall ssse3 n (t : sa (elt Int)), wf (sse_native 4) n t ->
    check_indexes_unique ssse3 t = Some true /\ NoDup (to_list t) \/ check_indexes_unique ssse3 t = Some false /\ ~ NoDup (to_list t).
Proof.
  intros ssse3 n t W. unfold check_indexes_unique.
  destruct (C10_sse_sorted_main ssse3 Int wadd n t eq_refl W) as (r & E & Wr & SO & P). unfold elt in *. cbn [esize e_le] in *. rewrite E. cbn [obind].
  destruct (C07_sse_rotated_main ssse3 Int wadd n r 1 Wr) as (q & E2 & Wq & Lq). unfold elt in *. cbn [esize] in *. rewrite E2. cbn [obind]. rewrite Lq.
  assert (ND : NoDup (to_list r) <-> NoDup (to_list t)) by (split; apply Permutation_NoDup; [exact P|now apply Permutation_sym]).
  pose proof (Permutation_length P) as PL.
  destruct (Nat.eqb_spec (length (to_list t)) 1) as [Q|Q]; cbn [orb].
  - left. split; [reflexivity|]. destruct (to_list t) as [|x [|]]; try discriminate. constructor; [intros []|constructor].
  - destruct (Nat.eq_dec (length (to_list t)) 0) as [Z0|Z0].
    + left. assert (T : to_list t = []) by (destruct (to_list t); [reflexivity|discriminate]). rewrite T. assert (T' : to_list r = []) by (rewrite T in PL; destruct (to_list r); [reflexivity|discriminate]).
      rewrite T'. split; [reflexivity|constructor].
    + pose proof (unique_check (to_list r) ltac:(lia) SO) as U. destruct (forallb negb _); [left|right]; (split; [reflexivity|]).
      * apply ND, U. reflexivity.
      * intros C. apply ND, U in C. discriminate.
Qed.

Lemma load_map {A} (m : memory A) (f : nat -> A) a n : (forall c, (c < n)%nat -> m (a + Z.of_nat c) = Some (f c)) -> mem_load m a n = Some (map f (seq 0 n)).
Proof. intros H. apply mem_load_f. intros c Hc. now apply H. Qed.
Lemma holds_nth_nat {A} (d : A) (m : memory A) base xs k : holds m base xs -> (k < length xs)%nat -> m (base + Z.of_nat k) = Some (nth k xs d).
Proof. intros H Hk. rewrite (H k Hk). now apply nth_error_nth'. Qed.

Lemma C45_deinterleave_main :
  forall (A : Type) (d : A) n (m : memory A) mem xs, In n [2; 4; 8]%nat -> length xs = (2 * n)%nat -> holds m mem xs ->
    deinterleave_mem n m mem = Some (tab n (fun i => znth d xs (2 * i)), tab n (fun i => znth d xs (2 * i + 1))).
Proof.
  intros A d n m mem xs Hn L H. unfold deinterleave_mem.
  rewrite (load_map m (fun c => nth c xs d) mem n) by (intros c Hc; apply holds_nth_nat; [exact H|lia]).
  rewrite (load_map m (fun c => nth (n + c) xs d) (mem + Z.of_nat n) n)
    by (intros c Hc; rewrite <- Z.add_assoc, <- Nat2Z.inj_add; apply holds_nth_nat; [exact H|lia]).
  cbn [obind]. destruct Hn as [<-|[<-|[<-|[]]]].
  - do 4 (destruct xs as [|? xs]; [discriminate|]). destruct xs; [reflexivity|discriminate].
  - do 8 (destruct xs as [|? xs]; [discriminate|]). destruct xs; [reflexivity|discriminate].
  - do 16 (destruct xs as [|? xs]; [discriminate|]). destruct xs; [reflexivity|discriminate].
Qed.

Lemma pack_join8 (a b c d e f g h : word 2) : pack [a; b; c; d; e; f; g; h] = pack [join a b; join c d; join e f; join g h].
Proof. rewrite (pack_halves 2 [join a b; join c d; join e f; join g h]). cbn [flat_map app]. now rewrite !lo_join, !hi_join. Qed.
Lemma sval_mkw w z : (0 < w)%nat -> - (modulus w / 2) <= z < modulus w / 2 -> sval (mkw w z) = z.
Proof.
  intros Hw H. pose proof (modulus_even w Hw). pose proof (modulus_pos w). unfold sval, to_signed. rewrite uval_mkw.
  destruct (Z_le_dec 0 z).
  - rewrite Z.mod_small by lia. destruct (Z.ltb_spec z (modulus w / 2)); lia.
  - replace (z mod modulus w) with (z + modulus w) by (rewrite <- (Z.mod_add z 1) by lia; rewrite Z.mod_small; lia). destruct (Z.ltb_spec (z + modulus w) (modulus w / 2)); lia.
Qed.
Lemma sign_even (a b : word 2) : mkw 4 (sval (mkw 4 (uval (join a b) * 2 ^ 16)) / 2 ^ 16) = mkw 4 (sval a).
Proof.
  f_equal. pose proof (uval_range a). pose proof (uval_range b). pose proof (sval_range a ltac:(lia)).
  change (modulus 2) with 65536 in *. change (65536 / 2) with 32768 in *. change (2 ^ 16) with 65536 in *.
  assert (E : mkw 4 (uval (join a b) * 65536) = mkw 4 (sval a * 65536)).
  { apply mkw_eq. change (modulus 4) with (65536 * 65536). rewrite uval_join. change (modulus 2) with 65536. rewrite !Z.mul_mod_distr_r by lia. f_equal.
    replace (sval a mod 65536) with (uval a) by exact (eq_sym (sval_mod a)). rewrite (Z.mul_comm 65536), Z.mod_add by lia. apply Z.mod_small. lia. }
  rewrite E, sval_mkw; [now rewrite Z.div_mul by lia|lia|]. change (modulus 4 / 2) with 2147483648. lia.
Qed.
Lemma sign_odd (a b : word 2) : mkw 4 (sval (join a b) / 2 ^ 16) = mkw 4 (sval b).
Proof.
  f_equal. rewrite (sval_halves 2 (join a b)) by lia. rewrite lo_join, hi_join. pose proof (uval_range a). change (modulus 2) with 65536 in *. change (2 ^ 16) with 65536.
  rewrite Z.mul_comm, Z.div_add, Z.div_small by lia. lia.
Qed.
Lemma zero_even (a b : word 2) : mkw 4 (uval (mkw 4 (uval (join a b) * 2 ^ 16)) / 2 ^ 16) = mkw 4 (uval a).
Proof.
  f_equal. pose proof (uval_range a). pose proof (uval_range b). rewrite uval_mkw, uval_join. change (modulus 4) with (65536 * 65536). change (2 ^ 16) with 65536. change (modulus 2) with 65536 in *.
  rewrite Z.mul_mod_distr_r, Z.div_mul by lia. rewrite Z.mul_comm, Z.mod_add by lia. apply Z.mod_small. lia.
Qed.
Lemma zero_odd (a b : word 2) : mkw 4 (uval (join a b) / 2 ^ 16) = mkw 4 (uval b).
Proof.
  f_equal. rewrite uval_join. pose proof (uval_range a). change (modulus 2) with 65536 in *. change (2 ^ 16) with 65536.
  rewrite Z.mul_comm, Z.div_add, Z.div_small by lia. lia.
Qed.
Lemma load_list {A} (m : memory A) base xs : holds m base xs -> mem_load m base (length xs) = Some xs.
Proof. intros H. apply cells_holds in H. exact H. Qed.
Lemma short_int_ok (xs : list (word 2)) : length xs = 8%nat ->
  deinterleave_short_int (pack xs) = (pack (tab 4 (fun i => mkw 4 (sval (znth (w0 2) xs (2 * i))))), pack (tab 4 (fun i => mkw 4 (sval (znth (w0 2) xs (2 * i + 1)))))).
Proof.
  intros L. do 8 (destruct xs as [|? xs]; [discriminate|]). destruct xs; [|discriminate]. unfold deinterleave_short_int, srai_epi, slli_epi.
  rewrite pack_join8. rewrite !(lift1_pack (2 * 2)) by reflexivity. cbn [map].
  change (2 * 2)%nat with 4%nat in *. f_equal.
  - rewrite !sign_even. reflexivity.
  - pose proof sign_odd as SO. change (2 * 2)%nat with 4%nat in SO. rewrite !SO. reflexivity.
Qed.
Lemma ushort_uint_ok (xs : list (word 2)) : length xs = 8%nat ->
  deinterleave_ushort_uint (pack xs) = (pack (tab 4 (fun i => mkw 4 (uval (znth (w0 2) xs (2 * i))))), pack (tab 4 (fun i => mkw 4 (uval (znth (w0 2) xs (2 * i + 1)))))).
Proof.
  intros L. do 8 (destruct xs as [|? xs]; [discriminate|]). destruct xs; [|discriminate]. unfold deinterleave_ushort_uint, srli_epi, slli_epi.
  rewrite pack_join8. rewrite !(lift1_pack (2 * 2)) by reflexivity. cbn [map].
  change (2 * 2)%nat with 4%nat in *. f_equal.
  - rewrite !zero_even. reflexivity.
  - pose proof zero_odd as SO. change (2 * 2)%nat with 4%nat in SO. rewrite !SO. reflexivity.
Qed.

Lemma C45_deinterleave_int_main :
  forall (m : memory (word 2)) mem xs, length xs = 8%nat -> holds m mem xs ->
    (exists a b, deinterleave_mem_short_int m mem = Some (a, b) /\
       map sval (lanes 4 a) = tab 4 (fun i => sval (znth (w0 2) xs (2 * i))) /\
       map sval (lanes 4 b) = tab 4 (fun i => sval (znth (w0 2) xs (2 * i + 1)))) /\
    (exists a b, deinterleave_mem_ushort_uint m mem = Some (a, b) /\
       map uval (lanes 4 a) = tab 4 (fun i => uval (znth (w0 2) xs (2 * i))) /\
       map uval (lanes 4 b) = tab 4 (fun i => uval (znth (w0 2) xs (2 * i + 1)))).
Proof.
  intros m mem xs L H. apply load_list in H. rewrite L in H.
  assert (SV : forall f, map sval (tab 4 (fun i => mkw 4 (sval (f i : word 2)))) = tab 4 (fun i => sval (f i))).
  { intros f. unfold tab. rewrite map_map. apply map_ext. intros i. pose proof (sval_range (f (Z.of_nat i)) ltac:(lia)). change (modulus 2 / 2) with 32768 in *.
    apply sval_mkw; [lia|]. change (modulus 4 / 2) with 2147483648. lia. }
  assert (UV : forall f, map uval (tab 4 (fun i => mkw 4 (uval (f i : word 2)))) = tab 4 (fun i => uval (f i))).
  { intros f. unfold tab. rewrite map_map. apply map_ext. intros i. pose proof (uval_range (f (Z.of_nat i))). change (modulus 2) with 65536 in *.
    apply mkw_small. change (modulus 4) with 4294967296. lia. }
  split.
  - unfold deinterleave_mem_short_int. rewrite H. cbn [obind]. rewrite (short_int_ok xs L). eexists. eexists. split; [reflexivity|].
    rewrite !lanes_pack by reflexivity. now rewrite !SV.
  - unfold deinterleave_mem_ushort_uint. rewrite H. cbn [obind]. rewrite (ushort_uint_ok xs L). eexists. eexists. split; [reflexivity|].
    rewrite !lanes_pack by reflexivity. now rewrite !UV.
Qed.
