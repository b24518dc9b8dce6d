(** access to arrays of structs and deinterleave with AVX vectors (proofs). *)
From Coq Require Import ZArith List Bool Lia.
From Verif.Spec Require Import Seq MemSpec InterleaveSpec RoundSpec.
From Verif.Model Require Import SimdArray Mem Word SseReg Fp AvxReg AvxShuffle Interleave AvxInterleave.
Import ListNotations.
Local Open Scope Z_scope.
From Verif.Spec Require Import VectorSpec.
From Verif.Model Require Import SseConvert Deinterleave SseInt SseMove AvxConvert.
From Verif.Proof Require Import SeqP WordP AlgorithmsP SseIntP SseEmulP SseBuildP ConvertRegP AvxShuffleP AvxMaskP AvxConvertP InterleaveP InterleaveMain ConvertMain AvxInterleaveP.

Lemma C27_avx_interleave_main :
  forall (A : Type) (zero : A) va n kind data (i : Z -> Z) vs (m : memory A),
    In n [4; 8; 16]%nat -> (2 <= length vs <= 8)%nat -> (forall v, In v vs -> length v = n) ->
    (forall s, kind = Successive s -> forall e, 0 <= e < Z.of_nat n -> i e = i 0 + e * Z.of_nat s) ->
    disjoint_structs n (length vs) i -> members_mapped n (length vs) data i m ->
    exists m', avx_interleave_impl zero va n kind data i vs m = Some m' /\ structs_written n data i vs m m'.
Proof.
  intros A zero va n kind data i vs m Hn L F K D M. apply avx_interleave_impl_ok; auto.
  - destruct kind; cbn [kind_ok]; [auto|]. now apply K.
  - now apply Forall_forall.
Qed.

Lemma kind_ok_of n kind i : (forall s, kind = Successive s -> forall e, 0 <= e < Z.of_nat n -> i e = i 0 + e * Z.of_nat s) -> kind_ok (Z.of_nat n) kind i.
Proof. intros K. destruct kind; cbn [kind_ok]; [auto|]. now apply K. Qed.

Lemma C27_avx_deinterleave_main :
  forall (A : Type) (zero : A) n k kind data (i : Z -> Z) (m : memory A),
    In n [4; 8; 16]%nat -> (2 <= k <= 8)%nat ->
    (forall s, kind = Successive s -> forall e, 0 <= e < Z.of_nat n -> i e = i 0 + e * Z.of_nat s) ->
    members_mapped n (avx_members_read n k kind) data i m ->
    exists vs, avx_deinterleave_impl zero n k kind data i m = Some vs /\ structs_read n k data i m vs.
Proof.
  intros A zero n k kind data i m Hn Hk K H. apply (available_mapped zero) in H. apply kind_ok_of in K.
  eexists. split; [apply avx_deinterleave_ok; [exact Hn|exact Hk|exact K|exact H]|].
  apply rows_read. eapply available_le; [|exact H]. apply avx_members_read_ge.
Qed.

Lemma C27_avx_deinterleave_refuted_main :
  forall n k, In (n, k) [(8, 3); (8, 7); (16, 3); (16, 5); (16, 6); (16, 7)]%nat ->
  exists (m : memory Z) (data : Z) (i : Z -> Z),
    members_mapped n k data i m /\ disjoint_structs n k i /\ avx_deinterleave_impl 0 n k AnyIndex data i m = None.
Proof.
  intros n k H. exists (mem_of_list 0 (repeat 0 (n * k))), 0, (fun e => e * Z.of_nat k). split; [|split].
  - intros e c He Hc. unfold member, mem_of_list. cbn beta.
    repeat (destruct H as [H|H]; [injection H as <- <-|]); try contradiction;
    (match goal with |- (if ?b then _ else _) <> None => assert (Q : b = true) by (apply andb_true_intro; split; [apply Z.leb_le|apply Z.ltb_lt]; cbn [length repeat Nat.mul Nat.add]; lia) end; rewrite Q;
     apply nth_error_Some; rewrite repeat_length; lia).
  - intros e e' He He' N. cbn beta. nia.
  - repeat (destruct H as [H|H]; [injection H as <- <-; vm_compute; reflexivity|]). contradiction.
Qed.

Lemma C26_avx_write_main :
  forall (A : Type) (zero : A) va n struct_size data s vs (m : memory A),
    In n [4; 8; 16]%nat -> (2 <= length vs <= 8)%nat -> (length vs <= struct_size)%nat -> Z.of_nat struct_size < 2 ^ 31 ->
    (forall v, In v vs -> length v = n) -> offsets_representable n struct_size s -> different_structs s ->
    members_mapped n (length vs) data (struct_offset struct_size s) m ->
    exists m', avx_wrapper_write zero va n struct_size data s vs m = Some m' /\
      structs_written n data (struct_offset struct_size s) vs m m'.
Proof.
  intros A zero va n S data s vs m Hn L LS HS F R D M.
  assert (E : forall e, 0 <= e < Z.of_nat n -> subscript_at S s e = struct_offset S s e) by (intros e He; apply (subscript_ok n); auto; lia).
  destruct (C27_avx_interleave_main A zero va n (subscript_kind S s) data (subscript_at S s) vs m Hn L F) as (m' & E1 & W).
  - intros k Hk e He. destruct s as [idx|f]; cbn [subscript_kind] in Hk; [discriminate|]. injection Hk as <-.
    assert (0 <= 0 < Z.of_nat n) by (destruct Hn as [<-|[<-|[<-|[]]]]; lia). rewrite !E by lia. cbn [struct_offset]. lia.
  - apply disjoint_ext with (i' := struct_offset S s); [exact E|]. now apply offset_disjoint.
  - apply mapped_ext with (i' := struct_offset S s); [exact E|exact M].
  - exists m'. split; [|apply written_ext with (i := subscript_at S s); [exact E|exact W]]. unfold avx_wrapper_write.
    destruct (Nat.leb_spec (length vs) S); [exact E1|lia].
Qed.

Lemma C26_avx_read_main :
  forall (A : Type) (zero : A) n struct_size k data s (m : memory A),
    In n [4; 8; 16]%nat -> (2 <= k <= 8)%nat -> (0 < struct_size)%nat -> Z.of_nat struct_size < 2 ^ 31 ->
    offsets_representable n struct_size s ->
    members_mapped n (avx_members_read n k (match s with Indexes _ => AnyIndex | First _ => Successive struct_size end)) data (struct_offset struct_size s) m ->
    exists vs, avx_wrapper_read zero n struct_size k data s m = Some vs /\ structs_read n k data (struct_offset struct_size s) m vs.
Proof.
  intros A zero n S k data s m Hn Hk HS0 HS R M.
  assert (E : forall e, 0 <= e < Z.of_nat n -> subscript_at S s e = struct_offset S s e) by (intros e He; apply (subscript_ok n); auto; lia).
  destruct (C27_avx_deinterleave_main A zero n k (subscript_kind S s) data (subscript_at S s) m Hn Hk) as (vs & E1 & W).
  - intros j Hj e He. destruct s as [idx|f]; cbn [subscript_kind] in Hj; [discriminate|]. injection Hj as <-.
    assert (0 <= 0 < Z.of_nat n) by (destruct Hn as [<-|[<-|[<-|[]]]]; lia). rewrite !E by lia. cbn [struct_offset]. lia.
  - apply mapped_ext with (i' := struct_offset S s); [exact E|exact M].
  - exists vs. split; [exact E1|]. apply read_ext with (i := subscript_at S s); [exact E|exact W].
Qed.

Lemma C26_avx_round_trip_main :
  forall (A : Type) (zero : A) va n struct_size data s vs (m m' : memory A),
    In n [4; 8; 16]%nat -> (2 <= length vs <= 8)%nat -> Z.of_nat struct_size < 2 ^ 31 ->
    (forall v, In v vs -> length v = n) -> offsets_representable n struct_size s -> different_structs s ->
    members_mapped n (avx_members_read n (length vs) (match s with Indexes _ => AnyIndex | First _ => Successive struct_size end)) data (struct_offset struct_size s) m ->
    avx_wrapper_write zero va n struct_size data s vs m = Some m' ->
    avx_wrapper_read zero n struct_size (length vs) data s m' = Some vs.
Proof.
  intros A zero va n S data s vs m m' Hn L HS F R D M HW.
  assert (LS : (length vs <= S)%nat) by (unfold avx_wrapper_write in HW; destruct (Nat.leb_spec (length vs) S); [lia|discriminate]).
  destruct (C26_avx_write_main A zero va n S data s vs m Hn L LS HS F R D) as (m1 & E1 & W).
  { eapply mapped_le; [|exact M]. apply avx_members_read_ge. }
  rewrite HW in E1. injection E1 as <-.
  destruct (C26_avx_read_main A zero n S (length vs) data s m' Hn L ltac:(lia) HS R) as (vs' & E2 & (L2 & H2)).
  { intros e c He Hc. eapply written_mapped; [|exact W|now apply M]. now apply Forall_forall. }
  rewrite E2. f_equal. apply nth_error_ext'. intros c. destruct (nth_error vs' c) as [v'|] eqn:Q'.
  - assert (Hc : (c < length vs)%nat) by (rewrite <- L2; apply nth_error_Some; congruence).
    destruct (nth_error vs c) as [v|] eqn:Q; [|apply nth_error_None in Q; lia]. f_equal. destruct (H2 c v' Q') as [Lv' G'].
    assert (Lv : length v = n) by (apply F; eapply nth_error_In; eauto). apply nth_error_ext'. intros e.
    destruct (Nat.lt_ge_cases e n) as [He|He].
    + rewrite <- (G' e He). now apply (proj1 W).
    + rewrite (proj2 (nth_error_None v' e)), (proj2 (nth_error_None v e)) by lia. reflexivity.
  - apply nth_error_None in Q'. symmetry. apply nth_error_None. lia.
Qed.

Lemma C45_avx_deinterleave_main :
  forall (A : Type) (zero d : A) fp n (m : memory A) mem xs, In n [4; 8; 16]%nat -> length xs = (2 * n)%nat -> holds m mem xs ->
    avx_deinterleave_mem zero fp n m mem = Some (tab n (fun i => znth d xs (2 * i)), tab n (fun i => znth d xs (2 * i + 1))).
Proof.
  intros A zero d fp n m mem xs Hn L H. unfold avx_deinterleave_mem.
  rewrite (load_map m (fun c => nth c xs d) mem n) by (intros c Hc; apply holds_nth_nat; [exact H|lia]).
  rewrite (load_map m (fun c => nth (n + c) xs d) (mem + Z.of_nat n) n)
    by (intros c Hc; rewrite <- Z.add_assoc, <- Nat2Z.inj_add; apply holds_nth_nat; [exact H|lia]).
  cbn [obind]. destruct Hn as [<-|[<-|[<-|[]]]].
  - do 8 (destruct xs as [|? xs]; [discriminate|]). destruct xs; [reflexivity|discriminate].
  - do 16 (destruct xs as [|? xs]; [discriminate|]). destruct xs; [destruct fp; reflexivity|discriminate].
  - do 32 (destruct xs as [|? xs]; [discriminate|]). destruct xs; [reflexivity|discriminate].
Qed.

Lemma C45_avx_deinterleave3_main :
  forall (A : Type) (zero d : A) n (m : memory A) mem xs, In n [4; 8]%nat -> length xs = (3 * n)%nat -> holds m mem xs ->
    avx_deinterleave3_mem zero n m mem =
      Some (tab n (fun i => znth d xs (3 * i)), tab n (fun i => znth d xs (3 * i + 1)), tab n (fun i => znth d xs (3 * i + 2))).
Proof.
  intros A zero d n m mem xs Hn L H. unfold avx_deinterleave3_mem.
  assert (G : forall j, (j < 3)%nat -> mem_load m (mem + Z.of_nat j * Z.of_nat n) n = Some (map (fun c => nth (j * n + c) xs d) (seq 0 n))).
  { intros j Hj. apply load_map. intros c Hc. rewrite <- Z.add_assoc, <- Nat2Z.inj_mul, <- Nat2Z.inj_add. apply holds_nth_nat; [exact H|nia]. }
  pose proof (G 0%nat ltac:(lia)) as G0. pose proof (G 1%nat ltac:(lia)) as G1. pose proof (G 2%nat ltac:(lia)) as G2.
  change (Z.of_nat 0) with 0 in G0. change (Z.of_nat 1) with 1 in G1. change (Z.of_nat 2) with 2 in G2. rewrite G0, G1, G2. clear G G0 G1 G2 H. cbn [obind].
  destruct Hn as [<-|[<-|[]]].
  - do 12 (destruct xs as [|? xs]; [discriminate|]). destruct xs; [reflexivity|discriminate].
  - do 24 (destruct xs as [|? xs]; [discriminate|]). destruct xs; [reflexivity|discriminate].
Qed.

Lemma C45_avx_deinterleave3_refuted_main :
  (forall (A : Type) (zero d : A) (m : memory A) mem xs, length xs = 48%nat -> holds m mem xs ->
    avx_deinterleave3_mem zero 16 m mem = Some (tab 16 (fun i => znth d xs i), tab 16 (fun i => znth d xs (16 + i)), tab 16 (fun i => znth d xs (32 + i)))) /\
  exists (m : memory Z) mem xs, length xs = 48%nat /\ holds m mem xs /\
    avx_deinterleave3_mem 0 16 m mem <> Some (tab 16 (fun i => znth 0 xs (3 * i)), tab 16 (fun i => znth 0 xs (3 * i + 1)), tab 16 (fun i => znth 0 xs (3 * i + 2))).
Proof.
  assert (P : forall (A : Type) (zero d : A) (m : memory A) mem xs, length xs = 48%nat -> holds m mem xs ->
    avx_deinterleave3_mem zero 16 m mem = Some (tab 16 (fun i => znth d xs i), tab 16 (fun i => znth d xs (16 + i)), tab 16 (fun i => znth d xs (32 + i)))).
  { intros A zero d m mem xs L H. unfold avx_deinterleave3_mem.
    assert (G : forall j, (j < 3)%nat -> mem_load m (mem + Z.of_nat j * Z.of_nat 16) 16 = Some (map (fun c => nth (j * 16 + c) xs d) (seq 0 16))).
    { intros j Hj. apply load_map. intros c Hc. rewrite <- Z.add_assoc, <- Nat2Z.inj_mul, <- Nat2Z.inj_add. apply holds_nth_nat; [exact H|nia]. }
    pose proof (G 0%nat ltac:(lia)) as G0. pose proof (G 1%nat ltac:(lia)) as G1. pose proof (G 2%nat ltac:(lia)) as G2.
    change (Z.of_nat 0) with 0 in G0. change (Z.of_nat 1) with 1 in G1. change (Z.of_nat 2) with 2 in G2. rewrite G0, G1, G2. clear G G0 G1 G2 H. cbn [obind].
    do 48 (destruct xs as [|? xs]; [discriminate|]). destruct xs; [reflexivity|discriminate]. }
  split; [exact P|]. exists (mem_of_list 0 (tab 48 (fun i => i))), 0, (tab 48 (fun i => i)).
  assert (H : holds (mem_of_list 0 (tab 48 (fun i => i))) 0 (tab 48 (fun i => i))).
  { intros i Hi. unfold mem_of_list. rewrite tab_length in *. destruct (Z.leb_spec 0 (0 + Z.of_nat i)); [|lia]. destruct (Z.ltb_spec (0 + Z.of_nat i) (0 + Z.of_nat 48)); [|lia].
    cbn [andb]. f_equal. lia. }
  split; [reflexivity|]. split; [exact H|]. intros C. vm_compute in C. discriminate C.
Qed.

Lemma split16 (xs : list (word 2)) : length xs = 16%nat ->
  exists l h, xs = l ++ h /\ length l = 8%nat /\ length h = 8%nat /\ ypack xs = Ymm (pack l) (pack h).
Proof. intros L. apply (split_halves xs); [now left|exact L]. Qed.
Lemma tab_halves {B} (f : Z -> word 2 -> B) (l h : list (word 2)) o : length l = 8%nat -> length h = 8%nat -> 0 <= o <= 1 ->
  tab 4 (fun i => f 0 (znth (w0 2) l (2 * i + o))) ++ tab 4 (fun i => f 0 (znth (w0 2) h (2 * i + o))) = tab 8 (fun i => f 0 (znth (w0 2) (l ++ h) (2 * i + o))).
Proof.
  intros L1 L2 Ho. assert (O : o = 0 \/ o = 1) by lia.
  do 8 (destruct l as [|? l]; [discriminate|]). destruct l; [|discriminate]. do 8 (destruct h as [|? h]; [discriminate|]). destruct h; [|discriminate].
  destruct O as [-> | ->]; reflexivity.
Qed.
Lemma short_int_y (xs : list (word 2)) : length xs = 16%nat ->
  avx_deinterleave_short_int (ypack xs) = (ypack (tab 8 (fun i => mkw 4 (sval (znth (w0 2) xs (2 * i))))), ypack (tab 8 (fun i => mkw 4 (sval (znth (w0 2) xs (2 * i + 1)))))).
Proof.
  intros L. destruct (split16 xs L) as (l & h & -> & Ll & Lh & E). rewrite E. unfold avx_deinterleave_short_int. cbn [lo128 hi128].
  pose proof (short_int_ok l Ll) as El. pose proof (short_int_ok h Lh) as Eh. unfold deinterleave_short_int in El, Eh.
  pose proof (f_equal fst El) as El1. pose proof (f_equal snd El) as El2. pose proof (f_equal fst Eh) as Eh1. pose proof (f_equal snd Eh) as Eh2. cbn [fst snd] in *.
  rewrite El1, El2, Eh1, Eh2. rewrite !ypack_inj_app by reflexivity.
  pose proof (tab_halves (fun _ x => mkw 4 (sval x)) l h 0 Ll Lh ltac:(lia)) as T0. pose proof (tab_halves (fun _ x => mkw 4 (sval x)) l h 1 Ll Lh ltac:(lia)) as T1. cbn beta in T0, T1.
  rewrite <- T1. f_equal. f_equal. etransitivity; [etransitivity; [|exact T0]|].
  - f_equal; apply tab_ext; intros i _; now rewrite Z.add_0_r.
  - apply tab_ext; intros i _; now rewrite Z.add_0_r.
Qed.
Lemma sval_tab n f : map sval (tab n (fun i => mkw 4 (sval (f i : word 2)))) = tab n (fun i => sval (f i)).
Proof. unfold tab. rewrite map_map. apply map_ext. intros i. apply sval_short_wide. Qed.
Lemma uval_short_wide (x : word 2) : uval (mkw 4 (sval x)) = if uval x <? 2 ^ 15 then uval x else uval x + (2 ^ 32 - 2 ^ 16).
Proof.
  pose proof (uval_range x) as R. change (modulus 2) with 65536 in R. rewrite uval_mkw. change (modulus 4) with 4294967296. unfold sval, to_signed.
  change (modulus 2 / 2) with 32768. change (modulus 2) with 65536. change (2 ^ 15) with 32768. change (2 ^ 32 - 2 ^ 16) with 4294901760.
  destruct (Z.ltb_spec (uval x) 32768); [apply Z.mod_small; lia|]. rewrite <- (Z.mod_add _ 1) by lia. rewrite Z.mod_small by lia. lia.
Qed.
Lemma uval_tab n f : map uval (tab n (fun i => mkw 4 (sval (f i : word 2)))) = tab n (fun i => if uval (f i) <? 2 ^ 15 then uval (f i) else uval (f i) + (2 ^ 32 - 2 ^ 16)).
Proof. unfold tab. rewrite map_map. apply map_ext. intros i. apply uval_short_wide. Qed.
Lemma load16 (m : memory (word 2)) mem xs : length xs = 16%nat -> holds m mem xs -> mem_load m mem 16 = Some xs.
Proof. intros L H. apply load_list in H. now rewrite L in H. Qed.
Lemma ylanes_tab8 (f : Z -> word 4) : ylanes 4 (ypack (tab 8 f)) = tab 8 f.
Proof. apply ylanes_ypack; [right; now left|now rewrite tab_length]. Qed.

Lemma C45_avx_deinterleave_int_main :
  forall (m : memory (word 2)) mem xs, length xs = 16%nat -> holds m mem xs ->
    exists a b, avx_deinterleave_conv avx_deinterleave_short_int m mem = Some (a, b) /\
       map sval (ylanes 4 a) = tab 8 (fun i => sval (znth (w0 2) xs (2 * i))) /\
       map sval (ylanes 4 b) = tab 8 (fun i => sval (znth (w0 2) xs (2 * i + 1))).
Proof.
  intros m mem xs L H. unfold avx_deinterleave_conv. rewrite (load16 m mem xs L H). cbn [obind]. rewrite short_int_y by exact L. eexists. eexists. split; [reflexivity|].
  rewrite !ylanes_tab8. split; apply (sval_tab 8).
Qed.

Lemma C45_avx_deinterleave_uint_partial_main :
  forall (m : memory (word 2)) mem xs, length xs = 16%nat -> holds m mem xs -> (forall x, In x xs -> uval x < 2 ^ 15) ->
    exists a b, avx_deinterleave_conv avx_deinterleave_ushort_uint m mem = Some (a, b) /\
       map uval (ylanes 4 a) = tab 8 (fun i => uval (znth (w0 2) xs (2 * i))) /\
       map uval (ylanes 4 b) = tab 8 (fun i => uval (znth (w0 2) xs (2 * i + 1))).
Proof.
  intros m mem xs L H B. unfold avx_deinterleave_conv. rewrite (load16 m mem xs L H). cbn [obind]. change avx_deinterleave_ushort_uint with avx_deinterleave_short_int.
  rewrite short_int_y by exact L. eexists. eexists. split; [reflexivity|].
  rewrite !ylanes_tab8, !uval_tab.
  assert (Q : forall k, 0 <= k < 16 -> uval (znth (w0 2) xs k) < 2 ^ 15) by (intros k Hk; apply B; rewrite znth_nth by lia; apply nth_In; lia).
  split; apply tab_ext; intros i Hi.
  - specialize (Q (2 * i) ltac:(lia)). destruct (Z.ltb_spec (uval (znth (w0 2) xs (2 * i))) (2 ^ 15)); [reflexivity|lia].
  - specialize (Q (2 * i + 1) ltac:(lia)). destruct (Z.ltb_spec (uval (znth (w0 2) xs (2 * i + 1))) (2 ^ 15)); [reflexivity|lia].
Qed.

Lemma C45_avx_deinterleave_uint_refuted_main :
  forall (m : memory (word 2)) mem xs, length xs = 16%nat -> holds m mem xs ->
    exists a b, avx_deinterleave_conv avx_deinterleave_ushort_uint m mem = Some (a, b) /\
      forall i, 0 <= i < 8 -> 2 ^ 15 <= uval (znth (w0 2) xs (2 * i)) -> uval (znth (w0 4) (ylanes 4 a) i) = uval (znth (w0 2) xs (2 * i)) + 2 ^ 32 - 2 ^ 16.
Proof.
  intros m mem xs L H. unfold avx_deinterleave_conv. rewrite (load16 m mem xs L H). cbn [obind]. change avx_deinterleave_ushort_uint with avx_deinterleave_short_int.
  rewrite short_int_y by exact L. eexists. eexists. split; [reflexivity|]. intros i Hi B. rewrite ylanes_tab8.
  rewrite znth_nth by (rewrite tab_length; lia). rewrite nth_tab by lia. rewrite Z2Nat.id by lia. rewrite uval_short_wide.
  destruct (Z.ltb_spec (uval (znth (w0 2) xs (2 * i))) (2 ^ 15)); lia.
Qed.

Lemma deint_lane8 (f : Z -> word 4) (g : Z -> Z) : (forall i, sval (f i) = g i) -> (forall i, Z.abs (g i) <= 2 ^ 16) ->
  Forall2 has_value (ylanes 4 (ycvtepi32_ps (ypack (tab 8 f)))) (tab 8 g).
Proof.
  intros H B.
  assert (E : ypack (tab 8 f) = Ymm (pack (tab 4 f)) (pack (tab 4 (fun i => f (4 + i))))) by (rewrite ypack_inj_app by reflexivity; f_equal).
  rewrite E. unfold ycvtepi32_ps, ymap1. rewrite ylanes_halves. cbn [lo128 hi128].
  assert (E2 : tab 8 g = tab 4 g ++ tab 4 (fun i => g (4 + i))) by reflexivity. rewrite E2. apply Forall2_app; apply deint_lane; auto.
Qed.
Lemma zero_even_blend (l : list (word 2)) : length l = 8%nat ->
  blend 8 2 (pack l) (setzero 8 0) 0xaa = pack (tab 4 (fun i => mkw 4 (uval (znth (w0 2) l (2 * i))))).
Proof.
  intros L. change (setzero 8 0) with mm_setzero. rewrite (setzero_pack 2) by (unfold lane_ok; auto).
  change 0xaa%nat with (Z.to_nat 0xaa). rewrite SseEmulP.blend_pack by (try lia; try exact L; try reflexivity; unfold lane_ok; auto).
  destruct l as [|x0 [|x1 [|x2 [|x3 [|x4 [|x5 [|x6 [|x7 [|]]]]]]]]]; try discriminate.
  assert (Q : forall a : word 2, join a (w0 2) = mkw 4 (uval a)).
  { intros a. apply word_ext. rewrite uval_join, uval_mkw. change (uval (w0 2)) with 0. rewrite Z.mul_0_r, Z.add_0_r. symmetry. apply Z.mod_small.
    pose proof (uval_range a). change (modulus 2) with 65536 in *. change (modulus 4) with 4294967296. lia. }
  unfold blend_spec. cbn [length seq map]. etransitivity; [|etransitivity; [apply (pack_join8 x0 (w0 2) x2 (w0 2) x4 (w0 2) x6 (w0 2))|]].
  - reflexivity.
  - rewrite !Q. reflexivity.
Qed.
Lemma ushort_odd (l : list (word 2)) : length l = 8%nat -> srli_epi 4 (pack l) 16 = pack (tab 4 (fun i => mkw 4 (uval (znth (w0 2) l (2 * i + 1))))).
Proof. intros L. pose proof (f_equal snd (ushort_uint_ok l L)) as E. exact E. Qed.
Lemma ushort_y (xs : list (word 2)) : length xs = 16%nat ->
  avx_deinterleave_ushort_float (ypack xs) =
  (ycvtepi32_ps (ypack (tab 8 (fun i => mkw 4 (uval (znth (w0 2) xs (2 * i)))))), ycvtepi32_ps (ypack (tab 8 (fun i => mkw 4 (uval (znth (w0 2) xs (2 * i + 1))))))).
Proof.
  intros L. destruct (split16 xs L) as (l & h & -> & Ll & Lh & E). rewrite E. unfold avx_deinterleave_ushort_float. cbn [lo128 hi128].
  rewrite !zero_even_blend, !ushort_odd by assumption. rewrite !ypack_inj_app by reflexivity.
  pose proof (tab_halves (fun _ x => mkw 4 (uval x)) l h 0 Ll Lh ltac:(lia)) as T0. pose proof (tab_halves (fun _ x => mkw 4 (uval x)) l h 1 Ll Lh ltac:(lia)) as T1. cbn beta in T0, T1.
  rewrite <- T1. f_equal. f_equal. f_equal. etransitivity; [etransitivity; [|exact T0]|].
  - f_equal; apply tab_ext; intros i _; now rewrite Z.add_0_r.
  - apply tab_ext; intros i _; now rewrite Z.add_0_r.
Qed.

Lemma C45_avx_deinterleave_float_main :
  forall (m : memory (word 2)) mem xs, length xs = 16%nat -> holds m mem xs ->
    (exists a b, avx_deinterleave_conv avx_deinterleave_short_float m mem = Some (a, b) /\
       Forall2 has_value (ylanes 4 a) (tab 8 (fun i => sval (znth (w0 2) xs (2 * i)))) /\
       Forall2 has_value (ylanes 4 b) (tab 8 (fun i => sval (znth (w0 2) xs (2 * i + 1))))) /\
    (exists a b, avx_deinterleave_conv avx_deinterleave_ushort_float m mem = Some (a, b) /\
       Forall2 has_value (ylanes 4 a) (tab 8 (fun i => uval (znth (w0 2) xs (2 * i)))) /\
       Forall2 has_value (ylanes 4 b) (tab 8 (fun i => uval (znth (w0 2) xs (2 * i + 1))))).
Proof.
  intros m mem xs L H. unfold avx_deinterleave_conv. rewrite (load16 m mem xs L H). cbn [obind].
  assert (SB : forall x : word 2, Z.abs (sval x) <= 2 ^ 16) by (intros x; pose proof (sval_range x ltac:(lia)); change (modulus 2 / 2) with (2 ^ 15) in *; lia).
  assert (UB : forall x : word 2, Z.abs (uval x) <= 2 ^ 16) by (intros x; pose proof (uval_range x); change (modulus 2) with (2 ^ 16) in *; lia).
  split.
  - assert (E : avx_deinterleave_short_float (ypack xs) = (ycvtepi32_ps (fst (avx_deinterleave_short_int (ypack xs))), ycvtepi32_ps (snd (avx_deinterleave_short_int (ypack xs))))) by reflexivity.
    rewrite E, short_int_y by exact L. cbn [fst snd]. eexists. eexists. split; [reflexivity|]. split; apply deint_lane8; intros i; auto using sval_short_wide.
  - rewrite ushort_y by exact L. eexists. eexists. split; [reflexivity|]. split; apply deint_lane8; intros i; auto using sval_ushort_wide.
Qed.
