(** gather and scatter through data[indexes][&S::member][k][inner] *)
From Coq Require Import ZArith List Bool Lia.
From Verif.Spec Require Import Seq NativeSpec OperandSpec GatherSpec CastSpec ByteMemSpec SubscriptSpec.
From Verif.Model Require Import Word SseReg SseMove SortNet SseBuild SseInt SimdArray SimdArrayOps Mem GatherScatter AvxReg AvxMove AvxShuffle AvxMask AvxBuild AvxGather Subscript.
Import ListNotations.
Local Open Scope Z_scope.
From Verif.Proof Require SubscriptMain.

(** C65: v = data[indexes]... reads, for every entry i, the number at the end of the subscripts in object indexes[i], and is
undefined if one of them is not readable.  For all types, ways, and indexes that are expressions in the sense of
Spec/SubscriptSpec.v, for every size and for SSE and AVX builds.  Missing: distances that do not fit the index type
(C65_overflow_refuted), arrays of objects whose size does not divide the indexed one (C65_nested_refuted). *)
Theorem C65_gather_partial :
  forall (A : Type) (zero : A) b e n (t : sa A) k st S p idx data (m : memory A), wf (native_of b e) n t -> expression k st n (Z.of_nat (esize e)) S p idx ->
    (mapped m data (place S p idx) n (fun _ => true) ->
       exists r, subscript_gather b e k st m S data idx p t = Some r /\ wf (native_of b e) n r /\
         gathered zero m data (place S p idx) (fun _ => true) (to_list t) (to_list r)) /\
    ((exists i, 0 <= i < Z.of_nat n /\ m (data + place S p idx i) = None) -> subscript_gather b e k st m S data idx p t = None).
Proof. exact SubscriptMain.C65_gather_partial_main. Qed.
Print Assumptions C65_gather_partial.

Example C65_gather_partial_ex :
  expression IxInt InStdVector 5 4 sample sample_way sample_indexes /\
  option_map (@to_list Z) (subscript_gather SseTarget Float IxInt InStdVector (fun a => Some a) sample 1000 sample_indexes sample_way (generate (sse_native 4) 5 (fun _ => 0))) =
    Some [1084; 1004; 1032; 1032; 1052] /\ map (place sample sample_way sample_indexes) [0; 1; 2; 3; 4] = [84; 4; 32; 32; 52].
Proof.
  split; [apply SubscriptP.sample_expression; now left|vm_compute; split; reflexivity].
Qed.

(** C65: with a write mask only the entries of the mask are read and assigned, and only their addresses have to be readable
(indexes in a vector or SimdArray: with a std::vector the code does not compile).  Missing as in C65_gather_partial, and the
SetIndexZero strategy (C24_setindexzero_refuted). *)
Theorem C65_gather_masked_partial :
  forall (A : Type) (zero : A) b e strategy hw n (t : sa A) (mask : sa bool) k st S p idx data (m : memory A), strategy <> SetIndexZero -> is_simd st = true ->
    wf (native_of b e) n t -> wf (native_of b e) n mask -> expression k st n (Z.of_nat (esize e)) S p idx ->
    let sel := znth false (to_list mask) in
    (mapped m data (place S p idx) n sel ->
       exists r, subscript_gather_mask b e strategy hw k st m S data idx p mask t = Some r /\ wf (native_of b e) n r /\
         gathered zero m data (place S p idx) sel (to_list t) (to_list r)) /\
    ((exists i, 0 <= i < Z.of_nat n /\ sel i = true /\ m (data + place S p idx i) = None) -> subscript_gather_mask b e strategy hw k st m S data idx p mask t = None).
Proof. exact SubscriptMain.C65_gather_masked_partial_main. Qed.
Print Assumptions C65_gather_masked_partial.

Example C65_gather_masked_partial_ex :
  expression IxInt (InArray (sse_native 4)) 5 4 sample sample_way sample_indexes /\
  option_map (@to_list Z) (subscript_gather_mask SseTarget Float BitScanLoop true IxInt (InArray (sse_native 4)) (fun a => if a =? 1084 then None else Some a) sample 1000
    sample_indexes sample_way (generate (sse_native 4) 5 (fun i => negb (i =? 0))) (generate (sse_native 4) 5 (fun _ => 7))) = Some [7; 1004; 1032; 1032; 1052].
Proof.
  split; [apply SubscriptP.sample_expression; right; exists (sse_native 4); split; [reflexivity|exact (SseBuildP.build_widths Float)]|vm_compute; reflexivity].
Qed.

(** C65: data[indexes]... = v writes entry i of v to the number at the end of the subscripts in object indexes[i]; of entries with
the same number the last one stays; nothing else changes; and the assignment is undefined if one of the numbers is not
writable.  Missing as in C65_gather_partial. *)
Theorem C65_scatter_partial :
  forall (A : Type) (zero : A) b e n (t : sa A) k st S p idx data (m : memory A), wf (native_of b e) n t -> expression k st n (Z.of_nat (esize e)) S p idx ->
    (mapped m data (place S p idx) n (fun _ => true) ->
       exists m', subscript_scatter zero b e k st t S data idx p m = Some m' /\
         scattered_last zero (to_list t) data (place S p idx) (fun _ => true) m m') /\
    ((exists i, 0 <= i < Z.of_nat n /\ m (data + place S p idx i) = None) -> subscript_scatter zero b e k st t S data idx p m = None).
Proof. exact SubscriptMain.C65_scatter_partial_main. Qed.
Print Assumptions C65_scatter_partial.

Example C65_scatter_partial_ex :
  expression IxInt InStdVector 5 4 sample sample_way sample_indexes /\
  option_map (fun m' => map m' [1084; 1004; 1032; 1052; 1036]) (subscript_scatter 0 SseTarget Float IxInt InStdVector (generate (sse_native 4) 5 (fun i => 10 + i)) sample 1000
    sample_indexes sample_way (fun a => Some 0)) = Some [Some 10; Some 11; Some 13; Some 14; Some 0].
Proof.
  split; [apply SubscriptP.sample_expression; now left|vm_compute; reflexivity].
Qed.

(** C65: with a write mask only the entries of the mask are written, and only their addresses have to be writable.  Missing as in
C65_gather_partial; the strategy is SimpleLoop (the one the code uses; C25 for others). *)
Theorem C65_scatter_masked_partial :
  forall (A : Type) (zero : A) b e hw n (t : sa A) (mask : sa bool) k st S p idx data (m : memory A),
    wf (native_of b e) n t -> wf (native_of b e) n mask -> expression k st n (Z.of_nat (esize e)) S p idx ->
    let sel := znth false (to_list mask) in
    (mapped m data (place S p idx) n sel ->
       exists m', subscript_scatter_mask zero b e SimpleLoop hw k st t mask S data idx p m = Some m' /\
         scattered_last zero (to_list t) data (place S p idx) sel m m') /\
    ((exists i, 0 <= i < Z.of_nat n /\ sel i = true /\ m (data + place S p idx i) = None) -> subscript_scatter_mask zero b e SimpleLoop hw k st t mask S data idx p m = None).
Proof. exact SubscriptMain.C65_scatter_masked_partial_main. Qed.
Print Assumptions C65_scatter_masked_partial.

Example C65_scatter_masked_partial_ex :
  expression IxInt InStdVector 5 4 sample sample_way sample_indexes /\
  option_map (fun m' => map m' [1084; 1004; 1032; 1052; 1036]) (subscript_scatter_mask 0 SseTarget Float SimpleLoop true IxInt InStdVector (generate (sse_native 4) 5 (fun i => 10 + i))
    (generate (sse_native 4) 5 (fun i => negb (i =? 3))) sample 1000 sample_indexes sample_way (fun a => Some 0)) = Some [Some 10; Some 11; Some 12; Some 14; Some 0].
Proof.
  split; [apply SubscriptP.sample_expression; now left|vm_compute; reflexivity].
Qed.

(** C65: with the gather instructions of AVX2 (float, int, unsigned int and double entries, a native vector of int indexes), on
memory of bytes: the same numbers, and undefined if one of their bytes is not readable.  Missing as in C65_gather_partial,
unsigned indexes (see C24_avx2_gather) and 16-bit entries. *)
Theorem C65_avx2_gather_partial :
  forall undef e S p idx data m, length undef = 16%nat -> Forall (fun b => 0 <= b < 256) undef -> (4 <= esize e)%nat -> byte_memory m ->
    let n := (32 / esize e)%nat in expression IxInt InVector n (Z.of_nat (esize e)) S p idx ->
    ((forall i, 0 <= i < Z.of_nat n -> readable m (data + place S p idx i) (esize e)) ->
       exists xs : list (elt e), avx2_subscript_gather undef e m S data idx p = Some (ypack xs) /\ length xs = n /\
         forall i, 0 <= i < Z.of_nat n -> number_at m (data + place S p idx i) (esize e) (uval (znth (w0 (esize e)) xs i))) /\
    ((exists i j, 0 <= i < Z.of_nat n /\ 0 <= j < Z.of_nat (esize e) /\ m (data + place S p idx i + j) = None) ->
       avx2_subscript_gather undef e m S data idx p = None).
Proof. exact SubscriptMain.C65_avx2_gather_partial_main. Qed.
Print Assumptions C65_avx2_gather_partial.

Example C65_avx2_gather_partial_ex :
  expression IxInt InVector 4 8 (Class 24 [(0, Number 8); (8, Array 2 (Number 8))]) [Member 1; At 1] [3; 0; 1; 1] /\
  avx2_subscript_gather (repeat 0 16) Double (fun a => if a <? 2000 then Some (a mod 256) else None) (Class 24 [(0, Number 8); (8, Array 2 (Number 8))]) 1000 [3; 0; 1; 1] [Member 1; At 1] =
    Some (ypack (map (fun a => mkw 8 (of_bytes (map (fun i => (a + i) mod 256) [0; 1; 2; 3; 4; 5; 6; 7]))) [1088; 1016; 1040; 1040])).
Proof.
  split; [exact SubscriptP.sample_expression8|vm_compute; reflexivity].
Qed.

(** C65: with a write mask the gather instructions read only the numbers of the entries of the mask and keep the other entries.
Missing as in C65_avx2_gather_partial. *)
Theorem C65_avx2_gather_masked_partial :
  forall undef e (old : list (elt e)) ks S p idx data m, length undef = 16%nat -> Forall (fun b => 0 <= b < 256) undef -> (4 <= esize e)%nat -> byte_memory m ->
    let n := (32 / esize e)%nat in expression IxInt InVector n (Z.of_nat (esize e)) S p idx -> length old = n -> length ks = n ->
    let g := avx2_subscript_gather_mask undef e (ypack old) (ymask_reg (esize e) ks) m S data idx p in
    ((forall i, 0 <= i < Z.of_nat n -> znth false ks i = true -> readable m (data + place S p idx i) (esize e)) ->
       exists xs : list (elt e), g = Some (ypack xs) /\ length xs = n /\
         forall i, 0 <= i < Z.of_nat n ->
           if znth false ks i then number_at m (data + place S p idx i) (esize e) (uval (znth (w0 (esize e)) xs i))
           else znth (w0 (esize e)) xs i = znth (w0 (esize e)) old i) /\
    ((exists i j, 0 <= i < Z.of_nat n /\ znth false ks i = true /\ 0 <= j < Z.of_nat (esize e) /\ m (data + place S p idx i + j) = None) -> g = None).
Proof. exact SubscriptMain.C65_avx2_gather_masked_partial_main. Qed.
Print Assumptions C65_avx2_gather_masked_partial.

Example C65_avx2_gather_masked_partial_ex :
  expression IxInt InVector 4 8 (Class 24 [(0, Number 8); (8, Array 2 (Number 8))]) [Member 1; At 1] [3; 0; 1; 1] /\
  avx2_subscript_gather_mask (repeat 0 16) Double (ypack (repeat (mkw 8 9) 4)) (ymask_reg 8 [false; true; false; true]) (fun a => if a <? 1080 then Some (a mod 256) else None)
      (Class 24 [(0, Number 8); (8, Array 2 (Number 8))]) 1000 [3; 0; 1; 1] [Member 1; At 1] =
    Some (ypack [mkw 8 9; mkw 8 (of_bytes (map (fun i => (1016 + i) mod 256) [0; 1; 2; 3; 4; 5; 6; 7])); mkw 8 9; mkw 8 (of_bytes (map (fun i => (1040 + i) mod 256) [0; 1; 2; 3; 4; 5; 6; 7]))]).
Proof.
  split; [exact SubscriptP.sample_expression8|vm_compute; reflexivity].
Qed.

(** C65 without the condition on inner indexes fails: for struct P { float x, y, z; } and struct S { int id; P p[2]; } the expression
data[{1}][&S::p][{0}][&P::z] compiles and reads offset 36 (data[1].p[0].y) instead of offset 40: subscript.h:150 truncates
sizeof(S) / sizeof(P) = 28 / 12 to 2. *)
Theorem C65_nested_refuted :
  let P := Class 12 [(0, Number 4); (4, Number 4); (8, Number 4)] in
  let S := Class 28 [(0, Number 4); (4, Array 2 P)] in
  let p := [Member 1; AtEach [0; 0; 0; 0]; Member 2] in
  laid_out S /\ reach S p = Some (Number 4) /\ in_bounds 4 S p /\ ~ divides (sizeof S) S p /\ place S p [1; 1; 1; 1] 0 = 40 /\
  option_map (@to_list Z) (subscript_gather SseTarget Float IxInt InVector (fun a => Some (a - 1000)) S 1000 [1; 1; 1; 1] p (generate (sse_native 4) 4 (fun _ => 0))) =
    Some [36; 36; 36; 36].
Proof. exact SubscriptMain.C65_nested_refuted_main. Qed.
Print Assumptions C65_nested_refuted.

(** C65 without the condition on distances fails: with an int vector of indexes and objects of 1024 bytes, object 2^23 is 2^31 ints
away from object 0; the product wraps and object - 2^23 is read. *)
Theorem C65_overflow_refuted :
  let S := Class 1024 [(0, Number 4); (4, Array 255 (Number 4))] in
  laid_out S /\ place S [Member 0] [8388608; 0; 0; 0] 0 = 2 ^ 33 /\
  option_map (@to_list Z) (subscript_gather SseTarget Float IxInt InVector (fun a => Some a) S 0 [8388608; 0; 0; 0] [Member 0] (generate (sse_native 4) 4 (fun _ => 0))) =
    Some [- 2 ^ 33; 0; 0; 0].
Proof. exact SubscriptMain.C65_overflow_refuted_main. Qed.
Print Assumptions C65_overflow_refuted.
