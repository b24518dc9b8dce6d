(** loads and stores with conversions, flags and masks, on a memory of bytes *)
From Coq Require Import ZArith List Bool Lia.
From Verif.Spec Require Import Seq NativeSpec CastSpec ByteMemSpec LoadSpec.
From Verif.Model Require Import Word SseReg SplitSize SimdArray SimdArrayOps Mem SseMove SortNet SseInt SseBuild SseMask AvxReg AvxMove AvxBuild AvxShuffle AvxMask LoadStore.
From Verif.Spec Require Import FloatSpec RoundSpec.
From Verif.Model Require Import Fp FpArith AvxConvert.
From Verif.Proof Require SeqP.
Import ListNotations.
Local Open Scope Z_scope.
From Verif.Proof Require LoadStoreMain.

(** C50: SimdArray<T, N>::load(const U *, flags) in SSE builds, every N (with N = Vector<T>::size(): Vector<T>::load), every
pair of types that compiles: with N elements of type U at the address, entry i is the i-th element converted to T as by
static_cast.  The address has to be aligned to MemoryAlignment unless the flags contain Vc::Unaligned; nothing is assumed
about any other byte of the memory. *)
Theorem C50_sse_load :
  forall sse41 e mt f m n a vs, (1 <= n)%nat -> loads_from e mt = true -> length vs = n -> elements_at m a mt vs ->
    flag_ok f (sse_alignment (esize e) n) a ->
    exists t, sse_array_load sse41 e mt f m n a = Some t /\ wf (sse_native (esize e)) n t /\ Forall2 (converted mt e) vs (to_list t).
Proof. exact LoadStoreMain.C50_sse_load_main. Qed.
Print Assumptions C50_sse_load.

Example C50_sse_load_ex :
  loads_from Int (MElt Short) = true /\ flag_ok {| unaligned := false; streaming := true |} (sse_alignment 4 5) 32 /\
  option_map (fun t => map sval (to_list t)) (sse_array_load false Int (MElt Short) {| unaligned := false; streaming := true |}
     (fun a => if (32 <=? a) && (a <? 42) then Some (a * 7 mod 256) else None) 5 32) = Some [- 6176; - 2578; 1020; 4362; 7960].
Proof.
  split; [reflexivity|]. split; [right; now exists 2|]. vm_compute. reflexivity.
Qed.

(** C50: the same for AVX and AVX2 builds.  Not covered, see the theorems below: double from short and unsigned short, float
from unsigned int.  A load of float from double needs an address aligned to 32 bytes (or Unaligned, or Streaming). *)
Theorem C50_avx_load :
  forall avx2 e mt f m n a vs, (1 <= n)%nat -> avx_loads_from e mt = true -> length vs = n -> elements_at m a mt vs ->
    flag_ok f (avx_alignment (has256 avx2 e) (esize e) n) a ->
    (e = Float -> mt = MElt Double -> unaligned f = true \/ streaming f = true \/ (32 | a)) ->
    exists t, avx_array_load avx2 e mt f m n a = Some t /\ wf (avx_widths_of avx2 e) n t /\ Forall2 (converted mt e) vs (to_list t).
Proof. exact LoadStoreMain.C50_avx_load_main. Qed.
Print Assumptions C50_avx_load.

Example C50_avx_load_ex :
  avx_loads_from Float MSChar = true /\ flag_ok {| unaligned := false; streaming := false |} (avx_alignment (has256 false Float) 4 13) 64 /\
  option_map (fun t => map uval (to_list t)) (avx_array_load false Float MSChar {| unaligned := false; streaming := false |}
     (fun a => if (64 <=? a) && (a <? 77) then Some ((190 - a) mod 256) else None) 13 64) =
  Some [0x42fc0000; 0x42fa0000; 0x42f80000; 0x42f60000; 0x42f40000; 0x42f20000; 0x42f00000; 0x42ee0000; 0x42ec0000; 0x42ea0000; 0x42e80000; 0x42e60000; 0x42e40000].
Proof.
  split; [reflexivity|]. split; [right; now exists 2|]. vm_compute. reflexivity.
Qed.

(** C50: float from unsigned int in AVX and AVX2 builds, for elements below 2 ^ 31.  Missing: the larger ones, see
C50_avx_load_uint_refuted. *)
Theorem C50_avx_load_uint_partial :
  forall avx2 f m n a vs, (1 <= n)%nat -> length vs = n -> elements_at m a (MElt UInt) vs -> Forall (fun v => v < 2 ^ 31) vs ->
    flag_ok f (avx_alignment true 4 n) a ->
    exists t, avx_array_load avx2 Float (MElt UInt) f m n a = Some t /\ wf (avx_widths_of avx2 Float) n t /\
      Forall2 (converted (MElt UInt) Float) vs (to_list t).
Proof. exact LoadStoreMain.C50_avx_load_uint_partial_main. Qed.
Print Assumptions C50_avx_load_uint_partial.

Example C50_avx_load_uint_partial_ex :
  option_map (fun t => map uval (to_list t)) (avx_array_load true Float (MElt UInt) {| unaligned := true; streaming := false |}
     (fun a => if (3 <=? a) && (a <? 39) then Some (if (a - 3) mod 4 =? 0 then a else 0) else None) 9 3) =
  Some [0x40400000; 0x40e00000; 0x41300000; 0x41700000; 0x41980000; 0x41b80000; 0x41d80000; 0x41f80000; 0x420c0000].
Proof.
  vm_compute. reflexivity.
Qed.

(** Finding: in AVX builds float_v::load(const unsigned int * ) rounds twice (once when converting x - 2 ^ 31, once when adding
2 ^ 31).  Elements 3221225828 become 3221225984, the nearest float is 3221225728. *)
Theorem C50_avx_load_uint_refuted :
  forall avx2 f m a, elements_at m a (MElt UInt) (repeat 3221225828 8) -> flag_ok f 32 a ->
    exists r, y_load avx2 Float (MElt UInt) f m a = Some r /\ Forall (fun y => fvalue y = 3221225984 * fone 4 /\ ~ converted (MElt UInt) Float 3221225828 y) (ylanes 4 r).
Proof. exact LoadStoreMain.C50_avx_load_uint_refuted_main. Qed.
Print Assumptions C50_avx_load_uint_refuted.

Example C50_avx_load_uint_refuted_ex :
  elements_at (fun a => if (0 <=? a) && (a <? 32) then Some (3221225828 / 2 ^ (8 * (a mod 4)) mod 256) else None) 0 (MElt UInt) (repeat 3221225828 8).
Proof.
  intros i Hi. change (Z.of_nat (length (repeat 3221225828 8))) with 8 in Hi. change (mt_size (MElt UInt)) with 4%nat. rewrite SeqP.znth_repeat by exact Hi. split; [change (2 ^ (8 * Z.of_nat 4)) with 4294967296; lia|].
  intros j Hj. destruct (Z.leb_spec 0 (0 + i * Z.of_nat 4 + j)); [|lia]. destruct (Z.ltb_spec (0 + i * Z.of_nat 4 + j) 32); [|lia].
  cbn [andb]. replace (0 + i * Z.of_nat 4 + j) with (j + i * 4) by lia. rewrite Z.mod_add, (Z.mod_small j 4) by lia. reflexivity.
Qed.

(** Finding: in AVX builds double_v::load from const short *, unsigned short *, signed char * and unsigned char * reads 16
bytes and converts them as four ints. *)
Theorem C50_avx_load_double_small_refuted :
  forall avx2 mt f m a vs, mt = MSChar \/ mt = MUChar \/ mt = MElt Short \/ mt = MElt UShort ->
    length vs = 4%nat -> elements_at m a (MElt Int) vs -> flag_ok f 16 a ->
    exists r, y_load avx2 Double mt f m a = Some r /\ Forall2 (converted (MElt Int) Double) vs (ylanes 8 r).
Proof. exact LoadStoreMain.C50_avx_load_double_small_refuted_main. Qed.
Print Assumptions C50_avx_load_double_small_refuted.

Example C50_avx_load_double_small_refuted_ex :
  option_map (fun r => map uval (ylanes 8 r)) (y_load true Double (MElt Short) {| unaligned := true; streaming := false |} (fun a => Some (if a mod 2 =? 0 then 1 else 0)) 0) =
  Some (repeat 0x40f0001000000000 4).
Proof.
  vm_compute. reflexivity.
Qed.

(** Finding: in AVX builds SimdArray<float, 4> (and 5, 6, 7), whose MemoryAlignment is 16, faults when it is loaded with
Vc::Aligned from a double array with that alignment: the load uses _mm256_load_pd, which needs 32 bytes. *)
Theorem C50_avx_load_alignment_refuted :
  forall avx2 m n a, (4 <= n < 8)%nat -> (16 | a) -> ~ (32 | a) ->
    Z.of_nat (memory_alignment (avx_widths_of avx2 Float) 4 n) = 16 /\
    avx_array_load avx2 Float (MElt Double) {| unaligned := false; streaming := false |} m n a = None.
Proof. exact LoadStoreMain.C50_avx_load_alignment_refuted_main. Qed.
Print Assumptions C50_avx_load_alignment_refuted.

Example C50_avx_load_alignment_refuted_ex :
  option_map (fun t => map uval (to_list t)) (avx_array_load false Float (MElt Double) {| unaligned := true; streaming := false |}
     (fun a => if (16 <=? a) && (a <? 48) then Some 64 else None) 4 16) = Some (repeat 0x42020202 4).
Proof.
  vm_compute. reflexivity.
Qed.

(** C50: MemoryAlignment of a SimdArray<T, N> is the size of the largest register it is made of, for every N: 16 bytes (SSE)
or 32 bytes (AVX types) as soon as N reaches the number of entries of the register, otherwise sizeof(T). *)
Theorem C50_alignment :
  forall e n, (1 <= n)%nat ->
    Z.of_nat (memory_alignment (sse_native (esize e)) (esize e) n) = sse_alignment (esize e) n /\
    (forall avx2, Z.of_nat (memory_alignment (avx_widths_of avx2 e) (esize e) n) = avx_alignment (has256 avx2 e) (esize e) n).
Proof. exact LoadStoreMain.C50_alignment_main. Qed.
Print Assumptions C50_alignment.

Example C50_alignment_ex :
  map (memory_alignment (avx_widths_of true Float) 4) [1; 3; 4; 7; 8; 17; 100]%nat = [4; 4; 16; 16; 32; 32; 32]%nat.
Proof.
  vm_compute. reflexivity.
Qed.

(** C51: store(T *, flags) in SSE builds, every N, entry type and flags (including Streaming): element i of the array at the
address becomes entry i, bit for bit, and no other byte changes.  Needs N valid elements and, without Unaligned, an
address aligned to MemoryAlignment. *)
Theorem C51_sse_store :
  forall e f t m n a, wf (sse_native (esize e)) n t -> readable m a (n * esize e) -> flag_ok f (sse_alignment (esize e) n) a ->
    exists m', sse_array_store e f t m a = Some m' /\ stored m a (to_list t) (repeat true n) m'.
Proof. exact LoadStoreMain.C51_sse_store_main. Qed.
Print Assumptions C51_sse_store.

Example C51_sse_store_ex :
  option_map (fun m' => map m' [9; 10; 11; 12; 13; 14; 15; 30; 31; 32]) (sse_array_store UShort {| unaligned := true; streaming := true |}
    (generate (sse_native 2) 11 (fun i => mkw 2 (i * 257 + 3))) (fun a => if (10 <=? a) && (a <? 32) then Some 7 else None) 10) =
  Some [None; Some 3; Some 0; Some 4; Some 1; Some 5; Some 2; Some 13; Some 10; None].
Proof.
  vm_compute. reflexivity.
Qed.

(** C51: store(T *, mask, flags) in SSE builds, every N: exactly the elements selected by the mask become the entries of the
vector, no other byte changes, and only the selected elements need to be valid memory.  No alignment is needed. *)
Theorem C51_sse_store_masked :
  forall e t k m n a, wf (sse_native (esize e)) n t -> wf (sse_native (esize e)) n k -> writable m a (esize e) (to_list k) ->
    exists m', sse_array_store_masked e t k m a = Some m' /\ stored m a (to_list t) (to_list k) m'.
Proof. exact LoadStoreMain.C51_sse_store_masked_main. Qed.
Print Assumptions C51_sse_store_masked.

Example C51_sse_store_masked_ex :
  option_map (fun m' => map m' [0; 1; 4; 8; 9; 16; 20; 21]) (sse_array_store_masked Int
    (generate (sse_native 4) 6 (fun i => mkw 4 (i * 257 + 3))) (generate (sse_native 4) 6 (fun i => (i =? 2) || (i =? 5)))
    (fun a => if ((8 <=? a) && (a <? 12)) || ((20 <=? a) && (a <? 30)) then Some 7 else None) 0) =
  Some [None; None; None; Some 5; Some 2; None; Some 8; Some 5].
Proof.
  vm_compute. reflexivity.
Qed.

(** C51: store without mask in AVX and AVX2 builds. *)
Theorem C51_avx_store :
  forall avx2 e f t m n a, wf (avx_widths_of avx2 e) n t -> readable m a (n * esize e) -> flag_ok f (avx_alignment (has256 avx2 e) (esize e) n) a ->
    exists m', avx_array_store avx2 e f t m a = Some m' /\ stored m a (to_list t) (repeat true n) m'.
Proof. exact LoadStoreMain.C51_avx_store_main. Qed.
Print Assumptions C51_avx_store.

Example C51_avx_store_ex :
  option_map (fun m' => map m' [63; 64; 65; 96; 97; 111; 112; 115; 116]) (avx_array_store false Float {| unaligned := false; streaming := false |}
    (generate (avx_widths_of false Float) 13 (fun i => mkw 4 (i * 257 + 3))) (fun a => if (64 <=? a) && (a <? 200) then Some 7 else None) 64) =
  Some [None; Some 3; Some 0; Some 11; Some 8; Some 0; Some 15; Some 0; Some 7].
Proof.
  vm_compute. reflexivity.
Qed.

(** C51: store with mask in AVX and AVX2 builds, with and without Streaming. *)
Theorem C51_avx_store_masked :
  forall avx2 e f t k m n a, wf (avx_widths_of avx2 e) n t -> wf (avx_widths_of avx2 e) n k -> writable m a (esize e) (to_list k) ->
    exists m', avx_array_store_masked avx2 e f t k m a = Some m' /\ stored m a (to_list t) (to_list k) m'.
Proof. exact LoadStoreMain.C51_avx_store_masked_main. Qed.
Print Assumptions C51_avx_store_masked.

Example C51_avx_store_masked_ex :
  option_map (fun m' => map m' [0; 1; 8; 9; 10; 40; 48; 49; 50; 80]) (avx_array_store_masked true Double {| unaligned := false; streaming := false |}
    (generate (avx_widths_of true Double) 11 (fun i => mkw 8 (i * 257 + 3))) (generate (avx_widths_of true Double) 11 (fun i => (i =? 1) || (i =? 6) || (i =? 10)))
    (fun a => if ((8 <=? a) && (a <? 16)) || ((48 <=? a) && (a <? 56)) || ((80 <=? a) && (a <? 90)) then Some 7 else None) 0) =
  Some [None; None; Some 4; Some 1; Some 0; None; Some 9; Some 6; Some 0; Some 13].
Proof.
  vm_compute. reflexivity.
Qed.

(** C51: storing a SimdArray and loading it again from the same address gives the same bits back, with any flags the
address allows, in SSE and AVX builds. *)
Theorem C51_store_load :
  forall e f g n a, 
    (forall sse41 t m, wf (sse_native (esize e)) n t -> readable m a (n * esize e) -> flag_ok f (sse_alignment (esize e) n) a -> flag_ok g (sse_alignment (esize e) n) a ->
       exists m', sse_array_store e f t m a = Some m' /\ exists t', sse_array_load sse41 e (MElt e) g m' n a = Some t' /\ to_list t' = to_list t) /\
    (forall avx2 t m, wf (avx_widths_of avx2 e) n t -> readable m a (n * esize e) ->
       flag_ok f (avx_alignment (has256 avx2 e) (esize e) n) a -> flag_ok g (avx_alignment (has256 avx2 e) (esize e) n) a ->
       exists m', avx_array_store avx2 e f t m a = Some m' /\ exists t', avx_array_load avx2 e (MElt e) g m' n a = Some t' /\ to_list t' = to_list t).
Proof. exact LoadStoreMain.C51_store_load_main. Qed.
Print Assumptions C51_store_load.

Example C51_store_load_ex :
  (m' <-- avx_array_store true Short {| unaligned := true; streaming := false |} (generate (avx_widths_of true Short) 29 (fun i => mkw 2 (i * 2257 + 3)))
            (fun a => if (5 <=? a) && (a <? 200) then Some 7 else None) 5;
   option_map (fun t => map uval (to_list t)) (avx_array_load true Short (MElt Short) {| unaligned := true; streaming := true |} m' 29 5)) =
  Some (map (fun i => uval (mkw 2 (Z.of_nat i * 2257 + 3))) (seq 0 29)).
Proof.
  vm_compute. reflexivity.
Qed.

(** Finding: SSE integer vectors accept store(U *, ...) for other integer types U but do not convert: int_v::store(short *, ...)
writes its four 32-bit entries, 16 bytes instead of the 8 of four shorts. *)
Theorem C51_store_other_type_refuted :
  forall u f m a (xs : list (word 4)), length xs = 4%nat -> readable m a 16 -> flag_ok f 16 a ->
    exists m', sse_store_other u f (pack xs) m a = Some m' /\ stored m a xs (repeat true 4) m'.
Proof. exact LoadStoreMain.C51_store_other_type_refuted_main. Qed.
Print Assumptions C51_store_other_type_refuted.

Example C51_store_other_type_refuted_ex :
  option_map (fun m' => map m' [0; 1; 2; 3; 4; 8; 12; 15]) (sse_store_other (MElt Short) {| unaligned := true; streaming := false |} (pack (map (mkw 4) [1; 2; 3; -1]))
    (fun a => if (0 <=? a) && (a <? 16) then Some 7 else None) 0) = Some [Some 1; Some 0; Some 0; Some 0; Some 2; Some 3; Some 255; Some 255].
Proof.
  vm_compute. reflexivity.
Qed.
