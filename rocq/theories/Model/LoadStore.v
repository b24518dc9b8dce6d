(** Vector::load and Vector::store on a memory of bytes, with conversion, flags and masks: Vc/common/loadinterface.h,
    storeinterface.h, loadstoreflags.h, the load functions of Vc/sse/detail.h and Vc/avx/detail.h, the store functions of
    Vc/sse/vectorhelper.h and Vc/avx/vectorhelper.h, Vc/scalar/vector.tcc, and load and store of SimdArray.

    None: access to an address that is not valid, an aligned access to an address that is not aligned, or a combination of
    types that does not compile.  Prefetch flags have no effect on the result and are not modelled.  An access by
    _mm_maskmoveu_si128, _mm256_maskstore_ps, _pd, _epi32 only needs the selected bytes to be valid (for maskmoveu the
    instruction set reference leaves it open whether an unselected byte can fault).  The alignment of a scalar type is not
    checked. *)
From Coq Require Import ZArith List Bool.
From Verif.Spec Require Import Seq.
From Verif.Model Require Import Word Fp FpArith SplitSize SseReg SseMove SortNet SseInt SseBuild SseMask SimdArray SimdArrayOps Mem SseConvert
  AvxReg AvxMove AvxBuild AvxShuffle AvxMask AvxArith AvxConvert GatherScatter AvxGather.
Import ListNotations.
Local Open Scope Z_scope.

(** the types of the elements in memory *)
Inductive mem_type := MSChar | MUChar | MElt (e : etype).
Definition mt_size (mt : mem_type) : nat := match mt with MSChar | MUChar => 1 | MElt e => esize e end.
(** loadstoreflags.h:83-136: the combinations of Vc::Unaligned and Vc::Streaming; none is Vc::Aligned *)
Record ls_flags := { unaligned : bool; streaming : bool }.
Definition aligned_at (n : Z) (a : Z) : bool := a mod n =? 0.

(** * load instructions *)

(** sse/detail.h:76-114 load16 and sse/vectorhelper.h:50-95 VectorHelper::load.  _mm_stream_load (sse/intrinsics.h:577-613)
    needs the same alignment as _mm_load *)
Definition load16 (f : ls_flags) (m : memory Z) (a : Z) : option reg :=
  if unaligned f || aligned_at 16 a then mem_load m a 16 else None.
(** avx/detail.h:39-135 load32.  stream_load (avx/intrinsics.h:520-551) is two 128-bit loads *)
Definition load32 (f : ls_flags) (m : memory Z) (a : Z) : option yreg :=
  if unaligned f || aligned_at (if streaming f then 16 else 32) a
  then lo <-- mem_load m a 16; hi <-- mem_load m (a + 16) 16; Some (Ymm lo hi) else None.
(** _mm_loadl_epi64 and _mm_loadl_pi(_mm_setzero_ps(), mem) *)
Definition loadl (m : memory Z) (a : Z) : option reg := option_map (fun bs => bs ++ repeat 0 8) (mem_load m a 8).
(** _mm_cvtsi32_si128( *aliasing_cast<int>(mem)) *)
Definition load_int (m : memory Z) (a : Z) : option reg := option_map (fun bs => bs ++ repeat 0 12) (mem_load m a 4).

(** * SSE::Vector<T>::load: sse/detail.h:169-331.  [avx] is Vc_IMPL_AVX *)
Section Sse.
  Variables (sse41 avx : bool).
  Definition sse_load_int (mt : mem_type) (f : ls_flags) (m : memory Z) (a : Z) : option reg :=
    match mt with
    | MElt (Int | UInt) => load16 f m a
    | MElt UShort => option_map (cvtepu sse41 2) (loadl m a)
    | MElt Short => option_map (cvtepi sse41 2) (loadl m a)
    | MUChar => option_map (cvtepu8_epi32 sse41) (load_int m a)
    | MSChar => option_map (cvtepi8_epi32 sse41) (load_int m a)
    | _ => None
    end.
  Definition sse_load (e : etype) (mt : mem_type) (f : ls_flags) (m : memory Z) (a : Z) : option reg :=
    match e, mt with
    (* 190-208 *)
    | Short, MElt (Short | UShort) => load16 f m a
    | Short, MUChar => option_map (cvtepu sse41 1) (loadl m a)
    | Short, MSChar => option_map (cvtepi sse41 1) (loadl m a)
    (* 211-217 *)
    | UShort, MElt UShort => load16 f m a
    | UShort, MUChar => option_map (cvtepu sse41 1) (loadl m a)
    (* 220-246 *)
    | Int, _ => sse_load_int mt f m a
    (* 249-258 *)
    | UInt, MElt UInt => load16 f m a
    | UInt, MElt UShort => option_map (cvtepu sse41 2) (loadl m a)
    | UInt, MUChar => option_map (cvtepu8_epi32 sse41) (load_int m a)
    (* 261-302; SSE::convert<uchar, double> and <char, double> are not defined *)
    | Double, MElt Double => load16 f m a
    | Double, MElt Float => option_map (convert sse41 Float Double) (loadl m a)
    | Double, MElt UInt => option_map (convert sse41 UInt Double) (loadl m a)
    | Double, MElt Int => option_map (convert sse41 Int Double) (loadl m a)
    | Double, MElt UShort => option_map (convert sse41 UShort Double) (load_int m a)
    | Double, MElt Short => option_map (convert sse41 Short Double) (load_int m a)
    (* 305-331 *)
    | Float, MElt Float => load16 f m a
    | Float, MElt Double =>
        if avx then option_map ycvtpd_ps (load32 f m a)
        else lo <-- load16 f m a; hi <-- load16 f m (a + 16); Some (movelh_ps (cvtpd_ps lo) (cvtpd_ps hi))
    | Float, MElt UInt => option_map (convert sse41 UInt Float) (load16 f m a)
    | Float, _ => option_map cvtepi32_ps (sse_load_int mt f m a)
    | _, _ => None
    end.
End Sse.

(** * AVX2::Vector<T>::load: avx/detail.h:297-433 *)
Section Avx.
  Variable avx2 : bool.
  (** AVX::cvtepu8_epi16, cvtepi8_epi16 (w = 1), cvtepu16_epi32, cvtepi16_epi32 (w = 2) and the 8-bit to 32-bit ones: the
      AVX2 instruction, or avx/intrinsics.h:271-277, 362-373 *)
  Definition y_cvtepu (w : nat) (x : reg) : yreg :=
    if avx2 then ypack (map (fun b => mkw (2 * w) (uval b)) (lanes w x))
    else Ymm (mm_cvtepu w x) (mm_cvtepu w (mm_srli x 8)).
  Definition y_cvtepi (w : nat) (x : reg) : yreg :=
    if avx2 then ypack (map (fun b => mkw (2 * w) (sval b)) (lanes w x))
    else Ymm (mm_cvtepi w x) (mm_cvtepi w (mm_srli x 8)).
  Definition y_cvtepu8_epi32 (x : reg) : yreg :=
    if avx2 then ypack (map (fun b => mkw 4 (uval b)) (firstn 8 (lanes 1 x)))
    else Ymm (mm_cvtepu8_epi32 x) (mm_cvtepu8_epi32 (mm_srli x 4)).
  Definition y_cvtepi8_epi32 (x : reg) : yreg :=
    if avx2 then ypack (map (fun b => mkw 4 (sval b)) (firstn 8 (lanes 1 x)))
    else Ymm (mm_cvtepi8_epi32 x) (mm_cvtepi8_epi32 (mm_srli x 4)).

  Definition y_load_int (mt : mem_type) (f : ls_flags) (m : memory Z) (a : Z) : option yreg :=
    match mt with
    | MElt (Int | UInt) => load32 f m a
    | MElt UShort => option_map (y_cvtepu 2) (load16 f m a)
    | MElt Short => option_map (y_cvtepi 2) (load16 f m a)
    | MUChar => option_map y_cvtepu8_epi32 (loadl m a)
    | MSChar => option_map y_cvtepi8_epi32 (loadl m a)
    | _ => None
    end.
  Definition y_load (e : etype) (mt : mem_type) (f : ls_flags) (m : memory Z) (a : Z) : option yreg :=
    match e, mt with
    (* 297-311 *)
    | Short, MElt (Short | UShort) => load32 f m a
    | Short, MUChar => option_map (y_cvtepu 1) (load16 f m a)
    | Short, MSChar => option_map (y_cvtepi 1) (load16 f m a)
    (* 314-318 *)
    | UShort, MElt UShort => load32 f m a
    | UShort, MUChar => option_map (y_cvtepu 1) (load16 f m a)
    (* 321-345 *)
    | Int, _ => y_load_int mt f m a
    (* 348-357 *)
    | UInt, MElt UInt => load32 f m a
    | UInt, MElt UShort => option_map (y_cvtepu 2) (load16 f m a)
    | UInt, MUChar => option_map y_cvtepu8_epi32 (loadl m a)
    (* 360-394 *)
    | Double, MElt Double => load32 f m a
    | Double, MElt Float => option_map ycvtps_pd (load16 f m a)
    | Double, MElt UInt => option_map yconvert_uint_double (load16 f m a)
    | Double, (MElt (Int | UShort | Short) | MUChar | MSChar) => option_map ycvtepi32_pd (load16 f m a)
    (* 397-433 *)
    | Float, MElt Float => load32 f m a
    | Float, MElt Double => lo <-- load32 f m a; hi <-- load32 f m (a + 32); Some (Ymm (ycvtpd_ps lo) (ycvtpd_ps hi))
    | Float, MElt UInt =>
        option_map (fun v => y_blendv_ps (ycvtepi32_ps v)
                               (y_fadd 4 (ycvtepi32_ps (y_sub UInt v (yset1 4 (2 ^ 31)))) (yset1_fp 4 (2 ^ 31)))
                               (ymap2 (cmplt_epi 4) v yzero)) (load32 f m a)
    | Float, MElt Int => option_map ycvtepi32_ps (load32 f m a)
    | Float, MElt UShort => option_map (fun v => ycvtepi32_ps (yconvert_ushort_int avx2 v)) (load16 f m a)
    | Float, MElt Short => option_map (fun v => ycvtepi32_ps (yconvert_short_int avx2 v)) (load16 f m a)
    | Float, (MUChar | MSChar) => option_map ycvtepi32_ps (y_load_int mt f m a)
    | _, _ => None
    end.
End Avx.

(** * Scalar::Vector<T>::load: scalar/vector.tcc:55-64, the C++ conversion of mem\[0\] *)
Definition int_to (e : etype) (z : Z) : elt e :=
  match e with Float | Double => of_int (esize e) z | _ => mkw (esize e) z end.
(** the limits of the integer types *)
Definition int_min (e : etype) : Z := match e with Short => - 2 ^ 15 | Int => - 2 ^ 31 | _ => 0 end.
Definition int_max (e : etype) : Z := match e with Short => 2 ^ 15 - 1 | UShort => 2 ^ 16 - 1 | Int => 2 ^ 31 - 1 | _ => 2 ^ 32 - 1 end.
(** None: the result of the conversion to an integer is undefined *)
Definition fp_to_int (e : etype) {w} (x : word w) : option (elt e) :=
  let z := round_int ToZero x in
  if is_nan x || is_inf x || (z <? int_min e) || (int_max e <? z) then None else Some (mkw (esize e) z).
Definition scalar_convert (e : etype) (mt : mem_type) (bs : list Z) : option (elt e) :=
  match mt with
  | MSChar => Some (int_to e (sval (@dec 1 bs)))
  | MUChar => Some (int_to e (uval (@dec 1 bs)))
  | MElt ((Short | Int) as u) => Some (int_to e (sval (@dec (esize u) bs)))
  | MElt ((UShort | UInt) as u) => Some (int_to e (uval (@dec (esize u) bs)))
  | MElt Float =>
      match e with
      | Float => Some (dec bs)
      | Double => Some (to_double (dec bs))
      | t => fp_to_int t (@dec 4 bs)
      end
  | MElt Double =>
      match e with
      | Double => Some (dec bs)
      | Float => Some (to_float (dec bs))
      | t => fp_to_int t (@dec 8 bs)
      end
  end.
(** common/loadinterface.h:94-98 load_concept: integers are not loaded from larger integers *)
Definition load_concept (e : etype) (mt : mem_type) : bool :=
  match mt with MElt u => negb (is_integer u) || negb (is_integer e) || (esize u <=? esize e)%nat | _ => true end.
Definition scalar_load (e : etype) (mt : mem_type) (m : memory Z) (a : Z) : option (elt e) :=
  if load_concept e mt then bs <-- mem_load m a (mt_size mt); scalar_convert e mt bs else None.

(** * the native vectors of the builds, with [n] entries *)
Definition sse_native_load (sse41 avx : bool) (e : etype) (mt : mem_type) (f : ls_flags) (m : memory Z) (n : nat) (a : Z) : option (list (elt e)) :=
  if (n =? 1)%nat then option_map (fun x => [x]) (scalar_load e mt m a)
  else option_map (lanes (esize e)) (sse_load sse41 avx e mt f m a).
Definition avx_native_load (avx2 : bool) (e : etype) (mt : mem_type) (f : ls_flags) (m : memory Z) (n : nat) (a : Z) : option (list (elt e)) :=
  if (n =? 32 / esize e)%nat then option_map (ylanes (esize e)) (y_load avx2 e mt f m a)
  else sse_native_load true true e mt f m n a.

(** * SimdArray: simdarray.h:285-296 (one vector), 935-940 (data0 and data1); the address of an element type with [usize] bytes *)
Section Array.
  Variable native : nat -> bool.
  Fixpoint load_bytes_f {A} (ld : nat -> Z -> option (list A)) (usize : nat) (fuel n : nat) (a : Z) : option (sa A) :=
    match fuel with
    | O => None
    | Datatypes.S fuel' =>
        if native n then option_map (@Leaf A) (ld n a)
        else d0 <-- load_bytes_f ld usize fuel' (left_size n) a;
             d1 <-- load_bytes_f ld usize fuel' (right_size n) (a + Z.of_nat (left_size n) * Z.of_nat usize);
             Some (Node d0 d1)
    end.
  Definition load_bytes {A} ld usize n a : option (sa A) := load_bytes_f ld usize n n a.
  (** MemoryAlignment: simdarray.h:151, 691-695; of the native vectors the size of the register (sse/vector.h:77,
      avx/vector.h:95), of Scalar::Vector the size of the entry *)
  Fixpoint memory_alignment_f (w : nat) (fuel n : nat) : nat :=
    match fuel with
    | O => 0
    | Datatypes.S fuel' =>
        if native n then (n * w)%nat
        else Nat.max (memory_alignment_f w fuel' (left_size n)) (memory_alignment_f w fuel' (right_size n))
    end.
  Definition memory_alignment (w n : nat) : nat := memory_alignment_f w n n.
End Array.
Definition sse_array_load (sse41 : bool) (e : etype) (mt : mem_type) (f : ls_flags) (m : memory Z) (n : nat) (a : Z) : option (sa (elt e)) :=
  load_bytes (sse_native (esize e)) (sse_native_load sse41 false e mt f m) (mt_size mt) n a.
Definition avx_array_load (avx2 : bool) (e : etype) (mt : mem_type) (f : ls_flags) (m : memory Z) (n : nat) (a : Z) : option (sa (elt e)) :=
  load_bytes (avx_widths_of avx2 e) (if has256 avx2 e then avx_native_load avx2 e mt f m else sse_native_load true true e mt f m) (mt_size mt) n a.

(** * stores *)

(** _mm_maskmoveu_si128: the bytes whose mask byte has the sign bit set *)
Fixpoint maskmoveu (xs ks : list Z) (m : memory Z) (a : Z) : option (memory Z) :=
  match xs, ks with
  | x :: xs', k :: ks' =>
      m' <-- (if 128 <=? k then mem_write m a x else Some m); maskmoveu xs' ks' m' (a + 1)
  | _, _ => Some m
  end.
(** _mm256_maskstore_ps, _epi32 (w = 4), _pd (w = 8): the lanes whose mask has the sign bit set *)
Fixpoint maskstore_lanes (w : nat) (xs ks : list (word w)) (m : memory Z) (a : Z) : option (memory Z) :=
  match xs, ks with
  | x :: xs', k :: ks' =>
      m' <-- (if negative k then mem_store m a (enc x) else Some m); maskstore_lanes w xs' ks' m' (a + Z.of_nat w)
  | _, _ => Some m
  end.
(** sse/vectorhelper.h:54-57, 76-79, 97-100; sse/vector.tcc:258-264.  The type of the memory does not matter for the integer
    vectors *)
Definition sse_store_reg (f : ls_flags) (r : reg) (m : memory Z) (a : Z) : option (memory Z) :=
  if unaligned f then if streaming f then maskmoveu r setallone m a else mem_store m a r
  else if aligned_at 16 a then mem_store m a r else None.
(** sse/vectorhelper.h:60, 82, 103; sse/vector.tcc:266-272 *)
Definition sse_store_masked (r k : reg) (m : memory Z) (a : Z) : option (memory Z) := maskmoveu r k m a.
(** avx/intrinsics.h:553-579 *)
Definition stream_store (x k : yreg) (m : memory Z) (a : Z) : option (memory Z) :=
  m' <-- maskmoveu (lo128 x) (lo128 k) m a; maskmoveu (hi128 x) (hi128 k) m' (a + 16).
(** avx/vectorhelper.h:47-50, 61-64, 75-78; avx/vector.tcc:315-323 *)
Definition y_store_reg (f : ls_flags) (r : yreg) (m : memory Z) (a : Z) : option (memory Z) :=
  if unaligned f then if streaming f then stream_store r yallone m a else m' <-- mem_store m a (lo128 r); mem_store m' (a + 16) (hi128 r)
  else if aligned_at 32 a then m' <-- mem_store m a (lo128 r); mem_store m' (a + 16) (hi128 r) else None.
(** avx/vectorhelper.h:52-53, 66-67, 80-81; avx/vector.tcc:325-333; avx/intrinsics.h:489-512 _mm256_maskstore *)
Definition y_store_masked (e : etype) (f : ls_flags) (r k : yreg) (m : memory Z) (a : Z) : option (memory Z) :=
  if streaming f then stream_store r k m a
  else match e with
       | Double => maskstore_lanes 8 (ylanes 8 r) (ylanes 8 k) m a
       | Float | Int | UInt => maskstore_lanes 4 (ylanes 4 r) (ylanes 4 k) m a
       | _ => m' <-- maskmoveu (lo128 r) (lo128 k) m a; maskmoveu (hi128 r) (hi128 k) m' (a + 16)
       end.

(** one entry, sixteen bytes, 32 bytes; one entry: scalar/vector.tcc:67-79, the element type is the one of the vector *)
Definition sse_native_store (e : etype) (f : ls_flags) (xs : list (elt e)) (m : memory Z) (a : Z) : option (memory Z) :=
  match xs with
  | [x] => mem_store m a (enc x)
  | _ => sse_store_reg f (pack xs) m a
  end.
Definition sse_native_store_masked (e : etype) (xs : list (elt e)) (ks : list bool) (m : memory Z) (a : Z) : option (memory Z) :=
  match xs with
  | [x] => if znth false ks 0 then mem_store m a (enc x) else Some m
  | _ => sse_store_masked (pack xs) (mask_reg (esize e) ks) m a
  end.
Definition avx_native_store (e : etype) (f : ls_flags) (xs : list (elt e)) (m : memory Z) (a : Z) : option (memory Z) :=
  if (length xs =? 32 / esize e)%nat then y_store_reg f (ypack xs) m a else sse_native_store e f xs m a.
Definition avx_native_store_masked (e : etype) (f : ls_flags) (xs : list (elt e)) (ks : list bool) (m : memory Z) (a : Z) : option (memory Z) :=
  if (length xs =? 32 / esize e)%nat then y_store_masked e f (ypack xs) (ymask_reg (esize e) ks) m a
  else sse_native_store_masked e xs ks m a.

(** simdarray.h:298-308, 942-947 *)
Fixpoint store_bytes {A} (st : list A -> memory Z -> Z -> option (memory Z)) (usize : nat) (t : sa A) (m : memory Z) (a : Z) : option (memory Z) :=
  match t with
  | Leaf xs => st xs m a
  | Node d0 d1 => m' <-- store_bytes st usize d0 m a; store_bytes st usize d1 m' (a + Z.of_nat (size d0) * Z.of_nat usize)
  end.
Fixpoint store_bytes_masked {A} (st : list A -> list bool -> memory Z -> Z -> option (memory Z)) (usize : nat) (t : sa A) (k : sa bool)
    (m : memory Z) (a : Z) : option (memory Z) :=
  match t, k with
  | Leaf xs, Leaf ks => st xs ks m a
  | Node d0 d1, Node k0 k1 =>
      m' <-- store_bytes_masked st usize d0 k0 m a; store_bytes_masked st usize d1 k1 m' (a + Z.of_nat (size d0) * Z.of_nat usize)
  | _, _ => None
  end.
Definition sse_array_store (e : etype) (f : ls_flags) (t : sa (elt e)) (m : memory Z) (a : Z) : option (memory Z) :=
  store_bytes (sse_native_store e f) (esize e) t m a.
Definition sse_array_store_masked (e : etype) (t : sa (elt e)) (k : sa bool) (m : memory Z) (a : Z) : option (memory Z) :=
  store_bytes_masked (sse_native_store_masked e) (esize e) t k m a.
Definition avx_array_store (avx2 : bool) (e : etype) (f : ls_flags) (t : sa (elt e)) (m : memory Z) (a : Z) : option (memory Z) :=
  store_bytes (if has256 avx2 e then avx_native_store e f else sse_native_store e f) (esize e) t m a.
Definition avx_array_store_masked (avx2 : bool) (e : etype) (f : ls_flags) (t : sa (elt e)) (k : sa bool) (m : memory Z) (a : Z) : option (memory Z) :=
  store_bytes_masked (if has256 avx2 e then avx_native_store_masked e f else sse_native_store_masked e) (esize e) t k m a.

(** Stores of an SSE integer vector with a pointer to another integer type: the 16 bytes of the register
    (sse/vectorhelper.h:97-100 for any T) *)
Definition sse_store_other (u : mem_type) (f : ls_flags) (r : reg) (m : memory Z) (a : Z) : option (memory Z) := sse_store_reg f r m a.
