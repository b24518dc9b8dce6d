(** Gather and scatter of the AVX vectors.
    Part 1: the gathers and scatters of GatherScatter.v with the native vectors of an AVX or AVX2 build
    (Vc/avx/vector.tcc:388-480; one entry: Vc/scalar, 16 bytes: Vc/sse, 32 bytes: Vc/avx).
    Part 2: the overloads of AVX2 builds that use the gather instructions (Vc/avx/vector.h:197-284), on a memory
    of bytes.  Not modelled: the remaining converting gathers (vector.h:285-308), which go through a SimdArray. *)
From Coq Require Import ZArith List Bool.
From Verif.Spec Require Import Seq.
From Verif.Model Require Import Word Fp SseReg SseMove SortNet SseInt SseBuild SseArith SseMask SimdArray Mem SseConvert GatherScatter
  AvxReg AvxMove AvxBuild AvxShuffle AvxMask AvxArith AvxConvert.
Import ListNotations.
Local Open Scope Z_scope.

(** * Part 1 *)

(** mask.toInt() of the native vector with as many entries as the mask *)
Definition native_mask_int (w : nat) (ks : list bool) : Z :=
  if (length ks =? 32 / w)%nat then ym_to_int w (ymask_reg w ks) else m_to_int w (mask_reg w ks).
(** avx/vector.tcc:433-453; sse/vector.tcc:350-370; scalar/vector.tcc:90-99 *)
Definition avx_native_gather_masked {A} (st : strategy) (hw : bool) (w : nat)
    (m : memory A) (mem : Z) (idx : Z -> Z) (ks : list bool) (xs : list A) : option (list A) :=
  match xs with
  | [_] => if znth false ks 0 then gather_all m mem idx xs else Some xs
  | _ => gather_masked st hw m mem idx ks (native_mask_int w ks) xs
  end.
(** avx/vector.tcc:462-480; sse/vector.tcc:380-397; scalar/vector.tcc:109-118 *)
Definition avx_native_scatter_masked {A} (zero : A) (st : strategy) (hw : bool) (w : nat)
    (xs : list A) (mem : Z) (idx : Z -> Z) (ks : list bool) (m : memory A) : option (memory A) :=
  match xs with
  | [_] => if znth false ks 0 then scatter_all zero xs mem idx m else Some m
  | _ => scatter_masked zero st hw xs mem idx ks (native_mask_int w ks) m
  end.
(** avx/vector.tcc:389-431 (all entries are read and the vector is set) and the SimdArray functions *)
Definition avx_gather {A} (m : memory A) (mem : Z) (x : index_arg) (t : sa A) : option (sa A) :=
  gather gather_all m mem x t.
Definition avx_gather_mask {A} (st : strategy) (hw : bool) (w : nat) (m : memory A) (mem : Z) (x : index_arg)
    (k : sa bool) (t : sa A) : option (sa A) :=
  gather_mask (avx_native_gather_masked st hw w) m mem x k t.
(** avx/vector.tcc:455-460 *)
Definition avx_scatter {A} (zero : A) (t : sa A) (mem : Z) (x : index_arg) (m : memory A) : option (memory A) :=
  scatter (scatter_all zero) t mem x m.
Definition avx_scatter_mask {A} (zero : A) (st : strategy) (hw : bool) (w : nat) (t : sa A) (mem : Z)
    (x : index_arg) (k : sa bool) (m : memory A) : option (memory A) :=
  scatter_mask (avx_native_scatter_masked zero st hw w) t mem x k m.

(** * Part 2: the gather instructions.  Memory is a map from addresses to bytes. *)

(** one element of w bytes *)
Definition word_at (w : nat) (m : memory Z) (a : Z) : option (word w) := option_map dec (mem_load m a w).
(** _mm256_i32gather_ps, _pd, _epi32: the 32-bit indexes are signed; the address is computed in 64 bits *)
Definition i32gather (w : nat) (m : memory Z) (addr : Z) (idx : list (word 4)) (scale : Z) : option (list (word w)) :=
  sequence (map (fun i => word_at w m (addr + sval i * scale)) idx).
(** _mm256_mask_i32gather_*: the sign bit of a mask entry selects; other entries come from src and are not read *)
Definition mask_i32gather (w : nat) (src k : list (word w)) (m : memory Z) (addr : Z) (idx : list (word 4)) (scale : Z) :
    option (list (word w)) :=
  sequence (map3 (fun i s (b : word w) => if negative b then word_at w m (addr + sval i * scale) else Some s) idx src k).

(** The indexes: an AVX or an SSE vector of an integer type *)
Inductive index_vec :=
| IxAvx (u : etype) (r : yreg)
| IxSse (u : etype) (r : reg).
Definition index_vec_size (ix : index_vec) : nat :=
  match ix with IxAvx u _ => 32 / esize u | IxSse u _ => 16 / esize u end.
(** the memory types of the 16-bit gathers: signed or unsigned, 1 or 2 bytes *)
Record small_type := { st_signed : bool; st_size : nat }.

Section Gather.
  (** the upper half of a cast register, see AvxMove.v *)
  Variable undef : reg.

  (** simd_cast<AVX2::int_v>(indexes), simd_cast<SSE::int_v>(indexes) *)
  Definition to_avx_int (ix : index_vec) : option yreg :=
    match ix with
    | IxAvx u r => ycast undef true u Int [r]
    | IxSse u r => xycast undef true u Int [r]
    end.
  Definition to_sse_int (ix : index_vec) : option reg :=
    match ix with
    | IxAvx u r => yxcast undef true u Int [r]
    | IxSse u r => xcast u Int [r]
    end.

  (** avx/vector.h:203-212; intrinsics.h:588-603.  [scale] is the template argument Scale; None also if the index vector is
      too small for the overload *)
  Definition y_gather (e : etype) (scale : Z) (m : memory Z) (mem : Z) (ix : index_vec) : option yreg :=
    if (index_vec_size ix <? 32 / esize e)%nat then None else
    match e with
    | Double => idx <-- to_sse_int ix; option_map ypack (i32gather 8 m mem (lanes 4 idx) (8 * scale))
    | Float | Int | UInt => idx <-- to_avx_int ix; option_map ypack (i32gather 4 m mem (ylanes 4 idx) (4 * scale))
    | _ => None
    end.
  (** avx/vector.h:215-224; intrinsics.h:605-623.  [v] is the old value, [k] the mask register *)
  Definition y_gather_masked (e : etype) (scale : Z) (v k : yreg) (m : memory Z) (mem : Z) (ix : index_vec) : option yreg :=
    if (index_vec_size ix <? 32 / esize e)%nat then None else
    match e with
    | Double =>
        idx <-- to_sse_int ix;
        option_map ypack (mask_i32gather 8 (ylanes 8 v) (ylanes 8 k) m mem (lanes 4 idx) (8 * scale))
    | Float | Int | UInt =>
        idx <-- to_avx_int ix;
        option_map ypack (mask_i32gather 4 (ylanes 4 v) (ylanes 4 k) m mem (ylanes 4 idx) (4 * scale))
    | _ => None
    end.

  (** avx/vector.h:240-247 and 270-277 *)
  Definition extend_small (mt : small_type) (v : yreg) : yreg :=
    match st_size mt with
    | 1%nat => if st_signed mt then y_shr Short (y_shl Short v 8) 8 else ymap2 mm_and v (yset1 2 0xff)
    | _ => v
    end.
  (** avx/vector.h:229-248: short_v and ushort_v from 8-bit and 16-bit memory with 32-bit gathers; the index vector has 16
      entries *)
  Definition y_gather16 (e : etype) (mt : small_type) (scale : Z) (m : memory Z) (mem : Z) (u : etype) (ix : yreg) : option yreg :=
    if (32 / esize u <? 16)%nat then None else
    idx0 <-- ycast undef true u Int [ix];
    idx1 <-- ycast_offset undef true u Int 1 ix;
    g0 <-- i32gather 4 m mem (ylanes 4 idx0) (Z.of_nat (st_size mt) * scale);
    g1 <-- i32gather 4 m mem (ylanes 4 idx1) (Z.of_nat (st_size mt) * scale);
    v <-- ycast undef true Int e [ypack g0; ypack g1];
    Some (extend_small mt v).
  (** avx/vector.h:251-279 *)
  Definition y_gather16_masked (e : etype) (mt : small_type) (scale : Z) (old k : yreg) (m : memory Z) (mem : Z) (u : etype) (ix : yreg) :
      option yreg :=
    if (32 / esize u <? 16)%nat then None else
    idx0 <-- ycast undef true u Int [ix];
    idx1 <-- ycast_offset undef true u Int 1 ix;
    k0 <-- ymasks_cast undef true e Int [k];
    k1 <-- ymask_cast_offset true e Int 1 k;
    g0 <-- mask_i32gather 4 (ylanes 4 yzero) (ylanes 4 k0) m mem (ylanes 4 idx0) (Z.of_nat (st_size mt) * scale);
    g1 <-- mask_i32gather 4 (ylanes 4 yzero) (ylanes 4 k1) m mem (ylanes 4 idx1) (Z.of_nat (st_size mt) * scale);
    v <-- ycast undef true Int e [ypack g0; ypack g1];
    Some (y_assign e old (extend_small mt v) k).
End Gather.
