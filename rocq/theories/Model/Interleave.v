(** Access to arrays of structs: InterleavedMemoryWrapper (Vc/common/interleavedmemory.h), the shuffles behind it
    (Vc/sse/detail.h:821-1492, Vc/scalar/detail.h:39-159) and deinterleave (Vc/sse/deinterleave.tcc).
    A register is the list of its vector entries (the units of SseReg), memory a partial map from entry
    addresses to values; [data] is the address of the first entry of the array of structs.  Reads and writes of
    2 or 4 entries through int, double or __m64 pointers are reads and writes of the entries.  Simplification:
    the __m128 / __m128i / __m128d casts (which keep all bits) are omitted. *)
From Coq Require Import ZArith List Bool.
From Verif.Spec Require Import Seq.
From Verif.Model Require Import SimdArray SimdArrayOps Mem SseReg GatherScatter.
Import ListNotations.
Local Open Scope Z_scope.

(** The indexes argument: any type with operator\[\], or SuccessiveEntries<S> (which selects some overloads) *)
Inductive index_kind := AnyIndex | Successive (struct_size : nat).
(** The code selected by the preprocessor in InterleaveImpl<V, 8, 16>: __x86_64__ or not (sse/detail.h:828, 841,
    851; the SSE4.1 variant 841-850 differs from 851-859 only in the instruction that extracts an int);
    Vc_USE_MASKMOV_SCATTER or not (sse/detail.h:873, 1229) *)
Record variant := { x86_64 : bool; maskmov_scatter : bool }.

Section Interleave.
  Context {A : Type} (zero : A).

  (** several store instructions in program order *)
  Fixpoint stores (l : list (Z * list A)) (m : memory A) : option (memory A) :=
    match l with
    | [] => Some m
    | (a, xs) :: l' => m' <-- mem_store m a xs; stores l' m'
    end.
  (** _mm_maskmove_si64, _mm_maskmoveu_si128 with a mask for whole entries: a store of the entries with set mask *)
  Fixpoint maskmove (m : memory A) (a : Z) (xs : list A) (mask : list bool) : option (memory A) :=
    match xs, mask with
    | x :: xs', b :: mask' => m' <-- (if b then mem_write m a x else Some m); maskmove m' (a + 1) xs' mask'
    | _, _ => Some m
    end.
  Fixpoint maskmoves (l : list (Z * list A)) (mask : list bool) (m : memory A) : option (memory A) :=
    match l with
    | [] => Some m
    | (a, xs) :: l' => m' <-- maskmove m a xs mask; maskmoves l' mask m'
    end.
  (** the k-th int (two 16-bit entries) of a register or of a 64-bit integer, least significant first *)
  Definition int_at (r : list A) (k : nat) : list A := firstn 2 (skipn (2 * k) r).
  (** _mm_cvtsi128_si64 *)
  Definition cvtsi128_si64 (u : nat) (r : list A) : list A := firstn u r.
  (** lower and upper half: _mm_storel_epi64, _mm_storel_pi; _mm_storeh_pi *)
  Definition low_half (u : nat) (r : list A) : list A := firstn u r.
  Definition high_half (u : nat) (r : list A) : list A := skipn u r.
  (** _mm_movelh_ps *)
  Definition movelh_ps (u : nat) (a b : list A) : list A := firstn u a ++ firstn u b.
  (** loads that fill up with zero: _mm_cvtsi32_si128( *int), _mm_loadl_epi64, _mm_load_sd *)
  Definition load_part (m : memory A) (a : Z) (n total : nat) : option (list A) :=
    option_map (fun l => l ++ repeat zero (total - n)) (mem_load m a n).
  (** v.gather(mem, i), v.scatter(mem, i) (sse/vector.tcc:327-348, 373-378) *)
  Definition gather_v (n : nat) (m : memory A) (mem : Z) (i : Z -> Z) : option (list A) := gather_all m mem i (repeat zero n).

  (** ** InterleaveImpl<V, 8, 16>, sse/detail.h:822-1203 *)
  Section Eight.
    Variable va : variant.
    Variable kind : index_kind.
    Notation lo := (unpacklo 4 1).
    Notation hi := (unpackhi 4 1).

    (** sse/detail.h:823-861 *)
    Definition interleave8_2_any (data : Z) (i : Z -> Z) (v0 v1 : list A) (m : memory A) : option (memory A) :=
      let tmp0 := lo v0 v1 in
      let tmp1 := hi v0 v1 in
      if x86_64 va then
        let tmp00 := cvtsi128_si64 4 tmp0 in
        let tmp01 := cvtsi128_si64 4 (unpackhi 4 4 tmp0 tmp0) in
        let tmp10 := cvtsi128_si64 4 tmp1 in
        let tmp11 := cvtsi128_si64 4 (unpackhi 4 4 tmp1 tmp1) in
        stores [(data + i 0, int_at tmp00 0); (data + i 1, int_at tmp00 1); (data + i 2, int_at tmp01 0); (data + i 3, int_at tmp01 1);
                (data + i 4, int_at tmp10 0); (data + i 5, int_at tmp10 1); (data + i 6, int_at tmp11 0); (data + i 7, int_at tmp11 1)] m
      else
        stores [(data + i 0, int_at tmp0 0); (data + i 1, int_at (srli_si128 4 zero tmp0 4) 0); (data + i 2, int_at (srli_si128 4 zero tmp0 8) 0);
                (data + i 3, int_at (srli_si128 4 zero tmp0 12) 0); (data + i 4, int_at tmp1 0); (data + i 5, int_at (srli_si128 4 zero tmp1 4) 0);
                (data + i 6, int_at (srli_si128 4 zero tmp1 8) 0); (data + i 7, int_at (srli_si128 4 zero tmp1 12) 0)] m.
    (** sse/detail.h:862-869 *)
    Definition interleave8_2_successive (data : Z) (i : Z -> Z) (v0 v1 : list A) (m : memory A) : option (memory A) :=
      stores [(data + i 0, lo v0 v1); (data + i 4, hi v0 v1)] m.
    Definition interleave8_2 (data : Z) (i : Z -> Z) (v0 v1 : list A) : memory A -> option (memory A) :=
      match kind with
      | Successive 2 => interleave8_2_successive data i v0 v1
      | _ => interleave8_2_any data i v0 v1
      end.
    (** sse/detail.h:870-899 *)
    Definition interleave8_3 (data : Z) (i : Z -> Z) (v0 v1 v2 : list A) (m : memory A) : option (memory A) :=
      if maskmov_scatter va then
        let mask := [true; true; true; false] in
        let tmp0 := lo v0 v2 in
        let tmp1 := hi v0 v2 in
        let tmp2 := lo v1 v1 in
        let tmp3 := hi v1 v1 in
        let tmp4 := lo tmp0 tmp2 in
        let tmp5 := hi tmp0 tmp2 in
        let tmp6 := lo tmp1 tmp3 in
        let tmp7 := hi tmp1 tmp3 in
        let movepi64 r := firstn 4 r in
        maskmoves [(data + i 0, movepi64 tmp4); (data + i 1, movepi64 (srli_si128 4 zero tmp4 8)); (data + i 2, movepi64 tmp5);
                   (data + i 3, movepi64 (srli_si128 4 zero tmp5 8)); (data + i 4, movepi64 tmp6); (data + i 5, movepi64 (srli_si128 4 zero tmp6 8));
                   (data + i 6, movepi64 tmp7); (data + i 7, movepi64 (srli_si128 4 zero tmp7 8))] mask m
      else
        m' <-- interleave8_2 data i v0 v1 m;
        scatter_all zero v2 (data + 2) i m'.
    (** sse/detail.h:900-922 *)
    Definition interleave8_4_any (data : Z) (i : Z -> Z) (v0 v1 v2 v3 : list A) (m : memory A) : option (memory A) :=
      let tmp0 := lo v0 v2 in
      let tmp1 := hi v0 v2 in
      let tmp2 := lo v1 v3 in
      let tmp3 := hi v1 v3 in
      let tmp4 := lo tmp0 tmp2 in
      let tmp5 := hi tmp0 tmp2 in
      let tmp6 := lo tmp1 tmp3 in
      let tmp7 := hi tmp1 tmp3 in
      stores [(data + i 0, low_half 4 tmp4); (data + i 2, low_half 4 tmp5); (data + i 4, low_half 4 tmp6); (data + i 6, low_half 4 tmp7);
              (data + i 1, high_half 4 tmp4); (data + i 3, high_half 4 tmp5); (data + i 5, high_half 4 tmp6); (data + i 7, high_half 4 tmp7)] m.
    (** sse/detail.h:923-941 *)
    Definition interleave8_4_successive (data : Z) (i : Z -> Z) (v0 v1 v2 v3 : list A) (m : memory A) : option (memory A) :=
      let tmp0 := lo v0 v2 in
      let tmp1 := hi v0 v2 in
      let tmp2 := lo v1 v3 in
      let tmp3 := hi v1 v3 in
      stores [(data + i 0, lo tmp0 tmp2); (data + i 2, hi tmp0 tmp2); (data + i 4, lo tmp1 tmp3); (data + i 6, hi tmp1 tmp3)] m.
    Definition interleave8_4 (data : Z) (i : Z -> Z) (v0 v1 v2 v3 : list A) : memory A -> option (memory A) :=
      match kind with
      | Successive 4 => interleave8_4_successive data i v0 v1 v2 v3
      | _ => interleave8_4_any data i v0 v1 v2 v3
      end.
    (** The overloads for 2 .. 8 vectors; 5 .. 8: sse/detail.h:942-979 *)
    Definition interleave8 (data : Z) (i : Z -> Z) (vs : list (list A)) (m : memory A) : option (memory A) :=
      match vs with
      | [v0; v1] => interleave8_2 data i v0 v1 m
      | [v0; v1; v2] => interleave8_3 data i v0 v1 v2 m
      | [v0; v1; v2; v3] => interleave8_4 data i v0 v1 v2 v3 m
      | [v0; v1; v2; v3; v4] => m' <-- interleave8_4 data i v0 v1 v2 v3 m; scatter_all zero v4 (data + 4) i m'
      | [v0; v1; v2; v3; v4; v5] => m' <-- interleave8_4 data i v0 v1 v2 v3 m; interleave8_2 (data + 4) i v4 v5 m'
      | [v0; v1; v2; v3; v4; v5; v6] => m' <-- interleave8_4 data i v0 v1 v2 v3 m; interleave8_3 (data + 4) i v4 v5 v6 m'
      | [v0; v1; v2; v3; v4; v5; v6; v7] => m' <-- interleave8_4 data i v0 v1 v2 v3 m; interleave8_4 (data + 4) i v4 v5 v6 v7 m'
      | _ => None
      end.

    (** The eight loads that start each deinterleave: [n] entries, the rest of the register zero *)
    Definition load8 (n : nat) (data : Z) (i : Z -> Z) (m : memory A) : option (list (list A)) :=
      sequence (tab 8 (fun e => load_part m (data + i e) n 8)).
    (** sse/detail.h:981-1003 *)
    Definition deinterleave8_2 (data : Z) (i : Z -> Z) (m : memory A) : option (list (list A)) :=
      r <-- load8 2 data i m;
      match r with
      | [a; b; c; d; e; f; g; h] =>
          let tmp2 := lo a e in
          let tmp3 := lo c g in
          let tmp4 := lo b f in
          let tmp5 := lo d h in
          let tmp0 := lo tmp2 tmp3 in
          let tmp1 := lo tmp4 tmp5 in
          Some [lo tmp0 tmp1; hi tmp0 tmp1]
      | _ => None
      end.
    (** sse/detail.h:1004-1056: three and four vectors *)
    Definition deinterleave8_34 (k : nat) (data : Z) (i : Z -> Z) (m : memory A) : option (list (list A)) :=
      r <-- load8 4 data i m;
      match r with
      | [a; b; c; d; e; f; g; h] =>
          let tmp2 := lo a e in
          let tmp4 := lo b f in
          let tmp3 := lo c g in
          let tmp5 := lo d h in
          let tmp0 := lo tmp2 tmp3 in
          let tmp1 := lo tmp4 tmp5 in
          let tmp6 := hi tmp2 tmp3 in
          let tmp7 := hi tmp4 tmp5 in
          Some (firstn k [lo tmp0 tmp1; hi tmp0 tmp1; lo tmp6 tmp7; hi tmp6 tmp7])
      | _ => None
      end.
    (** sse/detail.h:1057-1202: five to eight vectors *)
    Definition deinterleave8_58 (k : nat) (data : Z) (i : Z -> Z) (m : memory A) : option (list (list A)) :=
      r <-- load8 8 data i m;
      match r with
      | [a; b; c; d; e; f; g; h] =>
          let tmp2 := lo a e in
          let tmp4 := lo b f in
          let tmp3 := lo c g in
          let tmp5 := lo d h in
          let tmp10 := hi a e in
          let tmp11 := hi c g in
          let tmp12 := hi b f in
          let tmp13 := hi d h in
          let tmp0 := lo tmp2 tmp3 in
          let tmp1 := lo tmp4 tmp5 in
          let tmp6 := hi tmp2 tmp3 in
          let tmp7 := hi tmp4 tmp5 in
          let tmp8 := lo tmp10 tmp11 in
          let tmp9 := lo tmp12 tmp13 in
          let tmp14 := hi tmp10 tmp11 in
          let tmp15 := hi tmp12 tmp13 in
          Some (firstn k [lo tmp0 tmp1; hi tmp0 tmp1; lo tmp6 tmp7; hi tmp6 tmp7; lo tmp8 tmp9; hi tmp8 tmp9; lo tmp14 tmp15; hi tmp14 tmp15])
      | _ => None
      end.
    Definition deinterleave8 (k : nat) (data : Z) (i : Z -> Z) (m : memory A) : option (list (list A)) :=
      match k with
      | 2%nat => deinterleave8_2 data i m
      | 3%nat | 4%nat => deinterleave8_34 k data i m
      | 5%nat | 6%nat | 7%nat | 8%nat => deinterleave8_58 k data i m
      | _ => None
      end.
  End Eight.

  (** ** InterleaveImpl<V, 4, 16>, sse/detail.h:1204-1375 *)
  Section Four.
    Variable va : variant.
    Variable kind : index_kind.
    Notation lo := (unpacklo 2 1).
    Notation hi := (unpackhi 2 1).
    Notation movelh := (movelh_ps 2).
    Notation movehl := (movehl_ps 2).

    (** sse/detail.h:1205-1212 *)
    Definition interleave4_2_successive (data : Z) (i : Z -> Z) (v0 v1 : list A) (m : memory A) : option (memory A) :=
      stores [(data + i 0, lo v0 v1); (data + i 2, hi v0 v1)] m.
    (** sse/detail.h:1213-1223 *)
    Definition interleave4_2_any (data : Z) (i : Z -> Z) (v0 v1 : list A) (m : memory A) : option (memory A) :=
      let tmp0 := lo v0 v1 in
      let tmp1 := hi v0 v1 in
      stores [(data + i 0, low_half 2 tmp0); (data + i 1, high_half 2 tmp0); (data + i 2, low_half 2 tmp1); (data + i 3, high_half 2 tmp1)] m.
    Definition interleave4_2 (data : Z) (i : Z -> Z) (v0 v1 : list A) : memory A -> option (memory A) :=
      match kind with
      | Successive 2 => interleave4_2_successive data i v0 v1
      | _ => interleave4_2_any data i v0 v1
      end.
    (** sse/detail.h:1224-1248 *)
    Definition interleave4_3 (data : Z) (i : Z -> Z) (v0 v1 v2 : list A) (m : memory A) : option (memory A) :=
      let tmp0 := lo v0 v1 in
      let tmp1 := hi v0 v1 in
      if maskmov_scatter va then
        let tmp2 := lo v2 v2 in
        let tmp3 := hi v2 v2 in
        let mask := [true; true; true; false] in
        maskmoves [(data + i 0, movelh tmp0 tmp2); (data + i 1, movehl tmp2 tmp0); (data + i 2, movelh tmp1 tmp3); (data + i 3, movehl tmp3 tmp1)] mask m
      else
        m' <-- stores [(data + i 0, low_half 2 tmp0); (data + i 1, high_half 2 tmp0); (data + i 2, low_half 2 tmp1); (data + i 3, high_half 2 tmp1)] m;
        scatter_all zero v2 (data + 2) i m'.
    (** sse/detail.h:1249-1262 *)
    Definition interleave4_4 (data : Z) (i : Z -> Z) (v0 v1 v2 v3 : list A) (m : memory A) : option (memory A) :=
      let tmp0 := lo v0 v1 in
      let tmp1 := hi v0 v1 in
      let tmp2 := lo v2 v3 in
      let tmp3 := hi v2 v3 in
      stores [(data + i 0, movelh tmp0 tmp2); (data + i 1, movehl tmp2 tmp0); (data + i 2, movelh tmp1 tmp3); (data + i 3, movehl tmp3 tmp1)] m.
    (** The overloads; 5 .. 8 vectors: sse/detail.h:1263-1300 *)
    Definition interleave4 (data : Z) (i : Z -> Z) (vs : list (list A)) (m : memory A) : option (memory A) :=
      match vs with
      | [v0; v1] => interleave4_2 data i v0 v1 m
      | [v0; v1; v2] => interleave4_3 data i v0 v1 v2 m
      | [v0; v1; v2; v3] => interleave4_4 data i v0 v1 v2 v3 m
      | [v0; v1; v2; v3; v4] => m' <-- interleave4_4 data i v0 v1 v2 v3 m; scatter_all zero v4 (data + 4) i m'
      | [v0; v1; v2; v3; v4; v5] => m' <-- interleave4_4 data i v0 v1 v2 v3 m; interleave4_2 (data + 4) i v4 v5 m'
      | [v0; v1; v2; v3; v4; v5; v6] => m' <-- interleave4_4 data i v0 v1 v2 v3 m; interleave4_3 (data + 4) i v4 v5 v6 m'
      | [v0; v1; v2; v3; v4; v5; v6; v7] => m' <-- interleave4_4 data i v0 v1 v2 v3 m; interleave4_4 (data + 4) i v4 v5 v6 v7 m'
      | _ => None
      end.

    Definition load4 (n : nat) (data : Z) (i : Z -> Z) (m : memory A) : option (list (list A)) :=
      sequence (tab 4 (fun e => load_part m (data + i e) n 4)).
    (** sse/detail.h:1302-1315 *)
    Definition deinterleave4_2 (data : Z) (i : Z -> Z) (m : memory A) : option (list (list A)) :=
      r <-- load4 2 data i m;
      match r with
      | [a; b; c; d] =>
          let tmp0 := lo a b in
          let tmp1 := lo c d in
          Some [movelh tmp0 tmp1; movehl tmp1 tmp0]
      | _ => None
      end.
    (** sse/detail.h:1316-1350: three and four vectors *)
    Definition deinterleave4_34 (k : nat) (data : Z) (i : Z -> Z) (m : memory A) : option (list (list A)) :=
      r <-- load4 4 data i m;
      match r with
      | [a; b; c; d] =>
          let tmp0 := lo a b in
          let tmp1 := lo c d in
          let tmp2 := hi a b in
          let tmp3 := hi c d in
          Some (firstn k [movelh tmp0 tmp1; movehl tmp1 tmp0; movelh tmp2 tmp3; movehl tmp3 tmp2])
      | _ => None
      end.
    (** The overloads; 5 .. 8 vectors: sse/detail.h:1351-1374 *)
    Definition deinterleave4 (k : nat) (data : Z) (i : Z -> Z) (m : memory A) : option (list (list A)) :=
      match k with
      | 2%nat => deinterleave4_2 data i m
      | 3%nat | 4%nat => deinterleave4_34 k data i m
      | 5%nat => r <-- deinterleave4_34 4 data i m; v4 <-- gather_v 4 m (data + 4) i; Some (r ++ [v4])
      | 6%nat => r <-- deinterleave4_34 4 data i m; s <-- deinterleave4_2 (data + 4) i m; Some (r ++ s)
      | 7%nat => r <-- deinterleave4_34 4 data i m; s <-- deinterleave4_34 3 (data + 4) i m; Some (r ++ s)
      | 8%nat => r <-- deinterleave4_34 4 data i m; s <-- deinterleave4_34 4 (data + 4) i m; Some (r ++ s)
      | _ => None
      end.
  End Four.

  (** ** InterleaveImpl<V, 2, 16>, sse/detail.h:1376-1492 *)
  Section Two.
    (** sse/detail.h:1377-1385 *)
    Definition interleave2_2 (data : Z) (i : Z -> Z) (v0 v1 : list A) (m : memory A) : option (memory A) :=
      stores [(data + i 0, unpacklo 1 1 v0 v1); (data + i 1, unpackhi 1 1 v0 v1)] m.
    (** sse/detail.h:1386-1393 *)
    Definition interleave2_3 (data : Z) (i : Z -> Z) (v0 v1 v2 : list A) (m : memory A) : option (memory A) :=
      m' <-- interleave2_2 data i v0 v1 m; scatter_all zero v2 (data + 2) i m'.
    (** sse/detail.h:1394-1401 *)
    Definition interleave2_4 (data : Z) (i : Z -> Z) (v0 v1 v2 v3 : list A) (m : memory A) : option (memory A) :=
      m' <-- interleave2_2 data i v0 v1 m; interleave2_2 (data + 2) i v2 v3 m'.
    (** The overloads; 5 .. 8 vectors: sse/detail.h:1402-1439 *)
    Definition interleave2 (data : Z) (i : Z -> Z) (vs : list (list A)) (m : memory A) : option (memory A) :=
      match vs with
      | [v0; v1] => interleave2_2 data i v0 v1 m
      | [v0; v1; v2] => interleave2_3 data i v0 v1 v2 m
      | [v0; v1; v2; v3] => interleave2_4 data i v0 v1 v2 v3 m
      | [v0; v1; v2; v3; v4] => m' <-- interleave2_4 data i v0 v1 v2 v3 m; scatter_all zero v4 (data + 4) i m'
      | [v0; v1; v2; v3; v4; v5] => m' <-- interleave2_4 data i v0 v1 v2 v3 m; interleave2_2 (data + 4) i v4 v5 m'
      | [v0; v1; v2; v3; v4; v5; v6] => m' <-- interleave2_4 data i v0 v1 v2 v3 m; interleave2_3 (data + 4) i v4 v5 v6 m'
      | [v0; v1; v2; v3; v4; v5; v6; v7] => m' <-- interleave2_4 data i v0 v1 v2 v3 m; interleave2_4 (data + 4) i v4 v5 v6 v7 m'
      | _ => None
      end.
    (** sse/detail.h:1441-1449 *)
    Definition deinterleave2_2 (data : Z) (i : Z -> Z) (m : memory A) : option (list (list A)) :=
      a <-- mem_load m (data + i 0) 2;
      b <-- mem_load m (data + i 1) 2;
      Some [unpacklo 1 1 a b; unpackhi 1 1 a b].
    (** The overloads; 3 .. 8 vectors: sse/detail.h:1450-1491 *)
    Definition deinterleave2 (k : nat) (data : Z) (i : Z -> Z) (m : memory A) : option (list (list A)) :=
      match k with
      | 2%nat => deinterleave2_2 data i m
      | 3%nat => v2 <-- gather_v 2 m (data + 2) i; r <-- deinterleave2_2 data i m; Some (r ++ [v2])
      | 4%nat => r <-- deinterleave2_2 data i m; s <-- deinterleave2_2 (data + 2) i m; Some (r ++ s)
      | 5%nat => r <-- deinterleave2_2 data i m; s <-- deinterleave2_2 (data + 2) i m; v4 <-- gather_v 2 m (data + 4) i; Some (r ++ s ++ [v4])
      | 6%nat => r <-- deinterleave2_2 data i m; s <-- deinterleave2_2 (data + 2) i m; t <-- deinterleave2_2 (data + 4) i m; Some (r ++ s ++ t)
      | 7%nat => r <-- deinterleave2_2 data i m; s <-- deinterleave2_2 (data + 2) i m; t <-- deinterleave2_2 (data + 4) i m;
                 v6 <-- gather_v 2 m (data + 6) i; Some (r ++ s ++ t ++ [v6])
      | 8%nat => r <-- deinterleave2_2 data i m; s <-- deinterleave2_2 (data + 2) i m; t <-- deinterleave2_2 (data + 4) i m;
                 u <-- deinterleave2_2 (data + 6) i m; Some (r ++ s ++ t ++ u)
      | _ => None
      end.
  End Two.

  (** ** InterleaveImpl<V, 1, VSize>, scalar/detail.h:40-159; a vector has the single entry v.data() *)
  Section One.
    Definition scalar_data (v : list A) : A := znth zero v 0.
    (** scalar/detail.h:41-66: data[i[0] + c] = vc.data() *)
    Fixpoint interleave1_upto4 (data : Z) (i : Z -> Z) (c : Z) (vs : list (list A)) (m : memory A) : option (memory A) :=
      match vs with
      | [] => Some m
      | v :: vs' => m' <-- mem_write m (data + (i 0 + c)) (scalar_data v); interleave1_upto4 data i (c + 1) vs' m'
      end.
    (** 5 .. 8 vectors: scalar/detail.h:67-104 *)
    Definition interleave1 (data : Z) (i : Z -> Z) (vs : list (list A)) (m : memory A) : option (memory A) :=
      match vs with
      | [_; _] | [_; _; _] | [_; _; _; _] => interleave1_upto4 data i 0 vs m
      | [v0; v1; v2; v3; v4] => m' <-- interleave1_upto4 data i 0 [v0; v1; v2; v3] m; mem_write m' (data + (i 0 + 4)) (scalar_data v4)
      | v0 :: v1 :: v2 :: v3 :: ([_; _] | [_; _; _] | [_; _; _; _]) as vs' =>
          m' <-- interleave1_upto4 data i 0 [v0; v1; v2; v3] m; interleave1_upto4 (data + 4) i 0 (skipn 4 vs) m'
      | _ => None
      end.
    (** scalar/detail.h:106-129 *)
    Definition deinterleave1_upto4 (k : nat) (data : Z) (i : Z -> Z) (m : memory A) : option (list (list A)) :=
      sequence (tab k (fun c => option_map (fun x => [x]) (m (data + (i 0 + c))))).
    (** scalar/detail.h:130-158 *)
    Definition deinterleave1 (k : nat) (data : Z) (i : Z -> Z) (m : memory A) : option (list (list A)) :=
      match k with
      | 2%nat | 3%nat | 4%nat => deinterleave1_upto4 k data i m
      | 5%nat => r <-- deinterleave1_upto4 4 data i m; x <-- m (data + (i 0 + 4)); Some (r ++ [[x]])
      | 6%nat | 7%nat | 8%nat => r <-- deinterleave1_upto4 4 data i m; s <-- deinterleave1_upto4 (k - 4) (data + 4) i m; Some (r ++ s)
      | _ => None
      end.
  End One.

  (** InterleaveImpl<V, n, sizeof(V)> for the vectors of an SSE build; a SimdArray with a single native vector uses the
      one of the native vector (simdarray.h:2687-2699); there is none for other SimdArrays *)
  Definition interleave_impl (va : variant) (n : nat) (kind : index_kind) (data : Z) (i : Z -> Z) (vs : list (list A)) (m : memory A) : option (memory A) :=
    match n with
    | 8%nat => interleave8 va kind data i vs m
    | 4%nat => interleave4 va kind data i vs m
    | 2%nat => interleave2 data i vs m
    | 1%nat => interleave1 data i vs m
    | _ => None
    end.
  Definition deinterleave_impl (n k : nat) (data : Z) (i : Z -> Z) (m : memory A) : option (list (list A)) :=
    match n with
    | 8%nat => deinterleave8 k data i m
    | 4%nat => deinterleave4 k data i m
    | 2%nat => deinterleave2 k data i m
    | 1%nat => deinterleave1 k data i m
    | _ => None
    end.
End Interleave.

(** ** InterleavedMemoryWrapper *)

(** conversion to int and to size_t *)
Definition to_int32 (z : Z) : Z := let r := z mod 2 ^ 32 in if r <? 2 ^ 31 then r else r - 2 ^ 32.
Definition to_size_t (z : Z) : Z := z mod 2 ^ 64.
(** interleavedmemory.h:85-98: an entry of the index vector (SimdArray<int, n>) in the constructor *)
Definition scaled_index (struct_size : Z) (x : Z) : Z :=
  if struct_size =? 1 then x
  else if struct_size =? 2 then to_int32 (Z.shiftl x 1)
  else if struct_size =? 4 then to_int32 (Z.shiftl x 2)
  else if struct_size =? 8 then to_int32 (Z.shiftl x 3)
  else if struct_size =? 16 then to_int32 (Z.shiftl x 4)
  else to_int32 (x * to_int32 struct_size).
(** ... and the same for SuccessiveEntries<StructSize> (types.h:253-293): m_first *)
Definition scaled_first (struct_size : Z) (first : Z) : Z :=
  if struct_size =? 1 then first
  else if struct_size =? 2 then to_size_t (Z.shiftl first 1)
  else if struct_size =? 4 then to_size_t (Z.shiftl first 2)
  else if struct_size =? 8 then to_size_t (Z.shiftl first 3)
  else if struct_size =? 16 then to_size_t (Z.shiftl first 4)
  else to_size_t (first * to_size_t (to_int32 struct_size)).
(** types.h:267-270 operator[] *)
Definition successive_at (struct_size m_first offset : Z) : Z := to_size_t (m_first + offset * struct_size).

(** The argument of the wrapper's operator[]: an index vector or the index of the first struct
    (interleavedmemory.h:264-278, 316-324) *)
Inductive subscript := Indexes (idx : list Z) | First (first : Z).
Definition subscript_kind (struct_size : nat) (s : subscript) : index_kind :=
  match s with Indexes _ => AnyIndex | First _ => Successive struct_size end.
Definition subscript_at (struct_size : nat) (s : subscript) (e : Z) : Z :=
  match s with
  | Indexes idx => scaled_index (Z.of_nat struct_size) (znth 0 idx e)
  | First f => successive_at (Z.of_nat struct_size) (scaled_first (Z.of_nat struct_size) f) e
  end.
(** interleavedmemory.h:59-71, 100-115, 152-163: wrapper\[s\] = tie(vs...) and tie(vs...) = wrapper\[s\] with [k] vectors of
    [n] entries; the static_assert k <= StructSize of the assignment *)
Definition wrapper_write {A} (zero : A) (va : variant) (n struct_size : nat) (data : Z) (s : subscript) (vs : list (list A)) (m : memory A)
    : option (memory A) :=
  if Nat.leb (length vs) struct_size then
    interleave_impl zero va n (subscript_kind struct_size s) data (subscript_at struct_size s) vs m
  else None.
Definition wrapper_read {A} (zero : A) (n struct_size k : nat) (data : Z) (s : subscript) (m : memory A) : option (list (list A)) :=
  deinterleave_impl zero n k data (subscript_at struct_size s) m.
