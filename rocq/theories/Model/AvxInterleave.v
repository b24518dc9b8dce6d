(** Access to arrays of structs with AVX vectors: InterleaveImpl<V, 16, 32>, <V, 8, 32> and <V, 4, 32>
    (Vc/avx/detail.h:1328-2296), selected by the InterleavedMemoryWrapper of Model/Interleave.v, and
    deinterleave (Vc/avx/deinterleave.tcc).  As in Model/Interleave.v the units of a register are the entries of
    the vector (so a 64-bit half of a half holds 4, 2 or 1 units), memory is a partial map from entry addresses to
    values, and the casts between register types are omitted. *)
From Coq Require Import ZArith List Bool.
From Verif.Spec Require Import Seq.
From Verif.Model Require Import SimdArray SimdArrayOps Mem Word SseReg SseMove SseInt SseConvert GatherScatter Interleave AvxReg AvxMove AvxShuffle
  AvxConvert.
Import ListNotations.
Local Open Scope Z_scope.

(** sse/shuffle.h:36-39 VecPos *)
Local Notation X0 := 0%nat.
Local Notation X1 := 1%nat.
Local Notation Y1 := 9%nat.

Section Interleave.
  Context {A : Type} (zero : A).

  (** the register of a vector with the entries [v] ([u] of them in 64 bits) *)
  Definition yregister (u : nat) (v : list A) : ymm A := Ymm (firstn (2 * u) v) (skipn (2 * u) v).
  (** [n] loads of [cnt] entries, one for each struct *)
  Definition row_loads (n cnt : nat) (data : Z) (i : Z -> Z) (m : memory A) : option (list (list A)) :=
    sequence (tab n (fun e => mem_load m (data + i e) cnt)).
  Definition row (r : list (list A)) (e : nat) : list A := nth e r [].

  (** ** InterleaveImpl<V, 16, 32>, avx/detail.h:1329-1720 *)
  Section Sixteen.
    Variable kind : index_kind.
    Notation lo := (yunpacklo 4 1).
    Notation hi := (yunpackhi 4 1).
    Notation shuffle128 := (ymem_shuffle128 4 zero).

    (** avx/detail.h:1330-1354 *)
    Definition y16_2_any (data : Z) (i : Z -> Z) (v0 v1 : ymm A) (m : memory A) : option (memory A) :=
      let tmp0 := lo v0 v1 in
      let tmp1 := hi v0 v1 in
      stores [(data + i 0, int_at (lo128 tmp0) 0); (data + i 1, int_at (lo128 tmp0) 1); (data + i 2, int_at (lo128 tmp0) 2); (data + i 3, int_at (lo128 tmp0) 3);
              (data + i 4, int_at (lo128 tmp1) 0); (data + i 5, int_at (lo128 tmp1) 1); (data + i 6, int_at (lo128 tmp1) 2); (data + i 7, int_at (lo128 tmp1) 3);
              (data + i 8, int_at (hi128 tmp0) 0); (data + i 9, int_at (hi128 tmp0) 1); (data + i 10, int_at (hi128 tmp0) 2); (data + i 11, int_at (hi128 tmp0) 3);
              (data + i 12, int_at (hi128 tmp1) 0); (data + i 13, int_at (hi128 tmp1) 1); (data + i 14, int_at (hi128 tmp1) 2); (data + i 15, int_at (hi128 tmp1) 3)] m.
    (** avx/detail.h:1355-1362 *)
    Definition y16_2_successive (data : Z) (i : Z -> Z) (v0 v1 : ymm A) (m : memory A) : option (memory A) :=
      let tmp0 := lo v0 v1 in
      let tmp1 := hi v0 v1 in
      stores [(data + i 0, units (shuffle128 X0 Y0 tmp0 tmp1)); (data + i 8, units (shuffle128 X1 Y1 tmp0 tmp1))] m.
    Definition y16_2 (data : Z) (i : Z -> Z) (v0 v1 : ymm A) : memory A -> option (memory A) :=
      match kind with
      | Successive 2 => y16_2_successive data i v0 v1
      | _ => y16_2_any data i v0 v1
      end.
    (** avx/detail.h:1363-1368 *)
    Definition y16_3 (data : Z) (i : Z -> Z) (v0 v1 v2 : ymm A) (m : memory A) : option (memory A) :=
      m' <-- y16_2 data i v0 v1 m; scatter_all zero (units v2) (data + 2) i m'.
    (** avx/detail.h:1369-1395; the lambda [store] is 1384-1389 *)
    Definition y16_4_any (data : Z) (i : Z -> Z) (v0 v1 v2 v3 : ymm A) (m : memory A) : option (memory A) :=
      let tmp0 := lo v0 v2 in
      let tmp1 := hi v0 v2 in
      let tmp2 := lo v1 v3 in
      let tmp3 := hi v1 v3 in
      let tmp4 := lo tmp0 tmp2 in
      let tmp5 := hi tmp0 tmp2 in
      let tmp6 := lo tmp1 tmp3 in
      let tmp7 := hi tmp1 tmp3 in
      let store (x : ymm A) (offset : Z) :=
        [(data + i (offset + 0), low_half 4 (lo128 x)); (data + i (offset + 8), low_half 4 (hi128 x));
         (data + i (offset + 1), high_half 4 (lo128 x)); (data + i (offset + 9), high_half 4 (hi128 x))] in
      stores (store tmp4 0 ++ store tmp5 2 ++ store tmp6 4 ++ store tmp7 6) m.
    (** avx/detail.h:1396-1415 *)
    Definition y16_4_successive (data : Z) (i : Z -> Z) (v0 v1 v2 v3 : ymm A) (m : memory A) : option (memory A) :=
      let tmp0 := lo v0 v2 in
      let tmp1 := hi v0 v2 in
      let tmp2 := lo v1 v3 in
      let tmp3 := hi v1 v3 in
      let tmp4 := lo tmp0 tmp2 in
      let tmp5 := hi tmp0 tmp2 in
      let tmp6 := lo tmp1 tmp3 in
      let tmp7 := hi tmp1 tmp3 in
      stores [(data + i 0, units (shuffle128 X0 Y0 tmp4 tmp5)); (data + i 4, units (shuffle128 X0 Y0 tmp6 tmp7));
              (data + i 8, units (shuffle128 X1 Y1 tmp4 tmp5)); (data + i 12, units (shuffle128 X1 Y1 tmp6 tmp7))] m.
    Definition y16_4 (data : Z) (i : Z -> Z) (v0 v1 v2 v3 : ymm A) : memory A -> option (memory A) :=
      match kind with
      | Successive 4 => y16_4_successive data i v0 v1 v2 v3
      | _ => y16_4_any data i v0 v1 v2 v3
      end.
    (** The overloads for 2 .. 8 vectors; 5 .. 8: avx/detail.h:1416-1451 *)
    Definition interleave_y16 (data : Z) (i : Z -> Z) (vs : list (list A)) (m : memory A) : option (memory A) :=
      match map (yregister 4) vs with
      | [v0; v1] => y16_2 data i v0 v1 m
      | [v0; v1; v2] => y16_3 data i v0 v1 v2 m
      | [v0; v1; v2; v3] => y16_4 data i v0 v1 v2 v3 m
      | [v0; v1; v2; v3; v4] => m' <-- y16_4 data i v0 v1 v2 v3 m; scatter_all zero (units v4) (data + 4) i m'
      | [v0; v1; v2; v3; v4; v5] => m' <-- y16_4 data i v0 v1 v2 v3 m; y16_2 (data + 4) i v4 v5 m'
      | [v0; v1; v2; v3; v4; v5; v6] => m' <-- y16_4 data i v0 v1 v2 v3 m; y16_3 (data + 4) i v4 v5 v6 m'
      | [v0; v1; v2; v3; v4; v5; v6; v7] => m' <-- y16_4 data i v0 v1 v2 v3 m; y16_4 (data + 4) i v4 v5 v6 v7 m'
      | _ => None
      end.

    (** avx/detail.h:1452-1476 *)
    Definition dy16_2 (data : Z) (i : Z -> Z) (m : memory A) : option (list (list A)) :=
      r <-- row_loads 16 2 data i m;
      let x := row r in
      let tmp4 := Ymm (x 0%nat ++ x 1%nat ++ x 2%nat ++ x 3%nat) (x 8%nat ++ x 9%nat ++ x 10%nat ++ x 11%nat) in
      let tmp5 := Ymm (x 4%nat ++ x 5%nat ++ x 6%nat ++ x 7%nat) (x 12%nat ++ x 13%nat ++ x 14%nat ++ x 15%nat) in
      let tmp2 := lo tmp4 tmp5 in
      let tmp3 := hi tmp4 tmp5 in
      let tmp0 := lo tmp2 tmp3 in
      let tmp1 := hi tmp2 tmp3 in
      Some (map units [lo tmp0 tmp1; hi tmp0 tmp1]).
    (** avx/detail.h:1477-1506 (three vectors), 1507-1537 (four) *)
    Definition dy16_34 (k : nat) (data : Z) (i : Z -> Z) (m : memory A) : option (list (list A)) :=
      r <-- row_loads 16 4 data i m;
      let x := row r in
      let tmp0 := Ymm (x 0%nat ++ x 1%nat) (x 8%nat ++ x 9%nat) in
      let tmp1 := Ymm (x 2%nat ++ x 3%nat) (x 10%nat ++ x 11%nat) in
      let tmp2 := Ymm (x 4%nat ++ x 5%nat) (x 12%nat ++ x 13%nat) in
      let tmp3 := Ymm (x 6%nat ++ x 7%nat) (x 14%nat ++ x 15%nat) in
      let tmp4 := lo tmp0 tmp2 in
      let tmp5 := hi tmp0 tmp2 in
      let tmp6 := lo tmp1 tmp3 in
      let tmp7 := hi tmp1 tmp3 in
      let tmp8 := lo tmp4 tmp6 in
      let tmp9 := hi tmp4 tmp6 in
      let tmp10 := lo tmp5 tmp7 in
      let tmp11 := hi tmp5 tmp7 in
      Some (firstn k (map units [lo tmp8 tmp10; hi tmp8 tmp10; lo tmp9 tmp11; hi tmp9 tmp11])).
    (** avx/detail.h:1538-1719: five to eight vectors *)
    Definition dy16_58 (k : nat) (data : Z) (i : Z -> Z) (m : memory A) : option (list (list A)) :=
      r <-- row_loads 16 8 data i m;
      let x := row r in
      let a := Ymm (x 0%nat) (x 8%nat) in
      let b := Ymm (x 1%nat) (x 9%nat) in
      let c := Ymm (x 2%nat) (x 10%nat) in
      let d := Ymm (x 3%nat) (x 11%nat) in
      let e := Ymm (x 4%nat) (x 12%nat) in
      let f := Ymm (x 5%nat) (x 13%nat) in
      let g := Ymm (x 6%nat) (x 14%nat) in
      let h := Ymm (x 7%nat) (x 15%nat) in
      let tmp2 := lo a e in
      let tmp4 := lo b f in
      let tmp3 := lo c g in
      let tmp5 := lo d h in
      let tmp10 := hi a e in
      let tmp11 := hi c g in
      let tmp12 := hi b f in
      let tmp13 := hi d h in
      let tmp0 := lo tmp2 tmp3 in
      let tmp1 := lo tmp4 tmp5 in
      let tmp6 := hi tmp2 tmp3 in
      let tmp7 := hi tmp4 tmp5 in
      let tmp8 := lo tmp10 tmp11 in
      let tmp9 := lo tmp12 tmp13 in
      let tmp14 := hi tmp10 tmp11 in
      let tmp15 := hi tmp12 tmp13 in
      Some (firstn k (map units [lo tmp0 tmp1; hi tmp0 tmp1; lo tmp6 tmp7; hi tmp6 tmp7; lo tmp8 tmp9; hi tmp8 tmp9; lo tmp14 tmp15; hi tmp14 tmp15])).
    Definition deinterleave_y16 (k : nat) (data : Z) (i : Z -> Z) (m : memory A) : option (list (list A)) :=
      match k with
      | 2%nat => dy16_2 data i m
      | 3%nat | 4%nat => dy16_34 k data i m
      | 5%nat | 6%nat | 7%nat | 8%nat => dy16_58 k data i m
      | _ => None
      end.
  End Sixteen.

  (** ** InterleaveImpl<V, 8, 32>, avx/detail.h:1721-2134 *)
  Section Eight.
    Variable va : variant.
    Variable kind : index_kind.
    Notation lo := (yunpacklo 2 1).
    Notation hi := (yunpackhi 2 1).
    Notation shuffle128 := (ymem_shuffle128 2 zero).

    (** Mem::blend<...>(__m256), avx/shuffle.h:158-174 (ymem_blend of AvxShuffle.v, here with entries as units) *)
    Definition blend_entries (d0 d1 d2 d3 d4 d5 d6 d7 : nat) (x y : ymm A) : ymm A :=
      yblend 2 1 x y (d0 / 8 * 1 + d1 / 9 * 2 + d2 / 10 * 4 + d3 / 11 * 8 + d4 / 12 * 16 + d5 / 13 * 32 + d6 / 14 * 64 + d7 / 15 * 128).
    (** _mm_maskstore_ps with the mask [0, -1, -1, -1]: a store of the first three entries *)
    Definition maskstore_3 (l : list (Z * list A)) (m : memory A) : option (memory A) := maskmoves l [true; true; true; false] m.

    (** avx/detail.h:1723-1739 *)
    Definition y8_2_any (data : Z) (i : Z -> Z) (v0 v1 : ymm A) (m : memory A) : option (memory A) :=
      let tmp0 := lo v0 v1 in
      let tmp1 := hi v0 v1 in
      stores [(data + i 0, low_half 2 (lo128 tmp0)); (data + i 1, high_half 2 (lo128 tmp0)); (data + i 2, low_half 2 (lo128 tmp1)); (data + i 3, high_half 2 (lo128 tmp1));
              (data + i 4, low_half 2 (hi128 tmp0)); (data + i 5, high_half 2 (hi128 tmp0)); (data + i 6, low_half 2 (hi128 tmp1)); (data + i 7, high_half 2 (hi128 tmp1))] m.
    (** avx/detail.h:1740-1752 *)
    Definition y8_2_successive (data : Z) (i : Z -> Z) (v0 v1 : ymm A) (m : memory A) : option (memory A) :=
      let tmp0 := lo v0 v1 in
      let tmp1 := hi v0 v1 in
      stores [(data + i 0, lo128 tmp0); (data + i 2, lo128 tmp1); (data + i 4, hi128 tmp0); (data + i 6, hi128 tmp1)] m.
    Definition y8_2 (data : Z) (i : Z -> Z) (v0 v1 : ymm A) : memory A -> option (memory A) :=
      match kind with
      | Successive 2 => y8_2_successive data i v0 v1
      | _ => y8_2_any data i v0 v1
      end.
    (** avx/detail.h:1753-1788 *)
    Definition y8_3_any (data : Z) (i : Z -> Z) (v0 v1 v2 : ymm A) (m : memory A) : option (memory A) :=
      if maskmov_scatter va then
        let tmp0 := lo v0 v2 in
        let tmp1 := hi v0 v2 in
        let tmp2 := lo v1 v1 in
        let tmp3 := hi v1 v1 in
        let tmp4 := lo tmp0 tmp2 in
        let tmp5 := hi tmp0 tmp2 in
        let tmp6 := lo tmp1 tmp3 in
        let tmp7 := hi tmp1 tmp3 in
        maskstore_3 [(data + i 0, lo128 tmp4); (data + i 1, lo128 tmp5); (data + i 2, lo128 tmp6); (data + i 3, lo128 tmp7);
                     (data + i 4, hi128 tmp4); (data + i 5, hi128 tmp5); (data + i 6, hi128 tmp6); (data + i 7, hi128 tmp7)] m
      else
        m' <-- y8_2 data i v0 v1 m; scatter_all zero (units v2) (data + 2) i m'.
    (** avx/detail.h:1789-1823 *)
    Definition y8_3_successive (data : Z) (i : Z -> Z) (v0_ v1_ v2_ : ymm A) (m : memory A) : option (memory A) :=
      let v0 := shuffle_ps256 2 v0_ v0_ 0x6c in
      let v1 := shuffle_ps256 2 v1_ v1_ 0xb1 in
      let v2 := shuffle_ps256 2 v2_ v2_ 0xc6 in
      let w0 := blend_entries 0 1 10 3 12 5 6 15 (blend_entries 0 9 2 3 4 5 14 7 v0 v1) v2 in
      let w1 := blend_entries 0 9 2 3 4 13 6 7 (blend_entries 8 1 2 11 12 5 6 15 v0 v1) v2 in
      let w2 := blend_entries 8 1 2 11 4 5 14 7 (blend_entries 0 1 10 3 4 13 6 7 v0 v1) v2 in
      stores [(data + i 0, units (permute2f128 2 zero w0 w1 0x20)); (data + i 0 + 8, units w2);
              (data + i 0 + 16, units (permute2f128 2 zero w1 w0 0x31))] m.
    Definition y8_3 (data : Z) (i : Z -> Z) (v0 v1 v2 : ymm A) : memory A -> option (memory A) :=
      match kind with
      | Successive 3 => y8_3_successive data i v0 v1 v2
      | _ => y8_3_any data i v0 v1 v2
      end.
    (** avx/detail.h:1824-1851 *)
    Definition y8_4_any (data : Z) (i : Z -> Z) (v0 v1 v2 v3 : ymm A) (m : memory A) : option (memory A) :=
      let tmp0 := lo v0 v2 in
      let tmp1 := hi v0 v2 in
      let tmp2 := lo v1 v3 in
      let tmp3 := hi v1 v3 in
      let _04 := lo tmp0 tmp2 in
      let _15 := hi tmp0 tmp2 in
      let _26 := lo tmp1 tmp3 in
      let _37 := hi tmp1 tmp3 in
      stores [(data + i 0, lo128 _04); (data + i 1, lo128 _15); (data + i 2, lo128 _26); (data + i 3, lo128 _37);
              (data + i 4, hi128 _04); (data + i 5, hi128 _15); (data + i 6, hi128 _26); (data + i 7, hi128 _37)] m.
    (** avx/detail.h:1852-1880 *)
    Definition y8_4_successive (data : Z) (i : Z -> Z) (v0 v1 v2 v3 : ymm A) (m : memory A) : option (memory A) :=
      let tmp0 := lo v0 v2 in
      let tmp1 := hi v0 v2 in
      let tmp2 := lo v1 v3 in
      let tmp3 := hi v1 v3 in
      let _04 := lo tmp0 tmp2 in
      let _15 := hi tmp0 tmp2 in
      let _26 := lo tmp1 tmp3 in
      let _37 := hi tmp1 tmp3 in
      stores [(data + i 0, units (permute2f128 2 zero _04 _15 0x20)); (data + i 0 + 8, units (permute2f128 2 zero _26 _37 0x20));
              (data + i 0 + 16, units (permute2f128 2 zero _04 _15 0x31)); (data + i 0 + 24, units (permute2f128 2 zero _26 _37 0x31))] m.
    Definition y8_4 (data : Z) (i : Z -> Z) (v0 v1 v2 v3 : ymm A) : memory A -> option (memory A) :=
      match kind with
      | Successive 4 => y8_4_successive data i v0 v1 v2 v3
      | _ => y8_4_any data i v0 v1 v2 v3
      end.
    (** The overloads; 5 .. 8 vectors: avx/detail.h:1881-1917 *)
    Definition interleave_y8 (data : Z) (i : Z -> Z) (vs : list (list A)) (m : memory A) : option (memory A) :=
      match map (yregister 2) vs with
      | [v0; v1] => y8_2 data i v0 v1 m
      | [v0; v1; v2] => y8_3 data i v0 v1 v2 m
      | [v0; v1; v2; v3] => y8_4 data i v0 v1 v2 v3 m
      | [v0; v1; v2; v3; v4] => m' <-- y8_4 data i v0 v1 v2 v3 m; scatter_all zero (units v4) (data + 4) i m'
      | [v0; v1; v2; v3; v4; v5] => m' <-- y8_4 data i v0 v1 v2 v3 m; y8_2 (data + 4) i v4 v5 m'
      | [v0; v1; v2; v3; v4; v5; v6] => m' <-- y8_4 data i v0 v1 v2 v3 m; y8_3 (data + 4) i v4 v5 v6 m'
      | [v0; v1; v2; v3; v4; v5; v6; v7] => m' <-- y8_4 data i v0 v1 v2 v3 m; y8_4 (data + 4) i v4 v5 v6 v7 m'
      | _ => None
      end.

    (** a 256-bit load *)
    Definition yload (m : memory A) (a : Z) : option (ymm A) := option_map (yregister 2) (mem_load m a 8).
    (** avx/detail.h:1918-1941 *)
    Definition dy8_2_any (data : Z) (i : Z -> Z) (m : memory A) : option (list (list A)) :=
      r <-- row_loads 8 2 data i m;
      let x := row r in
      let tmp2 := Ymm (x 0%nat ++ x 1%nat) (x 4%nat ++ x 5%nat) in
      let tmp3 := Ymm (x 2%nat ++ x 3%nat) (x 6%nat ++ x 7%nat) in
      let tmp0 := lo tmp2 tmp3 in
      let tmp1 := hi tmp2 tmp3 in
      Some (map units [lo tmp0 tmp1; hi tmp0 tmp1]).
    (** avx/detail.h:1942-1958 *)
    Definition dy8_2_successive (data : Z) (i : Z -> Z) (m : memory A) : option (list (list A)) :=
      il0123 <-- yload m (data + i 0);
      il4567 <-- yload m (data + i 4);
      let tmp2 := shuffle128 X0 Y0 il0123 il4567 in
      let tmp3 := shuffle128 X1 Y1 il0123 il4567 in
      let tmp0 := lo tmp2 tmp3 in
      let tmp1 := hi tmp2 tmp3 in
      Some (map units [lo tmp0 tmp1; hi tmp0 tmp1]).
    Definition dy8_2 (data : Z) (i : Z -> Z) (m : memory A) : option (list (list A)) :=
      match kind with
      | Successive 2 => dy8_2_successive data i m
      | _ => dy8_2_any data i m
      end.
    (** avx/detail.h:1959-1985 (three vectors), 2025-2052 (four) *)
    Definition dy8_34_any (k : nat) (data : Z) (i : Z -> Z) (m : memory A) : option (list (list A)) :=
      r <-- row_loads 8 4 data i m;
      let il := row r in
      let il04 := Ymm (il 0%nat) (il 4%nat) in
      let il15 := Ymm (il 1%nat) (il 5%nat) in
      let il26 := Ymm (il 2%nat) (il 6%nat) in
      let il37 := Ymm (il 3%nat) (il 7%nat) in
      let ab0246 := lo il04 il26 in
      let ab1357 := lo il15 il37 in
      let cd0246 := hi il04 il26 in
      let cd1357 := hi il15 il37 in
      Some (firstn k (map units [lo ab0246 ab1357; hi ab0246 ab1357; lo cd0246 cd1357; hi cd0246 cd1357])).
    (** avx/detail.h:1986-2024 *)
    Definition dy8_3_successive (data : Z) (i : Z -> Z) (m : memory A) : option (list (list A)) :=
      in0 <-- yload m (data + i 0 + 0);
      in1 <-- yload m (data + i 0 + 8);
      in2 <-- yload m (data + i 0 + 16);
      let aaabffgg := permute2f128 2 zero in0 in2 0x20 in
      let cdddeeef := in1 in
      let bbccghhh := permute2f128 2 zero in0 in2 0x31 in
      let x0 := yblend 2 1 (yblend 2 1 aaabffgg cdddeeef (2 + 0x10 + 0x80)) bbccghhh (4 + 0x20) in
      let x1 := yblend 2 1 (yblend 2 1 aaabffgg cdddeeef (4 + 0x20)) bbccghhh (1 + 8 + 0x40) in
      let x2 := yblend 2 1 (yblend 2 1 aaabffgg cdddeeef (1 + 8 + 0x40)) bbccghhh (2 + 0x10 + 0x80) in
      Some (map units [shuffle_ps256 2 x0 x0 0x6c; shuffle_ps256 2 x1 x1 0xb1; shuffle_ps256 2 x2 x2 0xc6]).
    Definition dy8_3 (data : Z) (i : Z -> Z) (m : memory A) : option (list (list A)) :=
      match kind with
      | Successive 3 => dy8_3_successive data i m
      | _ => dy8_34_any 3 data i m
      end.
    (** avx/detail.h:2053-2080 *)
    Definition dy8_4_successive (data : Z) (i : Z -> Z) (m : memory A) : option (list (list A)) :=
      il01 <-- yload m (data + i 0);
      il23 <-- yload m (data + i 2);
      il45 <-- yload m (data + i 4);
      il67 <-- yload m (data + i 6);
      let il04 := permute2f128 2 zero il01 il45 0x20 in
      let il15 := permute2f128 2 zero il01 il45 0x31 in
      let il26 := permute2f128 2 zero il23 il67 0x20 in
      let il37 := permute2f128 2 zero il23 il67 0x31 in
      let ab0246 := lo il04 il26 in
      let ab1357 := lo il15 il37 in
      let cd0246 := hi il04 il26 in
      let cd1357 := hi il15 il37 in
      Some (map units [lo ab0246 ab1357; hi ab0246 ab1357; lo cd0246 cd1357; hi cd0246 cd1357]).
    Definition dy8_4 (data : Z) (i : Z -> Z) (m : memory A) : option (list (list A)) :=
      match kind with
      | Successive 4 => dy8_4_successive data i m
      | _ => dy8_34_any 4 data i m
      end.
    (** avx/detail.h:2093-2121 *)
    Definition dy8_6_successive (data : Z) (i : Z -> Z) (m : memory A) : option (list (list A)) :=
      a <-- yload m (data + i 0);
      b <-- yload m (data + (i 0 + 1 * 8));
      c <-- yload m (data + (i 0 + 2 * 8));
      d <-- yload m (data + (i 0 + 3 * 8));
      e <-- yload m (data + (i 0 + 4 * 8));
      f <-- yload m (data + (i 0 + 5 * 8));
      let tmp2 := shuffle128 X0 Y0 a d in
      let tmp3 := shuffle128 X1 Y1 b e in
      let tmp4 := shuffle128 X1 Y1 a d in
      let tmp5 := shuffle128 X0 Y0 c f in
      let tmp8 := shuffle128 X0 Y0 b e in
      let tmp9 := shuffle128 X1 Y1 c f in
      let tmp0 := lo tmp2 tmp3 in
      let tmp1 := hi tmp4 tmp5 in
      let tmp6 := hi tmp2 tmp3 in
      let tmp7 := lo tmp8 tmp9 in
      let tmp10 := lo tmp4 tmp5 in
      let tmp11 := hi tmp8 tmp9 in
      Some (map units [lo tmp0 tmp1; hi tmp0 tmp1; lo tmp6 tmp7; hi tmp6 tmp7; lo tmp10 tmp11; hi tmp10 tmp11]).
    (** The overloads; 5, 6, 7, 8 vectors: avx/detail.h:2081-2092, 2122-2133 *)
    Definition deinterleave_y8 (k : nat) (data : Z) (i : Z -> Z) (m : memory A) : option (list (list A)) :=
      match k with
      | 2%nat => dy8_2 data i m
      | 3%nat => dy8_3 data i m
      | 4%nat => dy8_4 data i m
      | 5%nat => v4 <-- gather_v zero 8 m (data + 4) i; r <-- dy8_4 data i m; Some (r ++ [v4])
      | 6%nat => match kind with
                 | Successive 6 => dy8_6_successive data i m
                 | _ => r <-- dy8_4 data i m; s <-- dy8_2 (data + 4) i m; Some (r ++ s)
                 end
      | 7%nat => r <-- dy8_4 data i m; s <-- dy8_3 (data + 4) i m; Some (r ++ s)
      | 8%nat => r <-- dy8_4 data i m; s <-- dy8_4 (data + 4) i m; Some (r ++ s)
      | _ => None
      end.
  End Eight.

  (** ** InterleaveImpl<V, 4, 32>, avx/detail.h:2135-2296 *)
  Section Four.
    Variable va : variant.
    Notation lo := (yunpacklo 1 1).
    Notation hi := (yunpackhi 1 1).
    Notation shuffle128 := (ymem_shuffle128 1 zero).

    (** avx/detail.h:2136-2147 *)
    Definition y4_2 (data : Z) (i : Z -> Z) (v0 v1 : ymm A) (m : memory A) : option (memory A) :=
      let tmp0 := lo v0 v1 in
      let tmp1 := hi v0 v1 in
      stores [(data + i 0, lo128 tmp0); (data + i 1, lo128 tmp1); (data + i 2, hi128 tmp0); (data + i 3, hi128 tmp1)] m.
    (** avx/detail.h:2148-2174; the mask selects three entries *)
    Definition y4_3 (data : Z) (i : Z -> Z) (v0 v1 v2 : ymm A) (m : memory A) : option (memory A) :=
      if maskmov_scatter va then
        let tmp0 := lo v0 v1 in
        let tmp1 := hi v0 v1 in
        let tmp2 := lo v2 v2 in
        let tmp3 := hi v2 v2 in
        maskstore_3 [(data + i 0, units (shuffle128 X0 Y0 tmp0 tmp2)); (data + i 1, units (shuffle128 X0 Y0 tmp1 tmp3));
                     (data + i 2, units (shuffle128 X1 Y1 tmp0 tmp2)); (data + i 3, units (shuffle128 X1 Y1 tmp1 tmp3))] m
      else
        m' <-- y4_2 data i v0 v1 m; scatter_all zero (units v2) (data + 2) i m'.
    (** avx/detail.h:2175-2205 *)
    Definition y4_4 (data : Z) (i : Z -> Z) (v0 v1 v2 v3 : ymm A) (m : memory A) : option (memory A) :=
      let tmp0 := lo v0 v1 in
      let tmp1 := hi v0 v1 in
      let tmp2 := lo v2 v3 in
      let tmp3 := hi v2 v3 in
      stores [(data + i 0, lo128 tmp0); (data + (i 0 + 2), lo128 tmp2); (data + i 1, lo128 tmp1); (data + (i 1 + 2), lo128 tmp3);
              (data + i 2, hi128 tmp0); (data + (i 2 + 2), hi128 tmp2); (data + i 3, hi128 tmp1); (data + (i 3 + 2), hi128 tmp3)] m.
    (** The overloads; 5 .. 8 vectors: avx/detail.h:2206-2243 *)
    Definition interleave_y4 (data : Z) (i : Z -> Z) (vs : list (list A)) (m : memory A) : option (memory A) :=
      match map (yregister 1) vs with
      | [v0; v1] => y4_2 data i v0 v1 m
      | [v0; v1; v2] => y4_3 data i v0 v1 v2 m
      | [v0; v1; v2; v3] => y4_4 data i v0 v1 v2 v3 m
      | [v0; v1; v2; v3; v4] => m' <-- y4_4 data i v0 v1 v2 v3 m; scatter_all zero (units v4) (data + 4) i m'
      | [v0; v1; v2; v3; v4; v5] => m' <-- y4_4 data i v0 v1 v2 v3 m; y4_2 (data + 4) i v4 v5 m'
      | [v0; v1; v2; v3; v4; v5; v6] => m' <-- y4_4 data i v0 v1 v2 v3 m; y4_3 (data + 4) i v4 v5 v6 m'
      | [v0; v1; v2; v3; v4; v5; v6; v7] => m' <-- y4_4 data i v0 v1 v2 v3 m; y4_4 (data + 4) i v4 v5 v6 v7 m'
      | _ => None
      end.
    (** avx/detail.h:2244-2253 *)
    Definition dy4_2 (data : Z) (i : Z -> Z) (m : memory A) : option (list (list A)) :=
      r <-- row_loads 4 2 data i m;
      let x := row r in
      let ab02 := Ymm (x 0%nat) (x 2%nat) in
      let ab13 := Ymm (x 1%nat) (x 3%nat) in
      Some (map units [lo ab02 ab13; hi ab02 ab13]).
    (** The overloads; 3 .. 8 vectors: avx/detail.h:2254-2295 *)
    Definition deinterleave_y4 (k : nat) (data : Z) (i : Z -> Z) (m : memory A) : option (list (list A)) :=
      match k with
      | 2%nat => dy4_2 data i m
      | 3%nat => v2 <-- gather_v zero 4 m (data + 2) i; r <-- dy4_2 data i m; Some (r ++ [v2])
      | 4%nat => r <-- dy4_2 data i m; s <-- dy4_2 (data + 2) i m; Some (r ++ s)
      | 5%nat => v4 <-- gather_v zero 4 m (data + 4) i; r <-- dy4_2 data i m; s <-- dy4_2 (data + 2) i m; Some (r ++ s ++ [v4])
      | 6%nat => r <-- dy4_2 data i m; s <-- dy4_2 (data + 2) i m; t <-- dy4_2 (data + 4) i m; Some (r ++ s ++ t)
      | 7%nat => v6 <-- gather_v zero 4 m (data + 6) i; r <-- dy4_2 data i m; s <-- dy4_2 (data + 2) i m; t <-- dy4_2 (data + 4) i m;
                 Some (r ++ s ++ t ++ [v6])
      | 8%nat => r <-- dy4_2 data i m; s <-- dy4_2 (data + 2) i m; t <-- dy4_2 (data + 4) i m; u <-- dy4_2 (data + 6) i m;
                 Some (r ++ s ++ t ++ u)
      | _ => None
      end.
  End Four.

  (** InterleaveImpl<V, n, 32>: the AVX vectors with n = 16 (short, unsigned short), 8 (float, int, unsigned int) or
      4 (double) entries *)
  Definition avx_interleave_impl (va : variant) (n : nat) (kind : index_kind) (data : Z) (i : Z -> Z) (vs : list (list A)) (m : memory A)
      : option (memory A) :=
    match n with
    | 16%nat => interleave_y16 kind data i vs m
    | 8%nat => interleave_y8 va kind data i vs m
    | 4%nat => interleave_y4 va data i vs m
    | _ => None
    end.
  Definition avx_deinterleave_impl (n k : nat) (kind : index_kind) (data : Z) (i : Z -> Z) (m : memory A) : option (list (list A)) :=
    match n with
    | 16%nat => deinterleave_y16 k data i m
    | 8%nat => deinterleave_y8 kind k data i m
    | 4%nat => deinterleave_y4 k data i m
    | _ => None
    end.
  (** interleavedmemory.h:59-71, 100-115, 152-163 (wrapper_write and wrapper_read of Model/Interleave.v) for AVX
      vectors *)
  Definition avx_wrapper_write (va : variant) (n struct_size : nat) (data : Z) (s : subscript) (vs : list (list A)) (m : memory A)
      : option (memory A) :=
    if Nat.leb (length vs) struct_size then
      avx_interleave_impl va n (subscript_kind struct_size s) data (subscript_at struct_size s) vs m
    else None.
  Definition avx_wrapper_read (n struct_size k : nat) (data : Z) (s : subscript) (m : memory A) : option (list (list A)) :=
    avx_deinterleave_impl n k (subscript_kind struct_size s) data (subscript_at struct_size s) m.

  (** ** deinterleave(V *a, V *b, const M *memory), avx/deinterleave.tcc *)
  (** deinterleave.tcc:118-130 (float); Reg::permute128<H, L> is avx/shuffle.h:254-274 (yreg_permute128 of
      AvxShuffle.v, here with entries as units) *)
  Definition reg_permute128 (u : nat) (h l : nat) (x y : ymm A) : ymm A :=
    permute2f128 u zero x y ((if Nat.ltb l 8 then l else l - 8 + 2) + (if Nat.ltb h 8 then h else h - 8 + 2) * 16).
  Definition avx_deinterleave_float (a b : ymm A) : ymm A * ymm A :=
    let tmp0 := reg_permute128 2 Y0 X0 a b in
    let tmp1 := reg_permute128 2 Y1 X1 a b in
    let tmp2 := yunpacklo 2 1 tmp0 tmp1 in
    let tmp3 := yunpackhi 2 1 tmp0 tmp1 in
    (yunpacklo 2 1 tmp2 tmp3, yunpackhi 2 1 tmp2 tmp3).
  (** deinterleave.tcc:209-221 (int), 238-250 (unsigned int) *)
  Definition avx_deinterleave_int (a b : ymm A) : ymm A * ymm A :=
    let tmp0 := ymem_shuffle128 2 zero X0 Y0 a b in
    let tmp1 := ymem_shuffle128 2 zero X1 Y1 a b in
    let tmp2 := yunpacklo 2 1 tmp0 tmp1 in
    let tmp3 := yunpackhi 2 1 tmp0 tmp1 in
    (yunpacklo 2 1 tmp2 tmp3, yunpackhi 2 1 tmp2 tmp3).
  (** deinterleave.tcc:132-144 (short), 146-157 (unsigned short) *)
  Definition avx_deinterleave_short (a b : ymm A) : ymm A * ymm A :=
    let v0 := ymem_shuffle128 4 zero X0 Y0 a b in
    let v1 := ymem_shuffle128 4 zero X1 Y1 a b in
    let v2 := yunpacklo 4 1 v0 v1 in
    let v3 := yunpackhi 4 1 v0 v1 in
    let v0 := yunpacklo 4 1 v2 v3 in
    let v1 := yunpackhi 4 1 v2 v3 in
    (yunpacklo 4 1 v0 v1, yunpackhi 4 1 v0 v1).
  (** deinterleave.tcc:193-207 (double) *)
  Definition avx_deinterleave_double (a b : ymm A) : ymm A * ymm A :=
    let tmp0 := ymem_shuffle128 1 zero X0 Y0 a b in
    let tmp1 := ymem_shuffle128 1 zero X1 Y1 a b in
    (yunpacklo 1 1 tmp0 tmp1, yunpackhi 1 1 tmp0 tmp1).
  (** deinterleave.tcc:163-169, 193-198, 209-215, 238-244, 266-280: two loads of n entries, then the above;
      [fp] selects the float variant for n = 8 *)
  Definition avx_deinterleave_mem (fp : bool) (n : nat) (m : memory A) (mem : Z) : option (list A * list A) :=
    a <-- mem_load m mem n;
    b <-- mem_load m (mem + Z.of_nat n) n;
    match n with
    | 16%nat => let r := avx_deinterleave_short (yregister 4 a) (yregister 4 b) in Some (units (fst r), units (snd r))
    | 8%nat => let r := (if fp then avx_deinterleave_float else avx_deinterleave_int) (yregister 2 a) (yregister 2 b) in Some (units (fst r), units (snd r))
    | 4%nat => let r := avx_deinterleave_double (yregister 1 a) (yregister 1 b) in Some (units (fst r), units (snd r))
    | _ => None
    end.

  (** deinterleave.tcc:34-43: three double vectors *)
  Definition avx_deinterleave3_double (a b c : ymm A) : ymm A * ymm A * ymm A :=
    let tmp0 := ymem_shuffle128 1 zero X0 Y1 a b in
    let tmp1 := ymem_shuffle128 1 zero X1 Y0 a c in
    let tmp2 := ymem_shuffle128 1 zero X0 Y1 b c in
    (ymem_shuffle_pd 1 0 9 2 11 tmp0 tmp1, ymem_shuffle_pd 1 1 8 3 10 tmp0 tmp2, ymem_shuffle_pd 1 0 9 2 11 tmp1 tmp2).
  (** deinterleave.tcc:45-64 (float), 66-76 (int, unsigned int) *)
  Definition avx_deinterleave3_float (a b c : ymm A) : ymm A * ymm A * ymm A :=
    let ac0 := ymem_shuffle128 2 zero X0 Y0 a c in
    let ac1 := ymem_shuffle128 2 zero X1 Y1 a c in
    let tmp0 := blend_entries 0 9 2 3 12 5 6 15 ac0 b in
    let tmp0 := blend_entries 0 1 10 3 4 13 6 7 tmp0 ac1 in
    let tmp1 := blend_entries 0 1 10 3 4 13 6 7 ac0 b in
    let tmp1 := blend_entries 8 1 2 11 4 5 14 7 tmp1 ac1 in
    let tmp2 := blend_entries 8 1 2 11 4 5 14 7 ac0 b in
    let tmp2 := blend_entries 0 9 2 3 12 5 6 15 tmp2 ac1 in
    (ymem_permute_ps 2 0 3 2 1 tmp0, ymem_permute_ps 2 1 0 3 2 tmp1, ymem_permute_ps 2 2 1 0 3 tmp2).
  (** deinterleave.tcc:78-116: short and unsigned short: nothing is done *)
  Definition avx_deinterleave3_short (a b c : ymm A) : ymm A * ymm A * ymm A := (a, b, c).
  (** deinterleave.tcc:283-296 *)
  Definition avx_deinterleave3_mem (n : nat) (m : memory A) (mem : Z) : option (list A * list A * list A) :=
    a <-- mem_load m (mem + 0 * Z.of_nat n) n;
    b <-- mem_load m (mem + 1 * Z.of_nat n) n;
    c <-- mem_load m (mem + 2 * Z.of_nat n) n;
    let out (r : ymm A * ymm A * ymm A) := Some (units (fst (fst r)), units (snd (fst r)), units (snd r)) in
    match n with
    | 16%nat => out (avx_deinterleave3_short (yregister 4 a) (yregister 4 b) (yregister 4 c))
    | 8%nat => out (avx_deinterleave3_float (yregister 2 a) (yregister 2 b) (yregister 2 c))
    | 4%nat => out (avx_deinterleave3_double (yregister 1 a) (yregister 1 b) (yregister 1 c))
    | _ => None
    end.
End Interleave.

(** The converting variants, on registers of bytes; a load of 16 short entries *)
(** deinterleave.tcc:223-236 (int from short) and 252-264 (unsigned int from unsigned short): the same code *)
Definition avx_deinterleave_short_int (tmp : yreg) : yreg * yreg :=
  (Ymm (srai_epi 4 (slli_epi 4 (lo128 tmp) 16) 16) (srai_epi 4 (slli_epi 4 (hi128 tmp) 16) 16),
   Ymm (srai_epi 4 (lo128 tmp) 16) (srai_epi 4 (hi128 tmp) 16)).
Definition avx_deinterleave_ushort_uint (tmp : yreg) : yreg * yreg :=
  (Ymm (srai_epi 4 (slli_epi 4 (lo128 tmp) 16) 16) (srai_epi 4 (slli_epi 4 (hi128 tmp) 16) 16),
   Ymm (srai_epi 4 (lo128 tmp) 16) (srai_epi 4 (hi128 tmp) 16)).
(** deinterleave.tcc:171-181 *)
Definition avx_deinterleave_short_float (tmp : yreg) : yreg * yreg :=
  (ycvtepi32_ps (Ymm (srai_epi 4 (slli_epi 4 (lo128 tmp) 16) 16) (srai_epi 4 (slli_epi 4 (hi128 tmp) 16) 16)),
   ycvtepi32_ps (Ymm (srai_epi 4 (lo128 tmp) 16) (srai_epi 4 (hi128 tmp) 16))).
(** deinterleave.tcc:183-191 *)
Definition avx_deinterleave_ushort_float (tmp : yreg) : yreg * yreg :=
  (ycvtepi32_ps (Ymm (blend 8 2 (lo128 tmp) (setzero 8 0) 0xaa) (blend 8 2 (hi128 tmp) (setzero 8 0) 0xaa)),
   ycvtepi32_ps (Ymm (srli_epi 4 (lo128 tmp) 16) (srli_epi 4 (hi128 tmp) 16))).
Definition avx_deinterleave_conv (f : yreg -> yreg * yreg) (m : memory (word 2)) (mem : Z) : option (yreg * yreg) :=
  tmp <-- mem_load m mem 16;
  Some (f (ypack tmp)).
