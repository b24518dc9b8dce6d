(** The native sorted() functions: src/sse_sorthelper.cpp, src/avx_sorthelper.cpp and
    sse/vector.tcc:617-622.

    Registers are lists of vector entries (units, see SseReg.v): u = 4 for 16-bit, u = 2 for 32-bit,
    u = 1 for 64-bit entries.  [mn] / [mx] are the lane functions of the packed minimum / maximum
    instruction of the entry type, [zero] the zero entry shifted in by _mm_srli_si128.
    Every C++ statement is one [let*]: [bnd e b] is [b e], kept as a constant so that proofs can go
    statement by statement. *)
From Coq Require Import ZArith List Bool.
From Verif.Spec Require Import Seq.
From Verif.Model Require Import SseReg SseMove.
Import ListNotations.

Definition bnd {X Y : Type} (e : X) (b : X -> Y) : Y := b e.
Notation "'let*' y := e 'in' b" := (bnd e (fun y => b)) (at level 200, y name, b at level 200, right associativity).

Section Net.
  Context {A : Type} (zero : A) (mn mx : A -> A -> A).
  Local Notation vmin := (map2 mn).
  Local Notation vmax := (map2 mx).

  (** _MM_SHUFFLE(d3, d2, d1, d0) *)
  Definition mm_shuffle (d3 d2 d1 d0 : nat) : nat := d0 + d1 * 4 + d2 * 16 + d3 * 64.

  (** sse_sorthelper.cpp:36-72 (short), 75-111 (unsigned short) *)
  Definition sse_sorted16 (x : list A) : list A :=
    let* y := mem_permute8 4 1 0 3 2 5 4 7 6 x in
    let* lo := vmin x y in
    let* hi := vmax x y in
    let* x := blend 4 1 lo hi 170 in
    let* y := mem_permute8 4 3 2 1 0 7 6 5 4 x in
    let* lo := vmin x y in
    let* hi := vmax x y in
    let* x := blend 4 1 lo hi 204 in
    let* y := srli_si128 4 zero x 2 in
    let* lo := vmin x y in
    let* hi := vmax x y in
    let* x := blend 4 1 lo (slli_si128 4 zero hi 2) 170 in
    let* y := shuffle_epi32 4 x (mm_shuffle 1 0 3 2) in
    let* y := shufflelo_epi16 4 y (mm_shuffle 0 1 2 3) in
    let* lo := vmin x y in
    let* hi := vmax x y in
    let* x := unpacklo 4 1 lo hi in
    let* y := srli_si128 4 zero x 8 in
    let* lo := vmin x y in
    let* hi := vmax x y in
    let* x := unpacklo 4 1 lo hi in
    let* y := srli_si128 4 zero x 8 in
    let* lo := vmin x y in
    let* hi := vmax x y in
    unpacklo 4 1 lo hi.

  (** sse_sorthelper.cpp:113-146 (int), 148-166 (unsigned int), 168-197 (float: _mm_shuffle_ps and
      _mm_movehl_ps move the same entries as _mm_shuffle_epi32 and _mm_unpackhi_epi64, see
      [sse_sorted_ps]) *)
  Definition sse_sorted32 (x : list A) : list A :=
    let* y := shuffle_epi32 2 x (mm_shuffle 2 3 0 1) in
    let* l := vmin x y in
    let* h := vmax x y in
    let* x := unpacklo 2 1 l h in
    let* y := unpackhi 2 1 h l in
    let* l := vmin x y in
    let* h := vmax x y in
    let* x := unpacklo 2 1 l h in
    let* y := unpackhi 2 2 x x in
    let* l := vmin x y in
    let* h := vmax x y in
    unpacklo 2 1 l h.

  (** sse_sorthelper.cpp:168-185 (float) *)
  Definition sse_sorted_ps (x : list A) : list A :=
    let* y := shuffle_ps 2 x x (mm_shuffle 2 3 0 1) in
    let* l := vmin x y in
    let* h := vmax x y in
    let* x := unpacklo 2 1 l h in
    let* y := unpackhi 2 1 h l in
    let* l := vmin x y in
    let* h := vmax x y in
    let* x := unpacklo 2 1 l h in
    let* y := movehl_ps 2 x x in
    let* l := vmin x y in
    let* h := vmax x y in
    unpacklo 2 1 l h.

  (** _mm_min_sd / _mm_max_sd: the operation on the low entry, the high entry of the first operand *)
  Definition low_sd (f : A -> A -> A) (x y : list A) : list A := firstn 1 (map2 f x y) ++ skipn 1 x.
  (** sse/vector.tcc:617-622 (double); _MM_SHUFFLE2(0, 1) = 1 *)
  Definition sse_sorted_pd (x : list A) : list A :=
    let* y := shuffle_pd 1 x x 1 in
    unpacklo 1 1 (low_sd mn x y) (low_sd mx x y).

  (** the blends of avx_sorthelper.cpp:86, 100, 126: Mem::blend<X0, Y1, X2, Y3, X4, Y5, X6, Y7>,
      Mem::blend<X0, X1, Y2, Y3, X4, X5, Y6, Y7>, Mem::blend<X0, Y1, X2, Y3> *)
  Definition bl : list A -> list A -> list A := mem_blend8 4 0 9 2 11 4 13 6 15.
  Definition bl2 : list A -> list A -> list A := mem_blend8 4 0 1 10 11 4 5 14 15.
  Definition bl4 : list A -> list A -> list A := mem_blend4 4 0 9 2 11.
  (** avx_sorthelper.cpp:38-142 (short), 145-218 (unsigned short): 16 entries; lo128, hi128 and
      concat are firstn 8, skipn 8 and ++. *)
  Definition avx_sorted16 (x_ : list A) : list A :=
    let* x := firstn 8 x_ in
    let* y := skipn 8 x_ in
    let* l := vmin x y in
    let* h := vmax x y in
    let* x := unpacklo 4 1 l h in
    let* y := unpackhi 4 1 h l in
    let* l := vmin x y in
    let* h := vmax x y in
    let* x := mem_permuteLo 4 1 0 3 2 (bl l h) in
    let* y := mem_permuteHi 4 5 4 7 6 (bl h l) in
    let* l := vmin x y in
    let* h := vmax x y in
    let* x := unpacklo 4 1 h l in
    let* y := unpackhi 4 1 l h in
    let* l := vmin x y in
    let* h := vmax x y in
    let* x := mem_permuteLo 4 2 3 0 1 (bl2 h l) in
    let* y := mem_permuteHi 4 6 7 4 5 (bl2 l h) in
    let* l := vmin x y in
    let* h := vmax x y in
    let* x := mem_permuteHi 4 5 4 7 6 (bl l h) in
    let* y := mem_permuteLo 4 1 0 3 2 (bl h l) in
    let* l := vmin x y in
    let* h := vmax x y in
    let* x := unpacklo 4 1 l h in
    let* y := unpackhi 4 1 h l in
    let* l := vmin x y in
    let* h := vmax x y in
    let* x := unpacklo 4 4 l h in
    let* y := unpackhi 4 4 l h in
    let* l := vmin x y in
    let* h := vmax x y in
    let* x := mem_permute_ps 4 1 0 3 2 (bl4 h l) in
    let* y := bl4 l h in
    let* l := vmin x y in
    let* h := vmax x y in
    let* x := bl l h in
    let* y := mem_permuteLo 4 1 0 3 2 (mem_permuteHi 4 5 4 7 6 (bl h l)) in
    let* l := vmin x y in
    let* h := vmax x y in
    let* x := unpacklo 4 1 l h in
    let* y := unpackhi 4 1 l h in
    x ++ y.

  (** avx_sorthelper.cpp:226-239 (int), 272-285 (uint), 317-330 (float): the first phase leaves a
      ascending in memory order and b descending; x, y are used by the early exits below.
      Reg::permute<D3, D2, D1, D0> and Reg::shuffle name the entries from high to low. *)
  Definition avx_sorted32_phase1 (x_ : list A) : list A * list A :=
    let* hgfe := skipn 4 x_ in
    let* dcba := firstn 4 x_ in
    let* l := vmin hgfe dcba in
    let* h := vmax hgfe dcba in
    let* x := unpacklo 2 1 l h in
    let* y := unpackhi 2 1 l h in
    let* l := vmin x y in
    let* h := vmax x y in
    let* x := vmin l (mem_permute_epi32 2 0 0 2 2 h) in
    let* y := vmax h (mem_permute_epi32 2 1 1 3 3 l) in
    (x, y).
  Definition avx_sorted32_b (x y : list A) : list A := mem_shuffle4 2 1 0 9 8 y x.
  Definition avx_sorted32_a (x y : list A) : list A := unpackhi 2 2 x y.
  (** avx_sorthelper.cpp:249-262, 294-307, 333-346 *)
  Definition avx_sorted32_merge (a b : list A) : list A :=
    let* l := vmin a b in
    let* h := vmax a b in
    let* a := unpacklo 2 1 l h in
    let* b := unpackhi 2 1 l h in
    let* l := vmin a b in
    let* h := vmax a b in
    let* a := unpacklo 2 1 l h in
    let* b := unpackhi 2 1 l h in
    let* l := vmin a b in
    let* h := vmax a b in
    unpacklo 2 1 l h ++ unpackhi 2 1 l h.

  (** avx_sorthelper.cpp:220-263 (int), 266-308 (uint); [ge] is the scalar >= of the entry type *)
  Definition avx_sorted32 (ge : A -> A -> bool) (x_ : list A) : list A :=
    let (x, y) := avx_sorted32_phase1 x_ in
    let* b := avx_sorted32_b x y in
    let* a := avx_sorted32_a x y in
    if ge (nth 2 x zero) (nth 1 y zero) then mem_permute_epi32 2 3 2 1 0 b ++ a
    else if ge (nth 0 x zero) (nth 3 y zero) then a ++ mem_permute_epi32 2 3 2 1 0 b
    else avx_sorted32_merge a b.
  (** avx_sorthelper.cpp:311-347 (float) *)
  Definition avx_sorted_ps (x_ : list A) : list A :=
    let (x, y) := avx_sorted32_phase1 x_ in
    avx_sorted32_merge (avx_sorted32_a x y) (avx_sorted32_b x y).

  (** avx_sorthelper.cpp:386-426 (double); Reg::permute<D1, D0>(__m128d), avx/shuffle.h:285-289 *)
  Definition avx_sorted_pd (x_ : list A) : list A :=
    let* l := vmin (firstn 2 x_) (skipn 2 x_) in
    let* h := vmax (firstn 2 x_) (skipn 2 x_) in
    let* h0_l0 := unpacklo 1 1 l h in
    let* h1_l1 := unpackhi 1 1 l h in
    let* l := vmin h0_l0 h1_l1 in
    let* h := vmax h0_l0 h1_l1 in
    vmin l (shuffle_pd 1 h h 0) ++ vmax h (shuffle_pd 1 l l 3).
End Net.
