(** Operators and reductions of Vc::SSE::Vector<T> on registers (sse/vector.tcc, sse/vectorhelper.h,
    sse/detail.h).  Lanes of float and double are bit patterns; the IEEE operations add and mul are
    parameters where they occur. *)
From Coq Require Import ZArith List Bool.
From Verif.Spec Require Import Seq.
From Verif.Model Require Import Word Fp SseReg SseMove SortNet SseInt SseBuild.
Import ListNotations.
Local Open Scope Z_scope.

(** _mm_mul_epu32: products of the even 32-bit lanes *)
Definition mm_mul_epu32 : reg -> reg -> reg :=
  lift2 8 (fun a b => mkw 8 ((uval a mod 2 ^ 32) * (uval b mod 2 ^ 32))).
(** _mm_sign_epi16/32 *)
Definition mm_sign_epi (w : nat) : reg -> reg -> reg :=
  lift2 w (fun a b => if sval b <? 0 then mkw w (- sval a) else if sval b =? 0 then w0 w else a).
(** cmpltps and the other float comparisons *)
Definition fcmp (w : nat) (rel : word w -> word w -> bool) : reg -> reg -> reg :=
  lift2 w (fun a b => wmask w (rel a b)).
(** minps, maxps, minpd, maxpd *)
Definition mm_min_fp (w : nat) : reg -> reg -> reg := lift2 w mm_fmin.
Definition mm_max_fp (w : nat) : reg -> reg -> reg := lift2 w mm_fmax.

(** sse/detail.h:519-522 not_; sse/mask.h:146-154 operator! *)
Definition v_not (a : reg) : reg := mm_andnot a setallone.

(** sse/vector.tcc:42-106, one definition per operator *)
Definition v_eq (e : etype) (a b : reg) : reg :=
  if is_integer e then cmpeq_epi (esize e) a b else fcmp (esize e) feq a b.
Definition v_ne (e : etype) (a b : reg) : reg :=
  if is_integer e then v_not (cmpeq_epi (esize e) a b) else fcmp (esize e) (fun x y => negb (feq x y)) a b.
Definition v_gt (e : etype) (a b : reg) : reg :=
  match e with
  | Short | Int => cmpgt_epi (esize e) a b
  | UShort | UInt => cmpgt_epu (esize e) a b
  | Float | Double => fcmp (esize e) (fun x y => flt y x) a b
  end.
Definition v_lt (e : etype) (a b : reg) : reg :=
  match e with
  | Short | Int => cmplt_epi (esize e) a b
  | UShort | UInt => cmplt_epu (esize e) a b
  | Float | Double => fcmp (esize e) flt a b
  end.
(** float, double: _mm_cmpnlt_ps *)
Definition v_ge (e : etype) (a b : reg) : reg :=
  if is_integer e then v_not (v_lt e a b) else fcmp (esize e) (fun x y => negb (flt x y)) a b.
Definition v_le (e : etype) (a b : reg) : reg :=
  if is_integer e then v_not (v_gt e a b) else fcmp (esize e) fle a b.

(** sse/detail.h:476-499 negate *)
Definition v_neg (ssse3 : bool) (e : etype) (a : reg) : reg :=
  match e with
  | Float | Double => mm_xor a (set1 (esize e) (sign_weight (esize e)))
  | _ => if ssse3 then mm_sign_epi (esize e) a setallone else sub_epi (esize e) mm_setzero a
  end.

(** sse/detail.h:549-560 and sse/vectorhelper.h:341-357: int and uint multiplication *)
Definition mul_int (sse41 : bool) (a b : reg) : reg :=
  if sse41 then mullo_epi 4 a b
  else
    let aShift := mm_srli a 4 in
    let ab02 := mm_mul_epu32 a b in
    let bShift := mm_srli b 4 in
    let ab13 := mm_mul_epu32 aShift bShift in
    unpacklo 8 4 (shuffle_epi32 8 ab02 8) (shuffle_epi32 8 ab13 8).
(** + - * of the integer types: sse/detail.h:524-562 *)
Definition v_add (e : etype) (a b : reg) : reg := add_epi (esize e) a b.
Definition v_sub (e : etype) (a b : reg) : reg := sub_epi (esize e) a b.
Definition v_mul (sse41 : bool) (e : etype) (a b : reg) : reg :=
  match e with Int | UInt => mul_int sse41 a b | _ => mullo_epi 2 a b end.

(** min / max: sse/vector.h:431-442, sse/vectorhelper.h *)
Definition v_min (sse41 : bool) (e : etype) (a b : reg) : reg :=
  match e with
  | Short => mm_min_epi 2 a b
  | UShort => min_epu sse41 2 a b
  | Int => min_epi sse41 4 a b
  | UInt => min_epu sse41 4 a b
  | Float => mm_min_fp 4 a b
  | Double => mm_min_fp 8 a b
  end.
Definition v_max (sse41 : bool) (e : etype) (a b : reg) : reg :=
  match e with
  | Short => mm_max_epi 2 a b
  | UShort => max_epu sse41 2 a b
  | Int => max_epi sse41 4 a b
  | UInt => max_epu sse41 4 a b
  | Float => mm_max_fp 4 a b
  | Double => mm_max_fp 8 a b
  end.

(** shifts by a scalar: sse/vectorhelper.h shiftLeft / shiftRight (0 <= k < bits) *)
Definition v_shl (e : etype) (a : reg) (k : Z) : reg := slli_epi (esize e) a k.
Definition v_shr (e : etype) (a : reg) (k : Z) : reg :=
  match e with Short | Int => srai_epi (esize e) a k | _ => srli_epi (esize e) a k end.

(** _mm_cvtsi128_si32 and the implicit conversion to the entry type; _mm_cvtss_f32, _mm_cvtsd_f64 *)
Definition first_lane (e : etype) (a : reg) : elt e := nth 0 (lanes (esize e) a) (w0 _).

(** Horizontal reductions of the integer types with the binary operation [op]:
    sse/vectorhelper.h:325-341 (int), 379-402 (uint), 478-506 (short), 574-600 (ushort).
    _MM_SHUFFLE(1, 0, 3, 2) = 78, _MM_SHUFFLE(1, 1, 1, 1) = 85 *)
Definition h_reduce (e : etype) (op : reg -> reg -> reg) (a : reg) : elt e :=
  let a := op a (shuffle_epi32 8 a (mm_shuffle 1 0 3 2)) in
  let a := op a (shufflelo_epi16 8 a (mm_shuffle 1 0 3 2)) in
  let a := match e with
           | Short | UShort => op a (shufflelo_epi16 8 a (mm_shuffle 1 1 1 1))
           | _ => a
           end in
  first_lane e a.

(** min(), max(), sum() *)
Definition v_hmin (sse41 : bool) (e : etype) : reg -> elt e := h_reduce e (v_min sse41 e).
Definition v_hmax (sse41 : bool) (e : etype) : reg -> elt e := h_reduce e (v_max sse41 e).
Definition v_sum (e : etype) : reg -> elt e := h_reduce e (v_add e).
(** product(): sse/vector.tcc:415-424 multiplies the scalars without SSE4.1 *)
Definition v_product (sse41 : bool) (e : etype) (a : reg) : elt e :=
  match e with
  | Int | UInt =>
      if sse41 then h_reduce e (v_mul sse41 e) a
      else let m i := nth i (lanes (esize e) a) (w0 _) in
           wmul (wmul (m 0%nat) (m 1%nat)) (wmul (m 2%nat) (m 3%nat))
  | _ => h_reduce e (v_mul sse41 e) a
  end.

(** Horizontal reductions of float and double with the lane operation [op]:
    sse/vectorhelper.h:164-183 (double), 252-275 (float) *)
Definition mm_op_ss (w : nat) (op : word w -> word w -> word w) (a b : reg) : reg :=
  pack (low_sd op (lanes w a) (lanes w b)).
Definition h_reduce_ps (op : word 4 -> word 4 -> word 4) (a : reg) : word 4 :=
  let a := lift2 4 op a (movehl_ps 8 a a) in
  let a := mm_op_ss 4 op a (shuffle_ps 8 a a (mm_shuffle 1 1 1 1)) in
  first_lane Float a.
Definition h_reduce_pd (op : word 8 -> word 8 -> word 8) (a : reg) : word 8 :=
  let a := mm_op_ss 8 op a (unpackhi 8 8 a a) in first_lane Double a.
(** sum and product of float and double: sse/vectorhelper.h:184-191, 276-285.
    _MM_SHUFFLE2(0, 1) = 1 *)
Definition h_add_ps (op : word 4 -> word 4 -> word 4) (a : reg) : word 4 :=
  let a := lift2 4 op a (shuffle_ps 8 a a (mm_shuffle 0 1 2 3)) in
  let a := mm_op_ss 4 op a (shuffle_ps 8 a a (mm_shuffle 3 2 0 1)) in
  first_lane Float a.
Definition h_add_pd (op : word 8 -> word 8 -> word 8) (a : reg) : word 8 :=
  let a := mm_op_ss 8 op a (shuffle_pd 8 a a 1) in first_lane Double a.

(** sse/vector.h:322-325 assign (blend: sse/vectorhelper.h:40-110 -> blendv) *)
Definition v_assign (sse41 : bool) (a v k : reg) : reg := blendv_epi8 sse41 a v k.
(** sse/vector.tcc:229-237 *)
Definition v_set_zero (a k : reg) : reg := mm_andnot k a.
Definition v_set_zero_inverted (a k : reg) : reg := mm_and k a.

(** std::numeric_limits<Vector<T>>::max() / min(): sse/limits.h:38-84; float and double: Vc/limits:38-52
    (FLT_MAX and FLT_MIN, the smallest positive normal number) *)
Definition v_limit_max (e : etype) : reg :=
  match e with
  | Short | Int => srli_epi (esize e) setallone 1
  | UShort | UInt => setallone
  | Float | Double => set1 (esize e) (inf_magnitude (esize e) - 1)
  end.
Definition v_limit_min (e : etype) : reg :=
  match e with
  | Short | Int => setmin_epi (esize e)
  | UShort | UInt => mm_setzero
  | Float | Double => set1 (esize e) (2 ^ mant_bits (esize e))
  end.
(** min() / max() of any type *)
Definition v_min_all (sse41 : bool) (e : etype) : reg -> elt e :=
  match e with
  | Float => h_reduce_ps mm_fmin
  | Double => h_reduce_pd mm_fmin
  | e => v_hmin sse41 e
  end.
Definition v_max_all (sse41 : bool) (e : etype) : reg -> elt e :=
  match e with
  | Float => h_reduce_ps mm_fmax
  | Double => h_reduce_pd mm_fmax
  | e => v_hmax sse41 e
  end.
(** sse/vector.tcc:426-449 min(mask), max(mask), product(mask), sum(mask) (the last two for integers) *)
Definition v_min_masked sse41 e (a k : reg) : elt e := v_min_all sse41 e (v_assign sse41 (v_limit_max e) a k).
Definition v_max_masked sse41 e (a k : reg) : elt e := v_max_all sse41 e (v_assign sse41 (v_limit_min e) a k).
Definition v_product_masked sse41 e (a k : reg) : elt e := v_product sse41 e (v_assign sse41 (set1 (esize e) 1) a k).
Definition v_sum_masked sse41 e (a k : reg) : elt e := v_sum e (v_assign sse41 mm_setzero a k).

(** sse/vector.h:253-257 ++ and -- *)
Definition v_increment (e : etype) (a : reg) : reg := v_add e a (set1 (esize e) 1).
Definition v_decrement (e : etype) (a : reg) : reg := v_sub e a (set1 (esize e) 1).
