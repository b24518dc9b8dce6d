(** Gathers and scatters through the subscript operator: data[indexes][&S::member][k][inner] (Vc/common/subscript.h).

    A type is described by Spec/SubscriptSpec.v.  Expressions that do not compile and undefined behaviour are [None]. *)
From Coq Require Import ZArith List Bool.
From Verif.Spec Require Import Seq SubscriptSpec.
From Verif.Model Require Import Word SseReg SseMove SortNet SseBuild SseInt SimdArray SimdArrayOps Mem GatherScatter AvxReg AvxMove AvxShuffle AvxBuild AvxGather.
Import ListNotations.
Local Open Scope Z_scope.

(** How gather and scatter see the index vector after convertIndexVector (common/detail.h:41-129: entries smaller than int become
    int; initializer lists become a std::vector) *)
Definition index_argument (st : storage) (entries : list Z) : index_arg :=
  match st with
  | InVector => IxOperand (OSeg entries 1 0)
  | InArray native => IxOperand (OTree (generate native (length entries) (znth 0 entries)))
  | InStdVector => IxPointer entries 0
  end.

(** arithmetic of the index type: vectors wrap around, signed overflow of single numbers is undefined *)
Definition wrap (k : index_kind) (z : Z) : Z :=
  match k with
  | IxInt => (z + 2 ^ 31) mod 2 ^ 32 - 2 ^ 31
  | IxUInt => z mod 2 ^ 32
  | IxLong => (z + 2 ^ 63) mod 2 ^ 64 - 2 ^ 63
  | IxULong => z mod 2 ^ 64
  end.
Definition number (k : index_kind) (z : Z) : option Z :=
  match k with
  | IxInt | IxLong => if z =? wrap k z then Some z else None
  | _ => Some (wrap k z)
  end.
Definition multiply (k : index_kind) (st : storage) (a b : Z) : option Z := if is_simd st then Some (wrap k (a * b)) else number k (a * b).
Definition plus (k : index_kind) (st : storage) (a b : Z) : option Z := if is_simd st then Some (wrap k (a + b)) else number k (a + b).

(** subscript.h:242-246 SubscriptOperation<T, IndexVector, Scale>: T, m_address, Scale = num / den (a std::ratio), m_indexes *)
Record operation := mkoperation { o_type : ctype; o_address : Z; num : Z; den : Z; entries : list Z }.
(** std::ratio_multiply: in lowest terms *)
Definition ratio (n d : Z) : Z * Z := let g := Z.gcd n d in (n / g, d / g).
Section Steps.
  Variables (k : index_kind) (st : storage).
  (** subscript.h:478-497 data[indexes] *)
  Definition subscript_operator (T : ctype) (data : Z) (indexes : list Z) : operation := mkoperation T data 1 1 indexes.
  (** subscript.h:330-355 [&S::member] *)
  Definition member (o : operation) (j : nat) : option operation :=
    match o_type o with
    | Class s ms =>
        match nth_error ms j with
        | Some (offset, u) =>
            let (n, d) := ratio (num o * s) (den o * sizeof u) in Some (mkoperation u (o_address o + offset) n d (entries o))
        | None => None
        end
    | _ => None
    end.
  (** subscript.h:385-419 [index] with one number *)
  Definition at_index (o : operation) (j : Z) : option operation :=
    match o_type o with
    | Array len u =>
        let (n, d) := ratio (num o * sizeof (o_type o)) (den o * sizeof u) in
        Some (mkoperation u (o_address o + j * sizeof u) n d (entries o))
    | _ => None
    end.
  (** subscript.h:145-192 applyScaleAndAdd: the quotient of the ratio is truncated *)
  Definition apply_scale_and_add (n d : Z) (x y : list Z) : option (list Z) :=
    let value := n / d in
    if (length x <=? length y)%nat
    then sequence (map (fun xy => if value =? 1 then plus k st (fst xy) (snd xy)
                                  else p <-- multiply k st (fst xy) value; plus k st p (snd xy)) (combine x y))
    else None.
  (** subscript.h:421-455 [index] with an index vector *)
  Definition at_each (o : operation) (js : list Z) : option operation :=
    match o_type o with
    | Array len u =>
        let (n, d) := ratio (num o * sizeof (o_type o)) (den o * sizeof u) in
        e <-- apply_scale_and_add n d (entries o) js;
        Some (mkoperation u (o_address o) 1 1 e)
    | _ => None
    end.
  Definition follow1 (o : operation) (s : step) : option operation :=
    match s with Member j => member o j | At j => at_index o j | AtEach js => at_each o js end.
  Fixpoint follow (o : operation) (p : list step) : option operation :=
    match p with [] => Some o | s :: r => o' <-- follow1 o s; follow o' r end.

  (** subscript.h:103-143 applyScale; the static_assert rejects other ratios *)
  Definition apply_scale (n d : Z) (x : list Z) : option (list Z) :=
    if n =? d then Some x else
    if n mod d =? 0 then sequence (map (fun e => multiply k st e (n / d)) x) else None.
  (** subscript.h:286-300 gatherArguments: the indexes and the template argument Scale of GatherArguments *)
  Definition gather_arguments (o : operation) : option (list Z * Z) :=
    match o_type o with
    | Number w =>
        if negb (num o mod den o =? 0) || (8 <? num o / den o * w)
        then e <-- apply_scale (num o) (den o) (entries o); Some (e, 1)
        else Some (entries o, num o / den o)
    | _ => None
    end.
  (** subscript.h:302-307 scatterArguments, 317-327 operator= *)
  Definition scatter_indexes (o : operation) : option (list Z) :=
    match o_type o with Number _ => apply_scale (num o) (den o) (entries o) | _ => None end.
  (** sse/vector.tcc:332, avx/vector.tcc:394, scalar/vector.tcc:87: [Scale * args.indexes\[i\]] for every entry of the vector; int
      times the type of the indexes *)
  Definition scaled_entries (scale : Z) (e : list Z) : option (list Z) := sequence (map (fun x => number k (scale * x)) e).
  (** sse/vector.tcc:356, avx/vector.tcc:439: [Scale * args.indexes] with a vector; there is no such product with a std::vector *)
  Definition scaled_vector (scale : Z) (e : list Z) : option (list Z) :=
    if is_simd st then Some (map (fun x => wrap k (scale * x)) e) else None.
End Steps.

(** The memory holds objects of the type of the vector's entries: [m a] is the one at address a.  p\[k\] for a pointer p to them
    is the one at p + w k. *)
Definition elements {A} (w base : Z) (m : memory A) : memory A := fun i => m (base + w * i).
Definition with_elements {A} (w base : Z) (m m' : memory A) : memory A :=
  fun a => if (a - base) mod w =? 0 then m' ((a - base) / w) else m a.

(** the native vectors of a build for entries of type e *)
Inductive target := SseTarget | AvxTarget (avx2 : bool).
Definition native_of (b : target) (e : etype) : nat -> bool :=
  match b with SseTarget => sse_native (esize e) | AvxTarget avx2 => avx_widths_of avx2 e end.
Section Target.
  Context {A : Type} (zero : A).
  Variables (b : target) (e : etype).
  Let w := Z.of_nat (esize e).
  (** V v = data[indexes]...: subscript.h:309-315 with gatherinterface.h:149-154 *)
  Definition subscript_gather (k : index_kind) (st : storage) (m : memory A) (T : ctype) (data : Z) (indexes : list Z) (p : list step) (t : sa A) :
      option (sa A) :=
    o <-- follow k st (subscript_operator T data indexes) p;
    a <-- gather_arguments k st o;
    x <-- scaled_entries k (snd a) (fst a);
    match b with
    | SseTarget => sse_gather (elements w (o_address o) m) 0 (index_argument st x) t
    | AvxTarget _ => avx_gather (elements w (o_address o) m) 0 (index_argument st x) t
    end.
  (** where(mask) | v = data[indexes]...: gatherinterface.h:212-218 *)
  Definition subscript_gather_mask (strategy : strategy) (hw : bool) (k : index_kind) (st : storage) (m : memory A) (T : ctype) (data : Z) (indexes : list Z)
      (p : list step) (mask : sa bool) (t : sa A) : option (sa A) :=
    o <-- follow k st (subscript_operator T data indexes) p;
    a <-- gather_arguments k st o;
    x <-- scaled_vector k st (snd a) (fst a);
    match b with
    | SseTarget => sse_gather_mask strategy hw (esize e) (elements w (o_address o) m) 0 (index_argument st x) mask t
    | AvxTarget _ => avx_gather_mask strategy hw (esize e) (elements w (o_address o) m) 0 (index_argument st x) mask t
    end.
  (** data[indexes]... = v: subscript.h:317-327 *)
  Definition subscript_scatter (k : index_kind) (st : storage) (t : sa A) (T : ctype) (data : Z) (indexes : list Z) (p : list step) (m : memory A) :
      option (memory A) :=
    o <-- follow k st (subscript_operator T data indexes) p;
    x <-- scatter_indexes k st o;
    m' <-- match b with
           | SseTarget => sse_scatter zero t 0 (index_argument st x) (elements w (o_address o) m)
           | AvxTarget _ => avx_scatter zero t 0 (index_argument st x) (elements w (o_address o) m)
           end;
    Some (with_elements w (o_address o) m m').
  (** where(mask) | data[indexes]... = v: scatterinterface.h:130-134 *)
  Definition subscript_scatter_mask (strategy : strategy) (hw : bool) (k : index_kind) (st : storage) (t : sa A) (mask : sa bool) (T : ctype) (data : Z)
      (indexes : list Z) (p : list step) (m : memory A) : option (memory A) :=
    o <-- follow k st (subscript_operator T data indexes) p;
    x <-- scatter_indexes k st o;
    m' <-- match b with
           | SseTarget => sse_scatter_mask zero strategy hw (esize e) t 0 (index_argument st x) mask (elements w (o_address o) m)
           | AvxTarget _ => avx_scatter_mask zero strategy hw (esize e) t 0 (index_argument st x) mask (elements w (o_address o) m)
           end;
    Some (with_elements w (o_address o) m m').
End Target.

(** int indexes of a native vector in a register: the vectors of 8 entries have 8 indexes in an AVX register, those of 4 entries have
    4 indexes in an SSE register *)
Definition index_register (e : etype) (x : list Z) : index_vec :=
  if (esize e =? 8)%nat then IxSse Int (pack (map (mkw 4) x)) else IxAvx Int (ypack (map (mkw 4) x)).
(** The same with the gather instructions of AVX2: avx/vector.h:203-224, whose operand is [a_scale * sizeof] and must be 1, 2, 4 or
    8 (an immediate).  Simplification: only indexes of type int. *)
Definition instruction_scale (e : etype) (scale : Z) : bool := existsb (Z.eqb (Z.of_nat (esize e) * scale)) [1; 2; 4; 8].
Definition avx2_subscript_gather (undef : list Z) (e : etype) (m : memory Z) (T : ctype) (data : Z) (indexes : list Z) (p : list step) : option yreg :=
  o <-- follow IxInt InVector (subscript_operator T data indexes) p;
  a <-- gather_arguments IxInt InVector o;
  if instruction_scale e (snd a) then y_gather undef e (snd a) m (o_address o) (index_register e (fst a)) else None.
Definition avx2_subscript_gather_mask (undef : list Z) (e : etype) (v k : yreg) (m : memory Z) (T : ctype) (data : Z) (indexes : list Z) (p : list step) :
    option yreg :=
  o <-- follow IxInt InVector (subscript_operator T data indexes) p;
  a <-- gather_arguments IxInt InVector o;
  if instruction_scale e (snd a) then y_gather_masked undef e (snd a) v k m (o_address o) (index_register e (fst a)) else None.
