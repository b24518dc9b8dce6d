(** simd_for_each (Vc/common/algorithms.h), apply / call / callWithValuesSorted
    (Vc/sse/vector.h:364-409, Vc/avx/vector.h:437-480, Vc/scalar/vector.h:255-282,
    Vc/common/simdarray.h:430-437, 1112-1123).
    A function object is a function on its own state: [f s x] is the new state and the (possibly changed)
    argument resp. the returned value. *)
From Coq Require Import ZArith List Bool.
From Verif.Spec Require Import Seq.
From Verif.Model Require Import SimdArray SimdArrayOps Mem Word BitScan SseMask Fp SseBuild.
Import ListNotations.
Local Open Scope Z_scope.

Section ForEach.
  (** [width] is V::Size; memory cells hold one value_type each; [mutable] tells which of the two overloads is
      chosen.  Simplifications: load_interleaved / store_interleaved of k consecutive values is a load / store
      of k cells; iterators are addresses. *)
  Context {A S : Type} (width : nat) (mutable : bool) (f : S -> list A -> S * list A).

  (** algorithms.h:77-79, 82-84, 100-103, 106-109: one call for the [k] values at [first] *)
  Definition one_call (k : nat) (first : Z) (sm : S * memory A) : option (S * memory A) :=
    let (s, m) := sm in
    tmp <-- mem_load m first k;
    let (s', out) := f s tmp in
    if mutable then m' <-- mem_store m first out; Some (s', m') else Some (s', m).

  (** algorithms.h:76-80, 99-104 *)
  Fixpoint vector_loop (fuel : nat) (first lastV : Z) (sm : S * memory A) : option (Z * (S * memory A)) :=
    if first <? lastV then
      match fuel with
      | O => None
      | Datatypes.S fuel' => sm' <-- one_call width first sm; vector_loop fuel' (first + Z.of_nat width) lastV sm'
      end
    else Some (first, sm).
  (** algorithms.h:81-85, 105-110 *)
  Fixpoint scalar_loop (fuel : nat) (first last : Z) (sm : S * memory A) : option (S * memory A) :=
    if first =? last then Some sm
    else match fuel with
         | O => None
         | Datatypes.S fuel' => sm' <-- one_call 1 first sm; scalar_loop fuel' (first + 1) last sm'
         end.
  (** algorithms.h:66-112.  [fuel] bounds the number of calls (non-termination is [None]). *)
  Definition simd_for_each (fuel : nat) (first last : Z) (s : S) (m : memory A) : option (S * memory A) :=
    let lastV := last - Z.of_nat width + 1 in
    r <-- vector_loop fuel first lastV (s, m);
    scalar_loop fuel (fst r) last (snd r).

  (** The same for iterators that are pointers into an array occupying [lo, hi): C++ defines [p + d] only if it
      stays within [lo, hi].  algorithms.h:75, 98: lastV = last - V::Size + 1, evaluated from left to right *)
  Definition ptr_add (lo hi p d : Z) : option Z := if (lo <=? p + d) && (p + d <=? hi) then Some (p + d) else None.
  Definition simd_for_each_ptr (lo hi : Z) (fuel : nat) (first last : Z) (s : S) (m : memory A) : option (S * memory A) :=
    p <-- ptr_add lo hi last (- Z.of_nat width);
    lastV <-- ptr_add lo hi p 1;
    r <-- vector_loop fuel first lastV (s, m);
    scalar_loop fuel (fst r) last (snd r).

  (** algorithms.h:126-130, 149-154: len and first are updated together *)
  Fixpoint vector_loop_n (fuel : nat) (len first : Z) (sm : S * memory A) : option (Z * Z * (S * memory A)) :=
    if Z.of_nat width <=? len then
      match fuel with
      | O => None
      | Datatypes.S fuel' =>
          sm' <-- one_call width first sm; vector_loop_n fuel' (len - Z.of_nat width) (first + Z.of_nat width) sm'
      end
    else Some (len, first, sm).
  (** algorithms.h:131-135, 155-160 *)
  Fixpoint scalar_loop_n (fuel : nat) (len first : Z) (sm : S * memory A) : option (S * memory A) :=
    if len =? 0 then Some sm
    else match fuel with
         | O => None
         | Datatypes.S fuel' => sm' <-- one_call 1 first sm; scalar_loop_n fuel' (len - 1) (first + 1) sm'
         end.
  (** algorithms.h:116-162; len = count as a signed 64-bit number *)
  Definition simd_for_each_n (fuel : nat) (first count : Z) (s : S) (m : memory A) : option (S * memory A) :=
    let len := if count <? 2 ^ 63 then count else count - 2 ^ 64 in
    r <-- vector_loop_n fuel len first (s, m);
    scalar_loop_n fuel (fst (fst r)) (snd (fst r)) (snd r).
End ForEach.

(** * callWithValuesSorted, call, apply *)
(** operator!= of the entry type (used in sse/vector.h:369) *)
Definition entry_ne (e : etype) (a b : elt e) : bool :=
  match e with Float | Double => negb (feq a b) | _ => negb (uval a =? uval b) end.
Section Apply.
  Context {A S : Type} (zero : A).

  (** sse/vector.h:364-374: the values f is called with; [neq] is operator!= of EntryType.
      Vector<T, Scalar> (scalar/vector.h:255) is the case of one entry. *)
  Fixpoint values_loop (neq : A -> A -> bool) (value : A) (rest : list A) : list A :=
    match rest with
    | [] => []
    | x :: rest' => if neq x value then x :: values_loop neq x rest' else values_loop neq value rest'
    end.
  Definition call_with_values_sorted (neq : A -> A -> bool) (xs : list A) : list A :=
    match xs with
    | [] => []
    | x :: rest => x :: values_loop neq x rest
    end.

  (** sse/vector.h:404-409, scalar/vector.h:277-282, types.h:367-391: fill(f) with the index resp. without
      an argument: d.set(i, f(i)) for i = 0 .. Size-1; [g] is the stateful function *)
  Definition v_fill (g : S -> Z -> S * A) (xs : list A) (s : S) : S * list A :=
    fold_left (fun sr i => let (s', y) := g (fst sr) i in (s', list_set (snd sr) (Z.to_nat i) y)) (tab (length xs) (fun i => i)) (s, xs).

  (** sse/vector.h:376-379: call(f); the values f is called with *)
  Definition v_call (xs : list A) : list A := tab (length xs) (fun i => znth zero xs i).
  (** sse/vector.h:381-386: call(f, mask) *)
  Definition v_call_mask (xs : list A) (mask_int : Z) : option (list A) :=
    option_map (map (znth zero xs)) (where_indices mask_int).

  Variable f : S -> A -> S * A.
  (** sse/vector.h:388-394: apply(f): r.set(i, f(d.m(i))); [junk] is the uninitialised r *)
  Definition apply_step (xs : list A) (sr : S * list A) (i : Z) : S * list A :=
    let (s', y) := f (fst sr) (znth zero xs i) in (s', list_set (snd sr) (Z.to_nat i) y).
  Definition v_apply (xs junk : list A) (s : S) : S * list A :=
    fold_left (apply_step xs) (tab (length xs) (fun i => i)) (s, junk).
  (** sse/vector.h:395-402: apply(f, mask): r = *this; r.set(i, f(r.m(i))) *)
  Definition apply_mask_step (sr : S * list A) (i : Z) : S * list A :=
    let (s', y) := f (fst sr) (znth zero (snd sr) i) in (s', list_set (snd sr) (Z.to_nat i) y).
  Definition v_apply_mask (xs : list A) (mask_int : Z) (s : S) : option (S * list A) :=
    option_map (fun is => fold_left apply_mask_step is (s, xs)) (where_indices mask_int).

  (** The native vectors of an SSE build: one entry (scalar/vector.h:266-275) or 16 / w entries *)
  Definition native_apply (xs : list A) (s : S) : S * list A :=
    match xs with
    | [x] => let (s', y) := f s x in (s', [y])
    | _ => v_apply xs xs s
    end.
  Definition native_apply_mask (w : nat) (xs : list A) (ks : list bool) (s : S) : option (S * list A) :=
    match xs, ks with
    | [x], [b] => if b then let (s', y) := f s x in Some (s', [y]) else Some (s, [x])
    | _, _ => v_apply_mask xs (m_to_int w (mask_reg w ks)) s
    end.

  (** simdarray.h:430-433, 1114-1117 *)
  Fixpoint apply (t : sa A) (s : S) : S * sa A :=
    match t with
    | Leaf xs => let (s', ys) := native_apply xs s in (s', Leaf ys)
    | Node d0 d1 =>
        let (s0, r0) := apply d0 s in
        let (s1, r1) := apply d1 s0 in
        (s1, Node r0 r1)
    end.
  (** simdarray.h:434-437, 1119-1123 *)
  Fixpoint apply_mask (w : nat) (t : sa A) (k : sa bool) (s : S) : option (S * sa A) :=
    match t, k with
    | Leaf xs, Leaf ks => option_map (fun r => (fst r, Leaf (snd r))) (native_apply_mask w xs ks s)
    | Node d0 d1, Node k0 k1 =>
        r0 <-- apply_mask w d0 k0 s;
        r1 <-- apply_mask w d1 k1 (fst r0);
        Some (fst r1, Node (snd r0) (snd r1))
    | _, _ => None
    end.
End Apply.
