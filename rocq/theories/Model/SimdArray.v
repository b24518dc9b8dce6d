(** Model of class SimdArray (Vc/common/simdarray.h).

    A SimdArray<T, N> is either "atomic" (simdarray.h:115-512: one native vector with N entries)
    or has two members data0, data1 of type SimdArray<T, left_size<N>> and
    SimdArray<T, right_size<N>> (simdarray.h:616-1474).  Simplifications: the element type is an
    arbitrary Coq type; template parameter checks, noexcept, alignment and the MSVC/ICC code paths
    are left out. *)
From Coq Require Import ZArith List Bool.
From Verif.Model Require Import SplitSize.
From Verif.Spec Require Import Seq.
Import ListNotations.
Local Open Scope Z_scope.

Inductive sa (A : Type) : Type :=
| Leaf (xs : list A)
| Node (data0 data1 : sa A).
Arguments Leaf {A} xs.
Arguments Node {A} data0 data1.

Fixpoint to_list {A} (t : sa A) : list A :=
  match t with
  | Leaf xs => xs
  | Node l r => to_list l ++ to_list r
  end.

(** SimdArray::size() *)
Fixpoint size {A} (t : sa A) : nat :=
  match t with
  | Leaf xs => length xs
  | Node l r => (size l + size r)%nat
  end.
Definition isize {A} (t : sa A) : Z := Z.of_nat (size t).

(** simdarray.h:60-81 select_best_vector_type: SimdArray<T, N> is atomic iff the widest native
    vector with at most N entries has exactly N entries, i.e. iff N is a native width.  The set of
    native widths of the build is the parameter [native]. *)
Inductive wf (native : nat -> bool) {A} : nat -> sa A -> Prop :=
| wf_leaf n xs : native n = true -> length xs = n -> wf native n (Leaf xs)
| wf_node n l r :
    native n = false -> wf native (left_size n) l -> wf native (right_size n) r ->
    wf native n (Node l r).

(** Operations of the native vector types an atomic SimdArray forwards to. *)
Record native_ops (A : Type) := {
  n_shifted : list A -> Z -> list A;               (* Vector::shifted(int) *)
  n_shifted_in : list A -> Z -> list A -> list A;  (* Vector::shifted(int, Vector) *)
  n_rotated : list A -> Z -> list A;
  n_reversed : list A -> list A;
  n_interleave_low : list A -> list A -> list A;
  n_interleave_high : list A -> list A -> list A;
  n_sorted : list A -> list A;
  n_partial_sum : list A -> list A
}.
Arguments n_shifted {A}. Arguments n_shifted_in {A}. Arguments n_rotated {A}.
Arguments n_reversed {A}. Arguments n_interleave_low {A}. Arguments n_interleave_high {A}.
Arguments n_sorted {A}. Arguments n_partial_sum {A}.

Definition obind {A B} (x : option A) (f : A -> option B) : option B :=
  match x with Some a => f a | None => None end.
Notation "x <-- e ; f" := (obind e (fun x => f)) (at level 60, e at next level, right associativity).

Section Ops.
  Context {A : Type} (native : nat -> bool) (ops : native_ops A) (zero : A).

  (** Construction of a SimdArray<T, n> with element i equal to [f (off + i)].
      simdarray.h:716-741, 817-832: the generator constructor and generate() split as
      [data0(gen), data1([&](i) { return gen(i + N0); })]. *)
  Fixpoint generate_at (fuel n : nat) (f : Z -> A) (off : Z) : sa A :=
    match fuel with
    | O => Leaf []
    | S fuel' =>
        if native n then Leaf (tab n (fun i => f (off + i)))
        else Node (generate_at fuel' (left_size n) f off)
                  (generate_at fuel' (right_size n) f (off + Z.of_nat (left_size n)))
    end.
  Definition generate (n : nat) (f : Z -> A) : sa A := generate_at n n f 0.

  (** simdarray.h:1882-2539 simd_cast<SimdArray<T, m>>(x) with the same element type: element i is
      x[i] for i < size(x) and zero otherwise.  Simplification: the many overloads that reach this
      result by moving sub-arrays are not modelled individually. *)
  Definition cast (m : nat) (t : sa A) : sa A := generate m (fun i => znth zero (to_list t) i).

  (** simdarray.h:1016-1025 get / operator[] const: the array is accessed as T[N]; an index outside
      is undefined behaviour. *)
  Definition get (t : sa A) (i : Z) : option A :=
    if (0 <=? i) && (i <? isize t) then Some (znth zero (to_list t) i) else None.

  (** The generator constructor with a generator that may be undefined. *)
  Fixpoint sequence (xs : list (option A)) : option (list A) :=
    match xs with
    | [] => Some []
    | Some x :: xs' => option_map (cons x) (sequence xs')
    | None :: _ => None
    end.
  Definition generate_opt (n : nat) (f : Z -> option A) : option (sa A) :=
    option_map (fun xs => generate n (fun i => znth zero xs i)) (sequence (tab n f)).

  (** simdarray.h:1162-1190 shifted(int, const SimdArray<value_type, NN>&) for the types that are
      not bisectable. *)
  Definition shifted_in_generic (t : sa A) (amount : Z) (shiftIn : sa A) : option (sa A) :=
    let SSize := isize t in
    if amount <? 0 then
      generate_opt (size t) (fun i0 =>
        let i := i0 + amount in
        if 0 <=? i then get t i
        else if - SSize <=? i then get shiftIn (i + SSize)
        else Some zero)
    else
      generate_opt (size t) (fun i0 =>
        let i := i0 + amount in
        if i <? SSize then get t i
        else if i <? 2 * SSize then get shiftIn (i - SSize)
        else Some zero).

  Definition zeros (n : nat) : sa A := generate n (fun _ => zero).

  (** Selector: false = shifted(int), true = shifted(int, SimdArray).  The two functions call each
      other; [fuel] bounds the recursion depth. *)
  Fixpoint shifted_f (fuel : nat) (t : sa A) (amount : Z) {struct fuel} : option (sa A) :=
    match fuel with
    | O => None
    | S fuel' =>
      match t with
      (* simdarray.h:433-436 *)
      | Leaf xs => Some (Leaf (n_shifted ops xs amount))
      (* simdarray.h:1127-1160 *)
      | Node data0 data1 =>
        let SSize := isize t in
        let SSize0 := isize data0 in
        let SSize1 := isize data1 in
        if amount =? 0 then Some t
        else if amount <? 0 then
          if - SSize0 <? amount then
            d0 <-- shifted_f fuel' data0 amount;
            d1 <-- shifted_in_f fuel' data1 amount data0;
            Some (Node d0 d1)
          else if amount =? - SSize0 then
            Some (Node (zeros (size data0)) (cast (size data1) data0))
          else if amount <? - SSize0 then
            s <-- shifted_f fuel' data0 (amount + SSize0);
            Some (Node (zeros (size data0)) (cast (size data1) s))
          else Some (zeros (size t))
        else
          if SSize <=? amount then Some (zeros (size t))
          else if SSize0 <=? amount then
            d0 <-- shifted_f fuel' (cast (size data0) data1) (amount - SSize0);
            Some (Node d0 (zeros (size data1)))
          else if SSize1 <=? amount then
            d0 <-- shifted_in_f fuel' data0 amount data1;
            Some (Node d0 (zeros (size data1)))
          else
            d0 <-- shifted_in_f fuel' data0 amount data1;
            d1 <-- shifted_f fuel' data1 amount;
            Some (Node d0 d1)
      end
    end
  with shifted_in_f (fuel : nat) (t : sa A) (amount : Z) (shiftIn : sa A) {struct fuel} : option (sa A) :=
    match fuel with
    | O => None
    | S fuel' =>
      match t with
      (* simdarray.h:438-443; outside |amount| <= size() the native functions are not specified
         (Scalar asserts) *)
      | Leaf xs =>
          if (- isize t <=? amount) && (amount <=? isize t) then
            Some (Leaf (n_shifted_in ops xs amount (to_list (cast (length xs) shiftIn))))
          else None
      | Node data0 data1 =>
        match shiftIn with
        | Node in0 in1 =>
          let SSize := isize t in
          let SSize0 := isize data0 in
          (* simdarray.h:1162-1166 enable_if: not bisectable *)
          if negb (Nat.eqb (size data0) (size data1) && Nat.eqb (size t) (size shiftIn)) then
            shifted_in_generic t amount shiftIn
          (* simdarray.h:1203-1252 *)
          else
            let upper :=
              if amount =? 0 then Some t
              else if amount <? SSize0 then
                d0 <-- shifted_in_f fuel' data0 amount data1;
                d1 <-- shifted_in_f fuel' data1 amount in0;
                Some (Node d0 d1)
              else if amount =? SSize0 then Some (Node data1 in0)
              else if amount <? SSize then
                d0 <-- shifted_in_f fuel' data1 (amount - SSize0) in0;
                d1 <-- shifted_in_f fuel' in0 (amount - SSize0) in1;
                Some (Node d0 d1)
              else if amount =? SSize then Some shiftIn
              else if amount <? 2 * SSize then shifted_f fuel' shiftIn (amount - SSize)
              else Some (zeros (size t)) in
            if amount <? 0 then
              if - SSize0 <? amount then
                d0 <-- shifted_in_f fuel' data0 amount in1;
                d1 <-- shifted_in_f fuel' data1 amount data0;
                Some (Node d0 d1)
              else if amount =? - SSize0 then Some (Node in1 data0)
              else if - SSize <? amount then
                d0 <-- shifted_in_f fuel' in1 (amount + SSize0) in0;
                d1 <-- shifted_in_f fuel' data0 (amount + SSize0) in1;
                Some (Node d0 d1)
              else if amount =? - SSize then Some shiftIn
              else if - 2 * SSize <? amount then shifted_f fuel' shiftIn (amount + SSize)
              else upper
            else upper
        | Leaf _ => shifted_in_generic t amount shiftIn
        end
      end
    end.

  Definition shifted (t : sa A) (amount : Z) : option (sa A) :=
    shifted_f (2 * size t + 2) t amount.
  Definition shifted_in (t : sa A) (amount : Z) (shiftIn : sa A) : option (sa A) :=
    shifted_in_f (2 * size t + 2) t amount shiftIn.

  (** simdarray.h:1256-1304 (composite) and 445-448 (atomic).  [int] arithmetic; the C++ [%]
      truncates towards zero. *)
  Definition rotated (t : sa A) (amount0 : Z) : option (sa A) :=
    match t with
    | Leaf xs => Some (Leaf (n_rotated ops xs amount0))
    | Node data0 data1 =>
      let size' := isize t in
      let amount1 := Z.rem amount0 size' in
      if amount1 =? 0 then Some t
      else
        let amount := if amount1 <? 0 then amount1 + size' else amount1 in
        let d0cvtd := cast (size data1) data0 in
        let d1cvtd := cast (size data0) data1 in
        let size0 := isize data0 in
        let size1 := isize data1 in
        if (amount =? size0) && (Nat.eqb (size data0) (size data1)) then Some (Node d1cvtd d0cvtd)
        else if amount <? size1 then
          r0 <-- shifted_in data0 amount d1cvtd;
          r1 <-- shifted_in data1 amount d0cvtd;
          Some (Node r0 r1)
        else if amount =? size1 then
          r0 <-- shifted_in data0 amount d1cvtd;
          Some (Node r0 d0cvtd)
        else if size' - amount <? size1 then
          s1 <-- shifted d1cvtd (size1 - size0);
          r0 <-- shifted_in data0 (amount - size') s1;
          s0 <-- shifted data0 (size0 - size1);
          r1 <-- shifted_in data1 (amount - size') s0;
          Some (Node r0 r1)
        else if size' - amount =? size1 then
          s1 <-- shifted d1cvtd (size1 - size0);
          r0 <-- shifted_in data0 (- size1) s1;
          s0 <-- shifted data0 (size0 - size1);
          Some (Node r0 (cast (size data1) s0))
        else if amount <=? size0 then
          s <-- shifted_in data0 size1 d1cvtd;
          r0 <-- shifted_in s (amount - size1) data0;
          s0 <-- shifted data0 (amount - size1);
          Some (Node r0 (cast (size data1) s0))
        else
          s <-- shifted_in data0 size1 d1cvtd;
          r0 <-- shifted_in s (amount - size1) data0;
          s0 <-- shifted_in data0 (amount - size1) d1cvtd;
          Some (Node r0 (cast (size data1) s0))
    end.

  (** simdarray.h:1308-1335 and 456-463. *)
  Fixpoint interleave_low (t x : sa A) : option (sa A) :=
    match t, x with
    | Leaf xs, Leaf ys => Some (Leaf (n_interleave_low ops xs ys))
    | Node data0 data1, Node x0 x1 =>
        lo <-- interleave_low data0 x0;
        hi <-- interleave_high data0 x0;
        Some (Node lo (cast (size data1) hi))
    | _, _ => None   (* both operands have the same type *)
    end
  with interleave_high (t x : sa A) : option (sa A) :=
    match t, x with
    | Leaf xs, Leaf ys => Some (Leaf (n_interleave_high ops xs ys))
    | Node data0 data1, Node x0 x1 =>
        if Nat.eqb (size data0) (size data1) then
          lo <-- interleave_low data1 x1;
          hi <-- interleave_high data1 x1;
          Some (Node lo hi)
        else
          h0 <-- interleave_high data0 x0;
          l1 <-- interleave_low data1 x1;
          r0 <-- shifted_in h0 (isize data1) (cast (size data0) l1);
          r1 <-- interleave_high data1 x1;
          Some (Node r0 r1)
    | _, _ => None
    end.

  (** simdarray.h:1339-1359 and 465-468. *)
  Fixpoint reversed_f (fuel : nat) (t : sa A) : option (sa A) :=
    match fuel with
    | O => None
    | S fuel' =>
      match t with
      | Leaf xs => Some (Leaf (n_reversed ops xs))
      | Node data0 data1 =>
        if Nat.eqb (size data0) (size data1) then
          r0 <-- reversed_f fuel' (cast (size data0) data1);
          r1 <-- reversed_f fuel' (cast (size data1) data0);
          Some (Node r0 r1)
        else
          s <-- shifted_in data0 (isize data1) data1;
          r0 <-- reversed_f fuel' s;
          rv <-- reversed_f fuel' data0;
          s1 <-- shifted rv (isize data0 - isize data1);
          Some (Node r0 (cast (size data1) s1))
      end
    end.
  Definition reversed (t : sa A) : option (sa A) := reversed_f (size t + 1) t.

  (** simdarray.h:1104-1110 and 424-427.  [set0] models [tmp[0] += v]. *)
  Fixpoint add_first (add : A -> A -> A) (v : A) (t : sa A) : sa A :=
    match t with
    | Leaf [] => Leaf []
    | Leaf (x :: xs) => Leaf (add x v :: xs)
    | Node l r => Node (add_first add v l) r
    end.
  Fixpoint partial_sum_f (add : A -> A -> A) (fuel : nat) (t : sa A) : option (sa A) :=
    match fuel with
    | O => None
    | S fuel' =>
      match t with
      | Leaf xs => Some (Leaf (n_partial_sum ops xs))
      | Node data0 data1 =>
          ps0 <-- partial_sum_f add fuel' data0;
          last <-- get ps0 (isize data0 - 1);
          ps1 <-- partial_sum_f add fuel' (add_first add last data1);
          Some (Node ps0 ps1)
      end
    end.
  Definition partial_sum (add : A -> A -> A) (t : sa A) : option (sa A) :=
    partial_sum_f add (size t + 1) t.

  (** Elementwise application, Vc::min / Vc::max / operators on two SimdArrays of the same type. *)
  Fixpoint zip_with (f : A -> A -> A) (t x : sa A) : option (sa A) :=
    match t, x with
    | Leaf xs, Leaf ys => Some (Leaf (map2 f xs ys))
    | Node t0 t1, Node x0 x1 =>
        r0 <-- zip_with f t0 x0; r1 <-- zip_with f t1 x1; Some (Node r0 r1)
    | _, _ => None
    end.

  (** simdarray.h:1361-1394 (composite) and 470-473 (atomic).  [mn]/[mx] are Vc::min / Vc::max,
      [top] is numeric_limits<T>::infinity() resp. max(). *)
  Fixpoint sorted_f (mn mx : A -> A -> A) (top : A) (fuel : nat) (t : sa A) : option (sa A) :=
    match fuel with
    | O => None
    | S fuel' =>
      match t with
      | Leaf xs => Some (Leaf (n_sorted ops xs))
      | Node data0 data1 =>
        if Nat.eqb (size data0) (size data1) then
          a <-- sorted_f mn mx top fuel' data0;
          sb <-- sorted_f mn mx top fuel' data1;
          b <-- reversed sb;
          lo <-- zip_with mn a b;
          hi <-- zip_with mx a b;
          slo <-- sorted_f mn mx top fuel' lo;
          shi <-- sorted_f mn mx top fuel' hi;
          Some (Node slo shi)
        else
          let n := size t in
          let m := next_pow2 n in
          let sortable := generate m (fun i => if i <? Z.of_nat n then znth zero (to_list t) i else top) in
          s <-- sorted_f mn mx top fuel' sortable;
          Some (cast n s)
      end
    end.
  Definition sorted (mn mx : A -> A -> A) (top : A) (t : sa A) : option (sa A) :=
    sorted_f mn mx top (4 * size t + 2) t.
End Ops.
