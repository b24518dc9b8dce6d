(** Model of SimdArray / SimdMaskArray: elementwise operations, load/store, reductions,
    write masking, masks (Vc/common/simdarray.h, simdarrayhelper.h, simdmaskarray.h,
    writemaskedvector.h). *)
From Coq Require Import ZArith List Bool.
From Verif.Model Require Import SplitSize SimdArray Mem.
From Verif.Spec Require Import Seq.
Import ListNotations.
Local Open Scope Z_scope.

(** * fromOperation and argument splitting *)

(** Arguments of SimdArray::fromOperation.
    [OTree]: a SimdArray/SimdMaskArray; [OSeg xs P I]: Common::Segment<V, P, I> of a native vector
    xs (simdarrayhelper.h:130-154); [OScalar]: any argument that is not split
    (simdarrayhelper.h:390-410). *)
Inductive operand (A : Type) :=
| OTree (t : sa A)
| OSeg (xs : list A) (pieces index : nat)
| OScalar (a : A).
Arguments OTree {A}. Arguments OSeg {A}. Arguments OScalar {A}.

(** simdarrayhelper.h:218-231, 248-257, 270-292, 322-331 Split::lo / Split::hi of composite and
    atomic arrays and native vectors; 345-370: a Segment is split into <2P, 2I> and <2P, 2I+1>. *)
Definition split_lo {A} (o : operand A) : operand A :=
  match o with
  | OTree (Node d0 _) => OTree d0
  | OTree (Leaf xs) => OSeg xs 2 0
  | OSeg xs p i => OSeg xs (p * 2) (i * 2)
  | OScalar a => OScalar a
  end.
Definition split_hi {A} (o : operand A) : operand A :=
  match o with
  | OTree (Node _ d1) => OTree d1
  | OTree (Leaf xs) => OSeg xs 2 1
  | OSeg xs p i => OSeg xs (p * 2) (i * 2 + 1)
  | OScalar a => OScalar a
  end.

(** simdarrayhelper.h:145-153 EntryOffset = Index * Size / Pieces and to_fixed_size(): the
    Size / Pieces entries from there. *)
Definition operand_elems {A} (n : nat) (o : operand A) : list A :=
  match o with
  | OTree t => to_list t
  | OSeg xs p i => firstn (length xs / p) (skipn (i * length xs / p) xs)
  | OScalar a => repeat a n
  end.

(** simdarray.h:915-932 fromOperation (composite), 261-273 (atomic: the native operation, which is
    elementwise).  The operation takes any number of arguments; [f] is its scalar meaning.
    Simplification: all arguments have the same Coq type (use a sum type for mixed arguments). *)
Fixpoint from_op {A B} (native : nat -> bool) (zero : A) (f : list A -> B) (fuel n : nat) (args : list (operand A)) : sa B :=
  match fuel with
  | O => Leaf []
  | S fuel' =>
      if native n then
        Leaf (tab n (fun i => f (map (fun o => znth zero (operand_elems n o) i) args)))
      else
        Node (from_op native zero f fuel' (left_size n) (map split_lo args))
             (from_op native zero f fuel' (right_size n) (map split_hi args))
  end.
Definition from_operation {A B} native (zero : A) (f : list A -> B) (n : nat) (args : list (operand A)) : sa B :=
  from_op native zero f n n args.

(** simdarray.h:949-965 unary operators, 968-995 shifts by a scalar: both halves. *)
Fixpoint map_sa {A B} (f : A -> B) (t : sa A) : sa B :=
  match t with
  | Leaf xs => Leaf (map f xs)
  | Node d0 d1 => Node (map_sa f d0) (map_sa f d1)
  end.

(** simdarray.h:998-1008 compound assignment operators, 1586-1625 binary operators and comparisons
    on two arrays of the same type: both halves. *)
Fixpoint zip_sa {A B C} (f : A -> B -> C) (t : sa A) (x : sa B) : option (sa C) :=
  match t, x with
  | Leaf xs, Leaf ys => Some (Leaf (map2 f xs ys))
  | Node t0 t1, Node x0 x1 =>
      r0 <-- zip_sa f t0 x0; r1 <-- zip_sa f t1 x1; Some (Node r0 r1)
  | _, _ => None
  end.

(** * load, store, subscript *)

(** simdarray.h:771-777, 935-940 load. *)
Fixpoint load_f {A} (native : nat -> bool) (fuel : nat) (m : memory A) (base : Z) (n : nat) : option (sa A) :=
  match fuel with
  | O => None
  | S fuel' =>
      if native n then option_map (@Leaf A) (mem_load m base n)
      else
        d0 <-- load_f native fuel' m base (left_size n);
        d1 <-- load_f native fuel' m (base + Z.of_nat (left_size n)) (right_size n);
        Some (Node d0 d1)
  end.
Definition load {A} native (m : memory A) base n : option (sa A) := load_f native n m base n.

(** simdarray.h:942-947 store. *)
Fixpoint store {A} (t : sa A) (m : memory A) (base : Z) : option (memory A) :=
  match t with
  | Leaf xs => mem_store m base xs
  | Node d0 d1 =>
      m' <-- store d0 m base;
      store d1 m' (base + isize d0)
  end.

(** simdarray.h:1020-1025 set through reference: the object is accessed as T[N]; the members are
    consecutive in memory (data0 then data1, no padding: see DESIGN.md). *)
Fixpoint list_set {A} (xs : list A) (i : nat) (v : A) : list A :=
  match xs, i with
  | [], _ => []
  | _ :: xs', O => v :: xs'
  | x :: xs', S i' => x :: list_set xs' i' v
  end.
Fixpoint set {A} (t : sa A) (i : Z) (v : A) : sa A :=
  match t with
  | Leaf xs => Leaf (list_set xs (Z.to_nat i) v)
  | Node d0 d1 => if i <? isize d0 then Node (set d0 i v) d1 else Node d0 (set d1 (i - isize d0) v)
  end.

(** * Reductions *)

(** simdarray.h:1064-1102 name(): equal halves are combined elementwise first; 413-424 atomic.
    [red] is the native reduction, [f] the binary operation (vector and scalar version). *)
Fixpoint reduce_f {A} (red : list A -> A) (f : A -> A -> A) (fuel : nat) (t : sa A) : option A :=
  match fuel with
  | O => None
  | S fuel' =>
    match t with
    | Leaf xs => Some (red xs)
    | Node d0 d1 =>
        if Nat.eqb (size d0) (size d1) then
          z <-- zip_with f d0 d1; reduce_f red f fuel' z
        else
          a <-- reduce_f red f fuel' d0;
          b <-- reduce_f red f fuel' d1;
          Some (f a b)
    end
  end.
Definition reduce {A} red (f : A -> A -> A) (t : sa A) : option A := reduce_f red f (size t) t.

(** * Masks *)

(** Functions of the native masks a SimdMaskArray forwards to. *)
Record native_mask_ops := {
  k_full : list bool -> bool;
  k_not_empty : list bool -> bool;
  k_empty : list bool -> bool;
  k_to_int : list bool -> Z;
  k_count : list bool -> Z;
  k_first : list bool -> Z;
  k_eq : list bool -> list bool -> bool;
  k_neq : list bool -> list bool -> bool
}.

Section Masks.
  Variable K : native_mask_ops.

  (** simdmaskarray.h:582-588 and 214-222. *)
  Fixpoint is_full (t : sa bool) : bool :=
    match t with Leaf xs => k_full K xs | Node d0 d1 => is_full d0 && is_full d1 end.
  Fixpoint is_not_empty (t : sa bool) : bool :=
    match t with Leaf xs => k_not_empty K xs | Node d0 d1 => is_not_empty d0 || is_not_empty d1 end.
  Fixpoint is_empty (t : sa bool) : bool :=
    match t with Leaf xs => k_empty K xs | Node d0 d1 => is_empty d0 && is_empty d1 end.
  Definition is_mix (t : sa bool) : bool := negb (is_full t) && negb (is_empty t).

  (** simdmaskarray.h:591-594.  32-bit int: shifting by 32 or more bits is undefined. *)
  Fixpoint to_int (t : sa bool) : option Z :=
    match t with
    | Leaf xs => Some (k_to_int K xs)
    | Node d0 d1 =>
        a <-- to_int d0;
        b <-- to_int d1;
        if (isize d0 <? 32) then Some (Z.lor a (Z.shiftl b (isize d0))) else None
    end.

  (** simdmaskarray.h:645 *)
  Fixpoint count (t : sa bool) : Z :=
    match t with Leaf xs => k_count K xs | Node d0 d1 => count d0 + count d1 end.

  (** simdmaskarray.h:648-653 *)
  Fixpoint first_one (t : sa bool) : Z :=
    match t with
    | Leaf xs => k_first K xs
    | Node d0 d1 => if is_empty d0 then first_one d1 + isize d0 else first_one d0
    end.

  (** simdmaskarray.h:511-519 *)
  Fixpoint mask_eq (t x : sa bool) : option bool :=
    match t, x with
    | Leaf xs, Leaf ys => Some (k_eq K xs ys)
    | Node t0 t1, Node x0 x1 => a <-- mask_eq t0 x0; b <-- mask_eq t1 x1; Some (a && b)
    | _, _ => None
    end.
  Fixpoint mask_neq (t x : sa bool) : option bool :=
    match t, x with
    | Leaf xs, Leaf ys => Some (k_neq K xs ys)
    | Node t0 t1, Node x0 x1 => a <-- mask_neq t0 x0; b <-- mask_neq t1 x1; Some (a || b)
    | _, _ => None
    end.

  (** simdmaskarray.h:598-605 get *)
  Fixpoint mask_get (t : sa bool) (i : Z) : option bool :=
    match t with
    | Leaf xs => if (0 <=? i) && (i <? Z.of_nat (length xs)) then Some (znth false xs i) else None
    | Node d0 d1 => if i <? isize d0 then mask_get d0 i else mask_get d1 (i - isize d0)
    end.

  (** simdmaskarray.h:664-674; [j] is unsigned int. *)
  Definition mask_shifted (native : nat -> bool) (t : sa bool) (amount : Z) : option (sa bool) :=
    if amount =? 0 then Some t
    else generate_opt native false (size t) (fun i =>
      let j := (i + amount) mod 2 ^ 32 in
      if j <? isize t then mask_get t j else Some false).

  (** simdarray.h:1086-1096 masked reductions; [mred] is the native masked reduction
      (413-419). *)
  Fixpoint reduce_masked {A} (mred : list A -> list bool -> A) (f : A -> A -> A)
      (t : sa A) (k : sa bool) : option A :=
    match t, k with
    | Leaf xs, Leaf ks => Some (mred xs ks)
    | Node d0 d1, Node k0 k1 =>
        if is_empty k0 then reduce_masked mred f d1 k1
        else if is_empty k1 then reduce_masked mred f d0 k0
        else a <-- reduce_masked mred f d0 k0; b <-- reduce_masked mred f d1 k1; Some (f a b)
    | _, _ => None
    end.
End Masks.

(** simdmaskarray.h:457-472, 491-507 load and store: as for SimdArray. *)
Definition mask_load := @load bool.
Definition mask_store := @store bool.

(** * Write masking *)

(** simdarray.h:1057-1061 assign(v, mask), 407-410.  [nassign old v k] is the native blend. *)
Fixpoint assign {A} (nassign : list A -> list A -> list bool -> list A) (x v : sa A) (k : sa bool) : option (sa A) :=
  match x, v, k with
  | Leaf xs, Leaf vs, Leaf ks => Some (Leaf (nassign xs vs ks))
  | Node x0 x1, Node v0 v1, Node k0 k1 =>
      r0 <-- assign nassign x0 v0 k0; r1 <-- assign nassign x1 v1 k1; Some (Node r0 r1)
  | _, _, _ => None
  end.

(** writemaskedvector.h:84-97 operator op=: vec.assign(vec op x, mask); reached from
    where(mask) | vec op= x through simdarray.h:2541-2562 and where.h:63-73. *)
Definition masked_op_assign {A} nassign (f : A -> A -> A) (vec x : sa A) (k : sa bool) : option (sa A) :=
  r <-- zip_sa f vec x; assign nassign vec r k.

(** setZeroInverted(k): native: [zeroinv]. *)
Fixpoint set_zero_inverted {A} (nszi : list A -> list bool -> list A) (x : sa A) (k : sa bool) : option (sa A) :=
  match x, k with
  | Leaf xs, Leaf ks => Some (Leaf (nszi xs ks))
  | Node x0 x1, Node k0 k1 =>
      r0 <-- set_zero_inverted nszi x0 k0; r1 <-- set_zero_inverted nszi x1 k1; Some (Node r0 r1)
  | _, _ => None
  end.

(** writemaskedvector.h:57-68 operator++ / operator--: V one = V::One(); one.setZeroInverted(mask);
    vec += one (vec -= one). *)
Definition masked_increment {A} nszi (add : A -> A -> A) (one : A) (vec : sa A) (k : sa bool) : option (sa A) :=
  o <-- set_zero_inverted nszi (map_sa (fun _ => one) vec) k;
  zip_sa add vec o.

(** iif.h:59-93 iif(mask, a, b): result = b; where(mask) | result = a. *)
Definition iif {A} nassign (k : sa bool) (a b : sa A) : option (sa A) := assign nassign b a k.
