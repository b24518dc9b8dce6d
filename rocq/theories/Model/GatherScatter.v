(** Gather and scatter (Vc/common/gatherimplementation.h, scatterimplementation.h,
    Vc/sse/vector.tcc:327-397, Vc/scalar/vector.tcc:82-118, Vc/common/simdarray.h:549-581, 1481-1526).
    A vector is the list of its elements; memory is a partial map from addresses to elements, [mem] is
    the address of mem[0].  Simplification: the element types of memory and vector are the same (no
    conversion), indexes are mathematical integers. *)
From Coq Require Import ZArith List Bool.
From Verif.Spec Require Import Seq.
From Verif.Model Require Import SimdArray SimdArrayOps Mem SplitSize BitScan SseMask.
Import ListNotations.
Local Open Scope Z_scope.

(** gatherimplementation.h:38-43 *)
Inductive strategy := SimpleLoop | SetIndexZero | BitScanLoop | PopcntSwitch.

Section Lanes.
  (** One step of a loop body for entry i: [v\[i\] = mem\[indexes\[i\]\]] resp. [mem\[indexes\[i\]\] = v\[i\]]. *)
  Context {S : Type} (act : Z -> S -> option S).

  Fixpoint act_list (is : list Z) (s : S) : option S :=
    match is with
    | [] => Some s
    | i :: is' => s' <-- act i s; act_list is' s'
    end.

  (** gatherimplementation.h:64-87, scatterimplementation.h:53-66: unrolled loop over all entries *)
  Fixpoint simple_loop (i : Z) (mask : list bool) (s : S) : option S :=
    match mask with
    | [] => Some s
    | b :: mask' => s' <-- (if b then act i s else Some s); simple_loop (i + 1) mask' s'
    end.

  (** gatherimplementation.h:90-117, scatterimplementation.h:69-95 *)
  Fixpoint bit_scan_loop (fuel : nat) (bits : Z) (s : S) : option S :=
    if bits <=? 0 then Some s
    else match fuel with
         | O => None
         | Datatypes.S fuel' =>
             i <-- bit_scan_forward bits;
             j <-- bit_scan_reverse bits;
             let bits' := bit_reset (bit_reset bits i) j in
             s1 <-- act i s;
             s2 <-- act j s1;
             bit_scan_loop fuel' bits' s2
         end.

  (** The cases c, c-1, ..., 0 of the switch with fall-through: gatherimplementation.h:133-207, 224-258,
      275-289, 306-311; scatterimplementation.h likewise.  In the odd cases with the largest number the
      source does not or in [high], which is still 0 there. *)
  Fixpoint popcnt_cases (c : nat) (bits high : Z) (s : S) : option S :=
    match c with
    | O => Some s
    | 1%nat => low <-- bit_scan_forward bits; act low s
    | Datatypes.S c' =>
        if Nat.odd c then
          low <-- bit_scan_forward bits;
          let bits' := Z.lxor bits (Z.lor high (Z.shiftl 1 low)) in
          s' <-- act low s;
          popcnt_cases c' bits' high s'
        else
          h <-- bit_scan_reverse bits;
          s' <-- act h s;
          popcnt_cases c' bits (Z.shiftl 1 h) s'
    end.

  (** gatherimplementation.h:127-132 etc.: [full] is the unmasked gather / scatter.  [size] is V::Size. *)
  Definition popcnt_switch (hw : bool) (size : nat) (full : S -> option S) (bits : Z) (s : S) : option S :=
    let c := match size with
             | 16%nat => popcnt16 hw bits
             | 8%nat => popcnt8 hw bits
             | _ => popcnt4 hw bits
             end in
    if c =? Z.of_nat size then full s else popcnt_cases (Z.to_nat c) bits 0 s.
End Lanes.

Section Native.
  Context {A : Type} (zero : A).

  (** [v\[i\] = mem\[indexes\[i\]\]] *)
  Definition gather_lane (m : memory A) (mem : Z) (idx : Z -> Z) (i : Z) (v : list A) : option (list A) :=
    x <-- m (mem + idx i); Some (list_set v (Z.to_nat i) x).
  (** [mem\[indexes\[i\]\] = v\[i\]] *)
  Definition scatter_lane (v : list A) (mem : Z) (idx : Z -> Z) (i : Z) (m : memory A) : option (memory A) :=
    mem_write m (mem + idx i) (znth zero v i).

  (** sse/vector.tcc:327-348 gather without mask: all entries are read and the vector is set;
      scalar/vector.tcc:82-88 *)
  Definition gather_all (m : memory A) (mem : Z) (idx : Z -> Z) (v : list A) : option (list A) :=
    sequence (tab (length v) (fun i => m (mem + idx i))).
  (** sse/vector.tcc:373-378 scatter without mask; scalar/vector.tcc:101-107 *)
  Definition scatter_all (v : list A) (mem : Z) (idx : Z -> Z) (m : memory A) : option (memory A) :=
    act_list (scatter_lane v mem idx) (tab (length v) (fun i => i)) m.

  (** sse/vector.tcc:350-370 gather with mask.  [mask_int] is mask.toInt(). *)
  Definition gather_masked (st : strategy) (hw : bool) (m : memory A) (mem : Z) (idx : Z -> Z)
      (mask : list bool) (mask_int : Z) (v : list A) : option (list A) :=
    match st with
    | SimpleLoop =>
        if forallb negb mask then Some v
        else simple_loop (gather_lane m mem idx) 0 mask v
    | BitScanLoop => bit_scan_loop (gather_lane m mem idx) 64 (int_to_size_t mask_int) v
    | PopcntSwitch =>
        popcnt_switch (gather_lane m mem idx) hw (length v) (gather_all m mem idx) mask_int v
    | SetIndexZero =>
        (* gatherimplementation.h:50-61: indexes.setZeroInverted(mask); V tmp(mem, indexes);
           where(mask) | v = tmp *)
        tmp <-- gather_all m mem (fun i => if znth false mask i then idx i else 0) v;
        Some (map3 (fun (b : bool) n o => if b then n else o) mask tmp v)
    end.

  (** sse/vector.tcc:380-397 scatter with mask *)
  Definition scatter_masked (st : strategy) (hw : bool) (v : list A) (mem : Z) (idx : Z -> Z)
      (mask : list bool) (mask_int : Z) (m : memory A) : option (memory A) :=
    match st with
    | SimpleLoop =>
        if forallb negb mask then Some m
        else simple_loop (scatter_lane v mem idx) 0 mask m
    | BitScanLoop => bit_scan_loop (scatter_lane v mem idx) 64 (int_to_size_t mask_int) m
    | PopcntSwitch =>
        popcnt_switch (scatter_lane v mem idx) hw (length v) (scatter_all v mem idx) mask_int m
    | SetIndexZero =>
        (* scatterimplementation.h:39-50: reads the memory into a temporary and assigns it to the vector;
           nothing is written to memory (the vector is a copy here) *)
        tmp <-- gather_all m mem (fun i => if znth false mask i then idx i else 0) v;
        Some m
    end.
End Native.

(** * SimdArray *)

(** The indexes argument: a SIMD object (split like any operand) or, for std::vector, a pointer into an
    array.  simdarrayhelper.h:333-343, 388-409 *)
Inductive index_arg :=
| IxOperand (o : operand Z)
| IxPointer (array : list Z) (offset : nat).

(** simdarrayhelper.h:388-409; [n0] is storage_type0::size() of the array that is gathered into *)
Definition index_lo (x : index_arg) : index_arg :=
  match x with
  | IxOperand o => IxOperand (split_lo o)
  | IxPointer a k => IxPointer a k
  end.
Definition index_hi (n0 : nat) (x : index_arg) : index_arg :=
  match x with
  | IxOperand o => IxOperand (split_hi o)
  | IxPointer a k => IxPointer a (k + n0)
  end.
(** indexes[i]: simdarrayhelper.h:130-153 for a Segment *)
Definition index_get (n : nat) (x : index_arg) (i : Z) : Z :=
  match x with
  | IxOperand o => znth 0 (operand_elems n o) i
  | IxPointer a k => znth 0 a (Z.of_nat k + i)
  end.

Section Arrays.
  Context {A : Type}.
  (** gather of the native vectors, with and without mask *)
  Variable ngather : memory A -> Z -> (Z -> Z) -> list A -> option (list A).
  Variable ngather_masked : memory A -> Z -> (Z -> Z) -> list bool -> list A -> option (list A).
  Variable nscatter : list A -> Z -> (Z -> Z) -> memory A -> option (memory A).
  Variable nscatter_masked : list A -> Z -> (Z -> Z) -> list bool -> memory A -> option (memory A).

  (** simdarray.h:549-556 (atomic), 1481-1491 *)
  Fixpoint gather (m : memory A) (mem : Z) (x : index_arg) (t : sa A) : option (sa A) :=
    match t with
    | Leaf xs => option_map (@Leaf A) (ngather m mem (index_get (length xs) x) xs)
    | Node d0 d1 =>
        r0 <-- gather m mem (index_lo x) d0;
        r1 <-- gather m mem (index_hi (size d0) x) d1;
        Some (Node r0 r1)
    end.
  (** simdarray.h:557-564, 1492-1503 *)
  Fixpoint gather_mask (m : memory A) (mem : Z) (x : index_arg) (k : sa bool) (t : sa A) : option (sa A) :=
    match t, k with
    | Leaf xs, Leaf ks => option_map (@Leaf A) (ngather_masked m mem (index_get (length xs) x) ks xs)
    | Node d0 d1, Node k0 k1 =>
        r0 <-- gather_mask m mem (index_lo x) k0 d0;
        r1 <-- gather_mask m mem (index_hi (size d0) x) k1 d1;
        Some (Node r0 r1)
    | _, _ => None
    end.
  (** simdarray.h:566-573, 1505-1515 *)
  Fixpoint scatter (t : sa A) (mem : Z) (x : index_arg) (m : memory A) : option (memory A) :=
    match t with
    | Leaf xs => nscatter xs mem (index_get (length xs) x) m
    | Node d0 d1 =>
        m' <-- scatter d0 mem (index_lo x) m;
        scatter d1 mem (index_hi (size d0) x) m'
    end.
  (** simdarray.h:574-581, 1516-1526 *)
  Fixpoint scatter_mask (t : sa A) (mem : Z) (x : index_arg) (k : sa bool) (m : memory A) : option (memory A) :=
    match t, k with
    | Leaf xs, Leaf ks => nscatter_masked xs mem (index_get (length xs) x) ks m
    | Node d0 d1, Node k0 k1 =>
        m' <-- scatter_mask d0 mem (index_lo x) k0 m;
        scatter_mask d1 mem (index_hi (size d0) x) k1 m'
    | _, _ => None
    end.
End Arrays.

(** * The native vectors of an SSE build: one entry (Vector<T, Scalar>, scalar/vector.tcc:90-118) or an SSE
    vector with 16 / w entries of w bytes *)
Definition native_gather_masked {A} (st : strategy) (hw : bool) (w : nat)
    (m : memory A) (mem : Z) (idx : Z -> Z) (ks : list bool) (xs : list A) : option (list A) :=
  match xs with
  | [_] => if znth false ks 0 then gather_all m mem idx xs else Some xs
  | _ => gather_masked st hw m mem idx ks (m_to_int w (mask_reg w ks)) xs
  end.
Definition native_scatter_masked {A} (zero : A) (st : strategy) (hw : bool) (w : nat)
    (xs : list A) (mem : Z) (idx : Z -> Z) (ks : list bool) (m : memory A) : option (memory A) :=
  match xs with
  | [_] => if znth false ks 0 then scatter_all zero xs mem idx m else Some m
  | _ => scatter_masked zero st hw xs mem idx ks (m_to_int w (mask_reg w ks)) m
  end.
Definition sse_gather {A} (m : memory A) (mem : Z) (x : index_arg) (t : sa A) : option (sa A) :=
  gather gather_all m mem x t.
Definition sse_gather_mask {A} (st : strategy) (hw : bool) (w : nat) (m : memory A) (mem : Z) (x : index_arg)
    (k : sa bool) (t : sa A) : option (sa A) :=
  gather_mask (native_gather_masked st hw w) m mem x k t.
Definition sse_scatter {A} (zero : A) (t : sa A) (mem : Z) (x : index_arg) (m : memory A) : option (memory A) :=
  scatter (scatter_all zero) t mem x m.
Definition sse_scatter_mask {A} (zero : A) (st : strategy) (hw : bool) (w : nat) (t : sa A) (mem : Z)
    (x : index_arg) (k : sa bool) (m : memory A) : option (memory A) :=
  scatter_mask (native_scatter_masked zero st hw w) t mem x k m.
