(** Vc::simdize (Vc/common/simdize.h): the type transformation, the simdized structs (class Adapter) and the simdized
    iterators.

    A simdized struct is the list of its members; each member is a SIMD object with the same number of entries.
    Simplifications: the members of all types have their values in one type [A]; members are vectors, SimdArrays or
    masks (assign, extract and swap do not compile for nested simdized structs, which have no operator[]).
    Undefined behaviour and access outside of a container is [None]. *)
From Coq Require Import ZArith List Bool.
From Verif.Spec Require Import Seq.
From Verif.Model Require Import SimdArray SimdArrayOps Mem Interleave SseBuild.
Import ListNotations.
Local Open Scope Z_scope.

Section Adapter.
  Context {A : Type} (zero : A).
  Definition adapter := list (sa A).

  (** v\[i\] = y with the range of the subscript *)
  Definition set_entry (v : sa A) (i : Z) (y : A) : option (sa A) :=
    if (0 <=? i) && (i <? isize v) then Some (set v i y) else None.

  (** simdize.h:1006-1014, 1220-1225 (and 1133, decorate(a)\[i\] = x) *)
  Definition adapter_assign (a : adapter) (i : Z) (x : list A) : option adapter :=
    sequence (map2 (fun v y => set_entry v i y) a x).
  (** simdize.h:1036-1046, 1240-1245 (and 1134, 1198-1201) *)
  Definition adapter_extract (a : adapter) (i : Z) : option (list A) := sequence (map (fun v => get zero v i) a).
  (** simdize.h:1078-1088: swap(a, i, x); the new a and x *)
  Definition swap_scalar (a : adapter) (i : Z) (x : list A) : option (adapter * list A) :=
    tmp <-- adapter_extract a i;
    a' <-- adapter_assign a i x;
    Some (a', tmp).
  (** simdize.h:1089-1100: swap(a, i, b, j) of two objects *)
  Definition swap_lanes (a : adapter) (i : Z) (b : adapter) (j : Z) : option (adapter * adapter) :=
    tmp <-- adapter_extract a i;
    a' <-- sequence (map2 (fun va vb => y <-- get zero vb j; set_entry va i y) a b);
    b' <-- adapter_assign b j tmp;
    Some (a', b').
  (** ... and with the same object for a and b *)
  Definition swap_same (a : adapter) (i j : Z) : option adapter :=
    tmp <-- adapter_extract a i;
    a' <-- sequence (map (fun v => y <-- get zero v j; set_entry v i y) a);
    adapter_assign a' j tmp.
  (** simdize.h:1049-1057, 1068-1072, 1203-1206 *)
  Definition adapter_shifted (native : nat -> bool) (ops : native_ops A) (a : adapter) (shift : Z) : option adapter :=
    sequence (map (fun v => shifted native ops zero v shift) a).
  (** simdize.h:808-837, 868-874: construction from a scalar object, every member is a broadcast *)
  Definition adapter_broadcast (native : nat -> bool) (n : nat) (x : list A) : adapter :=
    map (fun y => generate native n (fun _ => y)) x.

  (** simdize.h:1853-1870: where(mask) | a op= b; the mask is converted to the mask type of the member *)
  Definition adapter_conditional_assign nassign (native : nat -> bool) (n : nat) (f : A -> A -> A) (a : adapter) (k : sa bool) (b : adapter) : option adapter :=
    sequence (map2 (fun v x => masked_op_assign nassign f v x (cast native false n k)) a b).

  Section Generator.
    Context {S : Type} (fun_ : S -> Z -> S * list A).
    (** simdize.h:1320-1327: the loop over i; the object is uninitialised at first *)
    Fixpoint from_function_loop (n : nat) (i : Z) (s : S) (a : adapter) : option (S * adapter) :=
      match n with
      | O => Some (s, a)
      | Datatypes.S n' =>
          let (s', x) := fun_ s i in
          a' <-- adapter_assign a i x;
          from_function_loop n' (i + 1) s' a'
      end.
    Definition from_function (n : nat) (s : S) (a : adapter) : option (S * adapter) := from_function_loop n 0 s a.
  End Generator.

  (** simdize.h:1256-1262: the members have different sizes; [m] holds one struct per cell *)
  Fixpoint load_loop (n : nat) (i : Z) (m : memory (list A)) (mem : Z) (a : adapter) : option adapter :=
    match n with
    | O => Some a
    | Datatypes.S n' => x <-- m (mem + i); a' <-- adapter_assign a i x; load_loop n' (i + 1) m mem a'
    end.
  (** simdize.h:1277-1283 *)
  Fixpoint store_loop (n : nat) (i : Z) (a : adapter) (mem : Z) (m : memory (list A)) : option (memory (list A)) :=
    match n with
    | O => Some m
    | Datatypes.S n' => x <-- adapter_extract a i; m' <-- mem_write m (mem + i) x; store_loop n' (i + 1) a mem m'
    end.
  (** simdize.h:1262-1266, 1166-1173: all members have the same size; [m] holds one member per cell, a struct has
      [struct_size] cells.  The vectors have [n] entries and are native (InterleaveImpl). *)
  Definition load_homogeneous (n struct_size k : nat) (m : memory A) (mem : Z) : option adapter :=
    option_map (map (@Leaf A)) (wrapper_read zero n struct_size k mem (First 0) m).
  (** simdize.h:1283-1287, 1176-1183 *)
  Definition store_homogeneous (va : variant) (n struct_size : nat) (a : adapter) (mem : Z) (m : memory A) : option (memory A) :=
    wrapper_write zero va n struct_size mem (First 0) (map (@to_list A) a) m.

  (** * Iterators: simdize.h:1329-1825

      A scalar iterator is a position in a container, which holds one object (a struct: list of members) per position.
      [k] is the tuple size, [n] the number of entries of the vectors (Size). *)
  Section Iterator.
    Variable native : nat -> bool.
    Variables n k : nat.
    Notation Size := (Z.of_nat n).

    (** 1333-1353: tmp\[j\] = get<I>( *(it + j) ) for every member I *)
    Definition from_iterator (m : memory (list A)) (it : Z) : option adapter :=
      sequence (map (fun I =>
        xs <-- sequence (tab n (fun j => x <-- m (it + j); nth_error x I));
        Some (generate native n (fun j => znth zero xs j))) (seq 0 k)).
    (** 1355-1367, 1369-1380: the value type is arithmetic, one object is one entry *)
    Definition from_iterator_vector (m : memory A) (it : Z) : option (sa A) :=
      xs <-- sequence (tab n (fun j => m (it + j)));
      Some (generate native n (fun j => znth zero xs j)).

    (** Iterator objects: the positions (scalar_it) of the iterators that are alive, by address. *)
    Definition iterators := memory Z.
    (** 1477-1512 class Reference<Mutable::Yes>: the SIMD object and the address of the iterator it came from *)
    Record reference := { r_data : adapter; r_it : Z }.
    (** 1669 operator*() of the iterator at address [it]; 1487-1491 *)
    Definition deref (st : iterators) (m : memory (list A)) (it : Z) : option reference :=
      p <-- st it; d <-- from_iterator m p; Some {| r_data := d; r_it := it |}.
    (** 1504-1511: reference = x; the container afterwards *)
    Definition ref_assign (st : iterators) (m : memory (list A)) (r : reference) (x : adapter) : option (memory (list A)) :=
      p <-- st (r_it r); store_loop n 0 x p m.
    (** 1662 operator->() and 1395-1436 class Pointer<Mutable::Yes>: [f] is what is done to the object before the
        destructor of the Pointer writes it back (Pointer has a copy of the iterator) *)
    Definition arrow (f : adapter -> adapter) (st : iterators) (m : memory (list A)) (it : Z) : option (memory (list A)) :=
      p <-- st it; d <-- from_iterator m p; store_loop n 0 (f d) p m.
    (** 1611-1615, 1725-1729 ++, --; 1762-1774 +=, -= *)
    Definition it_increment (p : Z) : Z := p + Size.
    Definition it_decrement (p : Z) : Z := p - Size.
    Definition it_add (p i : Z) : Z := p + i * Size.
    Definition it_sub (p i : Z) : Z := p - i * Size.
    (** 1776-1786: C++ division *)
    Definition it_distance (a b : Z) : Z := Z.quot (a - b) Size.
    (** 1632-1659 (NDEBUG), 1792-1810 *)
    Definition it_eq (a b : Z) : bool := a =? b.
    Definition it_ne (a b : Z) : bool := negb (it_eq a b).
    Definition it_lt (a b : Z) : bool := Size <=? b - a.
    Definition it_gt (a b : Z) : bool := Size <=? a - b.
    Definition it_le (a b : Z) : bool := Size - 1 <=? b - a.
    Definition it_ge (a b : Z) : bool := Size - 1 <=? a - b.

    (** 1767, 1812: it\[i\] = *( *this + i ): the temporary iterator at address [tmp] is destroyed on return *)
    Definition subscript (st : iterators) (m : memory (list A)) (it i tmp : Z) : option (reference * iterators) :=
      p <-- st it;
      let st1 := mem_set st tmp (it_add p i) in
      r <-- deref st1 m tmp;
      Some (r, fun a => if a =? tmp then None else st a).
    (** it\[i\] = x *)
    Definition subscript_assign (st : iterators) (m : memory (list A)) (it i tmp : Z) (x : adapter) : option (memory (list A)) :=
      rs <-- subscript st m it i tmp;
      ref_assign (snd rs) m (fst rs) x.
    (** *(it + i) = x: the temporary lives until the end of the expression *)
    Definition plus_assign (st : iterators) (m : memory (list A)) (it i tmp : Z) (x : adapter) : option (memory (list A)) :=
      p <-- st it;
      let st1 := mem_set st tmp (it_add p i) in
      r <-- deref st1 m tmp;
      ref_assign st1 m r x.

    (** for (it = first; it != last; ++it) f( *it );  the SIMD objects f is called with.  [goes_on] is the condition;
        [fuel] bounds the number of iterations. *)
    Fixpoint iterate (goes_on : Z -> Z -> bool) (fuel : nat) (m : memory (list A)) (it last : Z) : option (list adapter) :=
      if goes_on it last then
        match fuel with
        | O => None
        | Datatypes.S fuel' =>
            d <-- from_iterator m it;
            option_map (cons d) (iterate goes_on fuel' m (it_increment it) last)
        end
      else Some [].
  End Iterator.
End Adapter.

(** * The type transformation: simdize.h:153-512, 1829-1849 *)

(** Types: bool, the other arithmetic types, types that are not transformed, instances of the class template [c], and
    iterators over objects of a type *)
Inductive ty :=
| TBool
| TArith (e : etype)
| TOther (name : nat)
| TTemplate (c : nat) (args : list ty)
| TIterator (value : ty).
(** The results: an untransformed type; Vector<T> or SimdArray<T, n> with [n] entries; its mask type;
    Adapter<scalar, C<args...>, n>; Iterator over simdized objects *)
Inductive vty :=
| VPlain (t : ty)
| VVector (e : etype) (n : nat)
| VMask (e : etype) (n : nat)
| VAdapter (scalar : ty) (c : nat) (args : list vty) (n : nat)
| VIterator (value : vty) (n : nat).

Section Types.
  (** Vector<T>::Size *)
  Variable native_size : etype -> nat.

  (** simdize.h:348-350 size_or_0; the untransformed types are assumed to have no member Size *)
  Definition size_or_0 (v : vty) : nat :=
    match v with
    | VPlain _ => 0
    | VVector _ n | VMask _ n | VAdapter _ _ _ n | VIterator _ n => n
    end.
  Definition entries (N : nat) (e : etype) : nat := if Nat.eqb N 0 then native_size e else N.
  (** simdize.h:313-324: only vectors have a mask_type; None: does not compile *)
  Definition mask_type (N : nat) (mt : option ty) : option vty :=
    match mt with
    | None => Some (VMask Float (entries N Float))
    | Some (TArith e) => Some (VMask e (entries N e))
    | Some _ => None
    end.
  (** is_same<T, V> *)
  Definition is_same (v : vty) : bool := match v with VPlain _ => true | _ => false end.
  Definition is_bool (t : ty) : bool := match t with TBool => true | _ => false end.

  (** simdize<T, N, MT> = ReplaceTypes<T, N, MT>::type; None: does not compile.
      282-285 NoTransformation; 304-307 arithmetic types; 332-375, 453-469 SubstituteOneByOne: returns the final N and
      the list of replaced types; 493-512 class templates; 1546-1552, 1835-1849 iterators *)
  Fixpoint simdize (t : ty) (N : nat) (mt : option ty) : option vty :=
    match t with
    | TOther _ => Some (VPlain t)
    | TArith e => Some (VVector e (entries N e))
    | TBool => mask_type N mt
    | TTemplate c args =>
        r <-- (fix substitute (args : list ty) (N : nat) (mt : option ty) : option (nat * list vty) :=
                 match args with
                 | [] => Some (N, [])
                 | t :: rest =>
                     v <-- simdize t N mt;
                     let newN := if Nat.eqb N 0 then size_or_0 v else N in
                     let newMT := match mt with
                                  | None => if Nat.eqb N newN then None else Some (if is_bool t then TArith Float else t)
                                  | Some _ => mt
                                  end in
                     r <-- substitute rest newN newMT;
                     Some (fst r, v :: snd r)
                 end) args N mt;
        if forallb is_same (snd r) then Some (VPlain t) else Some (VAdapter t c (snd r) (fst r))
    | TIterator value =>
        v <-- simdize value N None;
        if Nat.eqb (size_or_0 v) 0 then None else Some (VIterator v (size_or_0 v))
    end.
End Types.
