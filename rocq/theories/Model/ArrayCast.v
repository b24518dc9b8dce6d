(** Model of simd_cast from and to SimdArray and SimdMaskArray (Vc/common/simdarray.h:1882-2539) and of the
    conversions of SimdArray that use it (simdarray.h:174-226, 845-871, simdarrayhelper.h:130-154, 215-330,
    simd_cast_caller.tcc, simdmaskarray.h:395-414).

    The overloads are selected at compile time from the sizes; here they are branches on the sizes.  [None]: no
    overload is viable, the program does not compile.  Simplifications: element types are arbitrary Coq types A (of
    the argument) and B (of the result); the vectors and the masks, which are written with the same macros, share the
    definitions (for masks the entries are booleans); of the arguments, which have the same type, only the contents
    are passed. *)
From Coq Require Import ZArith List Bool Arith.
From Verif.Model Require Import SplitSize SimdArray SimdArrayOps.
From Verif.Spec Require Import Seq.
Import ListNotations.
Local Open Scope nat_scope.

(** What a build provides for the native vectors: simd_cast<To>(xs...) and simd_cast<To, offset>(x), the To of the
    given size, static_cast of one entry, and whether the entry types are the same type. *)
Record cast_ops (A B : Type) := {
  c_many : nat -> list (list A) -> option (list B);
  c_offset : nat -> nat -> list A -> option (list B);
  c_entry : A -> B;
  c_same : bool
}.
Arguments c_many {A B}. Arguments c_offset {A B}. Arguments c_entry {A B}. Arguments c_same {A B}.

(** The template parameter Return: a native vector or a SimdArray with the given number of entries *)
Inductive target := ToVector (m : nat) | ToArray (m : nat).
Definition target_size (r : target) : nat := match r with ToVector m => m | ToArray m => m end.

(** The arguments: native vectors (written as leaves) or SimdArrays *)
Inductive origin := FromVector | FromArray.

(** simdarray.h:2067-2069 is_power_of_2 *)
Definition is_power_of_2 (n : nat) : bool := Z.eqb (Z.land (Z.of_nat n - 1) (Z.of_nat n)) 0.

Section Cast.
  Context {A B : Type} (native_from native_to : nat -> bool) (moves : native_ops A) (ops : cast_ops A B).
  Context (zeroA : A) (zeroB : B).

  Fixpoint sa_map (t : sa A) : sa B :=
    match t with Leaf xs => Leaf (map (c_entry ops) xs) | Node l r => Node (sa_map l) (sa_map r) end.
  Definition pair_up (l r : option (sa B)) : option (sa B) :=
    match l, r with Some l, Some r => Some (Node l r) | _, _ => None end.

  (** Return(0), Return() *)
  Definition zero_target (r : target) : sa B :=
    match r with ToVector m => Leaf (repeat zeroB m) | ToArray m => zeros native_to zeroB m end.
  (** for (i = from; i < to; ++i) r[i] = static_cast<EntryType>(x[i - from + first]) *)
  Definition copy_entries (from to first : nat) (x : sa A) (r : sa B) : sa B :=
    fold_left (fun r i => set r (Z.of_nat i) (c_entry ops (znth zeroA (to_list x) (Z.of_nat (i - from + first))))) (seq from (to - from)) r.

  (** simdarray.h:2395-2426 simd_cast_drop_arguments: the arguments that are left when simd_cast is called *)
  Fixpoint drop_arguments (fuel size m : nat) (xs : list (sa A)) : list (sa A) :=
    match fuel with
    | O => xs
    | S fuel' => if (2 <=? length xs) && (m <=? (length xs - 1) * size) then drop_arguments fuel' size m (removelast xs) else xs
    end.

  (** simdarray.h:2497-2539 simd_cast_interleaved_argument_order of the data0 and the data1 of all arguments *)
  Definition interleaved_halves (xs : list (sa A)) : option (list (sa A)) :=
    fold_right (fun x r => match x, r with Node l h, Some r => Some (l :: h :: r) | _, _ => None end) (Some []) xs.

  Definition size_of_first (xs : list (sa A)) : nat := match xs with [] => 0 | x :: _ => size x end.
  Definition leaf_of (x : sa A) : list A := to_list x.
  Definition atomic (x : sa A) : bool := match x with Leaf _ => true | Node _ _ => false end.

  (** [fuel] bounds the depth of the template instantiation. *)
  Fixpoint cast_many (fuel : nat) (o : origin) (r : target) (xs : list (sa A)) {struct fuel} : option (sa B) :=
    match fuel with
    | O => None
    | S fuel' =>
      let n := length xs in
      let size0 := size_of_first xs in
      let m := target_size r in
      match xs with
      (* common/simd_cast.h:64 *)
      | [] => Some (zero_target r)
      | x0 :: others =>
        match o with
        | FromVector =>
          match r with
          | ToVector m => option_map Leaf (c_many ops m (map leaf_of xs))
          | ToArray m =>
            if native_to m then
              (* 2073-2084 {1} and 2085-2096 {2} *)
              if size0 * (n - 1) <? m then option_map Leaf (c_many ops m (map leaf_of xs))
              else cast_many fuel' FromVector r (removelast xs)
            else if left_size m <? size0 * n then
              (* 2097-2113 {3} *)
              pair_up (cast_many fuel' FromVector (ToArray (left_size m)) (drop_arguments n size0 (left_size m) xs))
                      (with_offset fuel' FromVector (ToArray (right_size m)) (left_size m) xs)
            else
              (* 2114-2129 {4} *)
              pair_up (cast_many fuel' FromVector (ToArray (left_size m)) xs) (Some (zeros native_to zeroB (right_size m)))
          end
        | FromArray =>
          (* common/simd_cast.h:50-55 *)
          if c_same ops && (n =? 1) && match r with ToArray m => m =? size0 | ToVector _ => false end then Some (sa_map x0)
          else match x0 with
          | Leaf _ =>
            if c_same ops && match r with ToArray m => m =? size0 | ToVector _ => false end then None
            (* 2192-2202 indivisible, 2204-2217 indivisible2 *)
            else if (n =? 1) || (size0 * (n - 1) <? m) then cast_many fuel' FromVector r xs
            else cast_many fuel' FromVector r (removelast xs)
          | Node l h =>
            if is_power_of_2 size0 then
              (* 2275-2282, 2283-2291 single bisectable *)
              if (n =? 1) && (2 * m <=? size0) then cast_many fuel' FromArray r [l]
              else if (n =? 1) && (m <? size0) then cast_many fuel' FromArray r [l; h]
              (* 2219-2233 bisectable, 2236-2247 bisectable2 *)
              else if size0 * (n - 1) <? m then
                match interleaved_halves xs with Some ys => cast_many fuel' FromArray r ys | None => None end
              else cast_many fuel' FromArray r (removelast xs)
            else
              (* 2249-2260 remaining with 1882-1900, 2262-2273 remaining2 with 1901-1919 *)
              match cast_many fuel' FromArray r (removelast xs) with
              | None => None
              | Some y =>
                let last := List.last xs x0 in
                if size0 * n <=? m then Some (copy_entries (size0 * (n - 1)) (size0 * n) 0 last y)
                else Some (copy_entries (size0 * (n - 1)) m 0 last y)
              end
          end
        end
      end
    end

  (** simd_cast<Return, offset>(x) *)
  with cast_offset (fuel : nat) (o : origin) (r : target) (k : nat) (x : sa A) {struct fuel} : option (sa B) :=
    match fuel with
    | O => None
    | S fuel' =>
      let m := target_size r in
      match o with
      | FromVector =>
        match r with
        | ToVector m => option_map Leaf (c_offset ops m k (leaf_of x))
        | ToArray m =>
          (* 2139-2146 *)
          if native_to m then option_map Leaf (c_offset ops m k (leaf_of x))
          (* 2148-2165 *)
          else if m * k + left_size m <? size x then
            pair_up (with_offset fuel' FromVector (ToArray (left_size m)) (k * m) [x])
                    (with_offset fuel' FromVector (ToArray (right_size m)) (k * m + left_size m) [x])
          (* 2168-2182 *)
          else
            pair_up (with_offset fuel' FromVector (ToArray (left_size m)) (k * m) [x]) (Some (zeros native_to zeroB (right_size m)))
        end
      | FromArray =>
        (* 2315-2322 *)
        if k =? 0 then cast_many fuel' FromArray r [x]
        else match x with
        (* 2324-2330 *)
        | Leaf _ => cast_offset fuel' FromVector r k x
        | Node l h =>
          let left := left_size (size x) in
          (* 2332-2343, 2346-2358 *)
          if left <=? k * m then
            if left mod m =? 0 then cast_offset fuel' FromArray r (k - left / m) h
            else with_offset fuel' FromArray r (k * m - left) [h]
          (* 2360-2370 *)
          else if (k + 1) * m <=? left then cast_offset fuel' FromArray r k l
          (* 2372-2388 *)
          else Some (copy_entries 0 (Nat.min (size x) ((k + 1) * m) - k * m) (k * m) x (zero_target r))
        end
      end
    end

  (** simdarray.h:1965-2009, 2429-2469 simd_cast_with_offset *)
  with with_offset (fuel : nat) (o : origin) (r : target) (off : nat) (xs : list (sa A)) {struct fuel} : option (sa B) :=
    match fuel with
    | O => None
    | S fuel' =>
      let m := target_size r in
      match xs with
      | [] => None
      | x :: others =>
        if off =? 0 then cast_many fuel' o r xs
        else if size x <=? off then
          match others with [] => Some (zero_target r) | _ => with_offset fuel' o r (off - size x) others end
        else match others with
        | _ :: _ => None
        | [] =>
          if off mod m =? 0 then cast_offset fuel' o r (off / m) x
          else match r with
          | ToVector _ => None
          | ToArray m =>
            if native_to m then
              match match o with FromVector => Some (Leaf (n_shifted moves (leaf_of x) (Z.of_nat (off mod m))))
                               | FromArray => shifted native_from moves zeroA x (Z.of_nat (off mod m)) end with
              | Some y => cast_offset fuel' o r (off / m) y
              | None => None
              end
            else pair_up (with_offset fuel' o (ToArray (left_size m)) off [x])
                         (with_offset fuel' o (ToArray (right_size m)) (off + left_size m) [x])
          end
        end
      end
    end.

  Definition cast_fuel (r : target) (xs : list (sa A)) : nat := 10 * (fold_right (fun x s => size x + s) 0 xs + target_size r) + 10.
  (** simd_cast<Return>(xs...) and simd_cast<Return, k>(x) for SimdArrays *)
  Definition array_cast (r : target) (xs : list (sa A)) : option (sa B) := cast_many (cast_fuel r xs) FromArray r xs.
  Definition array_cast_offset (r : target) (k : nat) (x : sa A) : option (sa B) := cast_offset (cast_fuel r [x]) FromArray r k x.
  (** the same for native vectors *)
  Definition vector_cast (r : target) (xs : list (list A)) : option (sa B) := cast_many (cast_fuel r (map Leaf xs)) FromVector r (map Leaf xs).
  Definition vector_cast_offset (r : target) (k : nat) (x : list A) : option (sa B) := cast_offset (cast_fuel r [Leaf x]) FromVector r k (Leaf x).

  (** The constructors of an atomic SimdArray and of a SimdArray with two members from Common::Segment:
      simdarray.h:196-200, 854-859, simd_cast_caller.tcc:60-66 *)
  Fixpoint from_segment (fuel m index : nat) (x : list A) : option (sa B) :=
    match fuel with
    | O => None
    | S fuel' =>
      if native_to m then option_map Leaf (c_offset ops m index x)
      else pair_up (from_segment fuel' (left_size m) (2 * index) x) (from_segment fuel' (right_size m) (2 * index + 1) x)
    end.

  (** The members a SimdArray consists of, all of the same type in the functions below *)
  Fixpoint leaves (t : sa A) : list (list A) := match t with Leaf xs => [xs] | Node l r => leaves l ++ leaves r end.

  (** The converting constructor SimdArray<T, m>(const SimdArray<U, m> &): simdarray.h:174-194 (atomic), 845-852 with
      Split::lo and hi, simdarrayhelper.h:218-257; SimdMaskArray: simd_cast_caller.tcc:34-56, simdmaskarray.h:388-397 *)
  Fixpoint construct (fuel m : nat) (x : sa A) : option (sa B) :=
    match fuel with
    | O => None
    | S fuel' =>
      if native_to m then
        match x with
        | Leaf xs => option_map Leaf (c_many ops m [xs])
        | Node (Leaf a) (Leaf b) => option_map Leaf (c_many ops m [a; b])
        | Node (Node (Leaf a) (Leaf b)) (Node (Leaf c) (Leaf d)) => option_map Leaf (c_many ops m [a; b; c; d])
        | _ => None
        end
      else
        match x with
        | Node l h => pair_up (construct fuel' (left_size m) l) (construct fuel' (right_size m) h)
        | Leaf xs => pair_up (from_segment fuel' (left_size m) 0 xs) (from_segment fuel' (right_size m) 1 xs)
        end
    end.
  Definition converted (m : nat) (x : sa A) : option (sa B) := construct (S m) m x.

  (** The conversion operator to a native vector of the same size: simdarray.h:219-226, 863-871,
      simdmaskarray.h:118-126, 408-414 *)
  Definition to_native (m : nat) (x : sa A) : option (sa B) :=
    match x with
    | Leaf xs => option_map Leaf (c_many ops m [xs])
    | Node l h => array_cast (ToVector m) [l; h]
    end.
End Cast.
