(** Bit scans (Vc/common/bitscanintrinsics.h) and iteration over the set entries of a mask
    (class BitmaskIterator, Vc/common/iterators.h:151-200, 244-254). *)
From Coq Require Import ZArith List Bool.
Import ListNotations.
Local Open Scope Z_scope.

(** Number of trailing zero bits of a positive number. *)
Fixpoint ctz_pos (p : positive) : Z :=
  match p with
  | xO q => 1 + ctz_pos q
  | _ => 0
  end.

(** __builtin_ctzl / __builtin_ctz / bsf: [None] (undefined result) for 0.  iterators.h:164,
    bitscanintrinsics.h:34, gatherimplementation.h:100 *)
Definition bit_scan_forward (x : Z) : option Z :=
  match x with Zpos p => Some (ctz_pos p) | _ => None end.
(** bsr: index of the highest set bit; undefined for 0.  bitscanintrinsics.h:36-41 *)
Definition bit_scan_reverse (x : Z) : option Z :=
  match x with Zpos p => Some (Z.log2 (Zpos p)) | _ => None end.
(** btr i,x: clear bit i. *)
Definition bit_reset (x i : Z) : Z := Z.ldiff x (2 ^ i).

(** [int] values are kept as their bit pattern 0 <= v < 2^32; this is the value as size_t after the
    conversion int -> size_t (sign extension). *)
Definition int_to_size_t (v : Z) : Z := if v <? 2 ^ 31 then v else (v - 2 ^ 32) mod 2 ^ 64.

(** iterators.h:151-200.  [it_bit] is the value of the member [bit]; None if it is undefined because
    nextBit() ran __builtin_ctzl(0). *)
Record bitmask_iterator := { it_mask : Z; it_bit : option Z }.
(** iterators.h:188, 161-170 *)
Definition it_make (m : Z) : bitmask_iterator := {| it_mask := m; it_bit := bit_scan_forward m |}.
(** iterators.h:195, 171-186: resetLsb(); nextBit() *)
Definition it_next (it : bitmask_iterator) : bitmask_iterator :=
  it_make (Z.land (it_mask it) ((it_mask it - 1) mod 2 ^ 64)).
(** iterators.h:198-199 *)
Definition it_eq (a b : bitmask_iterator) : bool := it_mask a =? it_mask b.

(** iterators.h:244-254 begin(where(mask)), end(where(mask)); the argument is mask.toInt(). *)
Definition where_begin (mask_int : Z) : bitmask_iterator := it_make (int_to_size_t mask_int).
Definition where_end : bitmask_iterator := it_make 0.

(** The values of i in [for (size_t i : where(mask))], in order; None: an undefined index was used or
    the loop did not end within [fuel] steps. *)
Fixpoint where_loop (fuel : nat) (it : bitmask_iterator) : option (list Z) :=
  if it_eq it where_end then Some []
  else match fuel with
       | O => None
       | S fuel' =>
           match it_bit it with
           | None => None
           | Some i => option_map (cons i) (where_loop fuel' (it_next it))
           end
       end.
Definition where_indices (mask_int : Z) : option (list Z) := where_loop 64 (where_begin mask_int).
