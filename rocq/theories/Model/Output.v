(** Writing vectors, masks and Memory objects to a stream (Vc/IO).
    A text is the list of bytes sent to the stream.  Simplifications: the stream never fails and has its
    default format flags; [None] is an access outside an object, or a loop that does not end within the
    steps it is given. *)
From Coq Require Import ZArith List Bool Ascii String.
From Verif.Spec Require Import OutputSpec.
From Verif.Model Require Import Mem SimdArray MemoryClass.
Import ListNotations.
Local Open Scope Z_scope.

Notation text := (list ascii).
Definition lit (s : string) : text := list_ascii_of_string s.
Definition chr (n : N) : ascii := ascii_of_N n.

(** std::ostream::operator<<(integer), base 10: the digits by repeated division; [fuel] bounds their
    number *)
Fixpoint digits (fuel : nat) (z : Z) : text :=
  match fuel with
  | O => []
  | S fuel' => (if z <? 10 then [] else digits fuel' (z / 10)) ++ [chr (Z.to_N (48 + z mod 10))]
  end.
Definition put_int (z : Z) : text :=
  if z <? 0 then "-"%char :: digits (S (Z.to_nat (Z.log2 (- z)))) (- z) else digits (S (Z.to_nat (Z.log2 z))) z.
(** std::operator<<(ostream, signed char) and unsigned char: the byte itself *)
Definition put_char (z : Z) : text := [chr (Z.to_N (z mod 256))].

(** IO:73-82 *)
Definition escape (code : string) : text := chr 27 :: lit code.
Definition green : text := escape "[1;40;32m".
Definition yellow : text := escape "[1;40;33m".
Definition blue : text := escape "[1;40;34m".
Definition normal : text := escape "[0m".

(** "for (i = first; i < first + n; ++i) out << ...": the texts of the steps in order *)
Fixpoint for_each (n : nat) (i : Z) (body : Z -> option text) : option text :=
  match n with
  | O => Some []
  | S n' => a <-- body i; b <-- for_each n' (i + 1) body; Some (a ++ b)
  end.

Section Stream.
  (** IO:55-69: [terminal] is mayUseColor(out) *)
  Context (terminal : bool).
  (** IO:84-90 *)
  Definition color (c : text) : text := if terminal then c else [].

  (** IO:116-131: v[i] is [at_ i]; [fmt] writes one entry (of type TT) *)
  Definition put_vector {A} (fmt : A -> text) (n : nat) (at_ : Z -> option A) : option text :=
    a <-- at_ 0;
    rest <-- for_each (n - 1) 1 (fun i => x <-- at_ i; Some (lit ", " ++ fmt x));
    Some (color green ++ lit "[" ++ fmt a ++ rest ++ lit "]" ++ color normal).

  (** the loops of IO:160-169 and 252-261 *)
  Definition put_bits (n : nat) (at_ : Z -> option bool) : option text :=
    for_each n 0 (fun i =>
      b <-- at_ i;
      Some ((if (0 <? i) && (i mod 4 =? 0) then lit " " else []) ++
            (if b then color yellow ++ lit "1" else color blue ++ lit "0"))).
  (** IO:156-172 *)
  Definition put_mask (n : nat) (at_ : Z -> option bool) : option text :=
    bits <-- put_bits n at_;
    Some (color blue ++ lit "m[" ++ bits ++ color blue ++ lit "]" ++ color normal).
  (** IO:248-263; the guillemets are encoded in UTF-8 *)
  Definition put_mask_array (n : nat) (at_ : Z -> option bool) : option text :=
    bits <-- put_bits n at_;
    Some (color blue ++ [chr 194; chr 171] ++ bits ++ color blue ++ [chr 194; chr 187] ++ color normal).

  (** IO:237-246 *)
  Definition put_array {A} (fmt : A -> text) (n : nat) (at_ : Z -> option A) : option text :=
    a <-- at_ 0;
    rest <-- for_each (n - 1) 1 (fun i =>
      x <-- at_ i;
      Some ((if i mod 4 =? 0 then lit " |" else []) ++ lit " " ++ fmt x));
    Some (color green ++ lit "<" ++ fmt a ++ rest ++ lit ">" ++ color normal).

  (** IO:208-217: the loop counter is an unsigned int, vectorsCount() a size_t; [vec i] is the text of
      vector(i).  [steps] bounds the number of steps. *)
  Fixpoint put_vectors32 (steps : nat) (i count : Z) (vec : Z -> option text) : option text :=
    if i <? count then
      match steps with
      | O => None
      | S steps' =>
          a <-- vec i;
          b <-- put_vectors32 steps' ((i + 1) mod 2 ^ 32) count vec;
          Some (a ++ b)
      end
    else Some [].
  Definition put_memory (steps : nat) (count : Z) (vec : Z -> option text) : option text :=
    vs <-- put_vectors32 steps 0 count vec;
    Some (color blue ++ lit "{" ++ color normal ++ vs ++ color blue ++ lit "}" ++ color normal).

  (** IO:219-234: [vec i j] is the text of m[i].vector(j) *)
  Definition put_memory_2d (rows count : nat) (vec : Z -> Z -> option text) : option text :=
    rs <-- for_each rows 0 (fun i =>
      vs <-- for_each count 0 (fun j => vec i j);
      Some ((if 0 <? i then chr 10 :: lit " " else []) ++ vs));
    Some (color blue ++ lit "{" ++ color normal ++ rs ++ color blue ++ lit "}" ++ color normal).
End Stream.

(** The entry types.  IO:119-123: Vector writes entries of the character types as int; SimdArray writes
    them as they are. *)
Definition put_entry_vector (character : bool) : Z -> text := put_int.
Definition put_entry_array (character : bool) : Z -> text := if character then put_char else put_int.

(** The objects.  A native vector or mask is the list of its entries. *)
Definition print_vector (terminal : bool) {A} (fmt : A -> text) (xs : list A) : option text :=
  put_vector terminal fmt (List.length xs) (entry_at xs).
Definition print_mask (terminal : bool) (m : list bool) : option text := put_mask terminal (List.length m) (entry_at m).
Definition print_array (terminal : bool) {A} (fmt : A -> text) (zero : A) (t : sa A) : option text :=
  put_array terminal fmt (size t) (get zero t).
Definition print_mask_array (terminal : bool) (t : sa bool) : option text := put_mask_array terminal (size t) (get false t).
(** IO:212-214, "out << V(m.vector(i))"; [count] is vectorsCount() *)
Definition print_memory (terminal : bool) {A} (fmt : A -> text) (width steps : nat) (m : memory A) (base count : Z) : option text :=
  put_memory terminal steps count (fun i => x <-- load_vector width m base i; print_vector terminal fmt x).
(** IO:227-230; m[i] is the i-th row of [columns] entries (memorybase.h:332-338) *)
Definition print_memory_2d (terminal : bool) {A} (fmt : A -> text) (width rows : nat) (m : memory A) (base columns : Z) : option text :=
  put_memory_2d terminal rows (Z.to_nat (vectors_count width columns))
    (fun i j => x <-- load_vector width m (row_base width base columns i) j; print_vector terminal fmt x).
