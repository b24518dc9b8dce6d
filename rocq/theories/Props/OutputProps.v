(** text written to streams *)
From Coq Require Import ZArith Bool Ascii String List Lia.
From Verif.Spec Require Import Seq OutputSpec.
From Verif.Model Require Import Mem SimdArray MemoryClass Output.
Import ListNotations.
Local Open Scope Z_scope.
From Verif.Proof Require OutputMain.

(** A vector is shown as [a, b, c]: every entry once and in order.  On a terminal the text also has escape
sequences, which show nothing. *)
Theorem C71_vector :
forall (A : Type) (fmt : A -> list ascii) (terminal : bool) (xs : list A),
  xs <> [] -> Forall (fun x => plain (fmt x)) xs ->
  exists t, print_vector terminal fmt xs = Some t /\
            visible t = bytes "[" ++ join (bytes ", ") (map fmt xs) ++ bytes "]" /\
            (terminal = false -> t = visible t).
Proof. exact OutputMain.C71_vector_main. Qed.
Print Assumptions C71_vector.

Example C71_vector_ex :
option_map string_of_list_ascii (print_vector false put_int [1; -20; 300; 0]) = Some "[1, -20, 300, 0]"%string.
Proof.
reflexivity.
Qed.

(** The numbers a vector of integers shows, also of the character types, are its entries. *)
Theorem C71_vector_numbers :
forall (character terminal : bool) (xs : list Z),
  xs <> [] ->
  exists t, print_vector terminal (put_entry_vector character) xs = Some t /\ numbers_shown t = map Some xs.
Proof. exact OutputMain.C71_vector_numbers_main. Qed.
Print Assumptions C71_vector_numbers.

Example C71_vector_numbers_ex :
option_map numbers_shown (print_vector true (put_entry_vector true) [65; -1; 27; 109]) = Some [Some 65; Some (-1); Some 27; Some 109].
Proof.
reflexivity.
Qed.

(** A mask is shown as m[1101 0]: one bit per entry, in order, with a space after each four. *)
Theorem C71_mask :
forall (terminal : bool) (m : list bool),
  exists t, print_mask terminal m = Some t /\
            visible t = bytes "m[" ++ join (bytes " ") (map (@concat ascii) (fours (map bit_text m))) ++ bytes "]" /\
            bits_shown t = m.
Proof. exact OutputMain.C71_mask_main. Qed.
Print Assumptions C71_mask.

Example C71_mask_ex :
option_map (fun t => string_of_list_ascii (visible t)) (print_mask true [true; true; false; true; false; false]) = Some "m[1101 00]"%string.
Proof.
reflexivity.
Qed.

(** A SimdArray is shown as <a b c d | e>: every entry once and in order. *)
Theorem C71_array :
forall (A : Type) (fmt : A -> list ascii) (zero : A) (terminal : bool) (v : sa A),
  to_list v <> [] -> Forall (fun x => plain (fmt x)) (to_list v) ->
  exists t, print_array terminal fmt zero v = Some t /\
            visible t = bytes "<" ++ join (bytes " | ") (map (join (bytes " ")) (fours (map fmt (to_list v)))) ++ bytes ">".
Proof. exact OutputMain.C71_array_main. Qed.
Print Assumptions C71_array.

Example C71_array_ex :
option_map string_of_list_ascii (print_array false put_int 0 (Node (Leaf [1; 2; 3; 4]) (Node (Leaf [-5; 6]) (Leaf [7])))) = Some "<1 2 3 4 | -5 6 7>"%string.
Proof.
reflexivity.
Qed.

(** The numbers shown by a SimdArray of integers that are not of a character type are its entries.  Missing: the
character types, see C71_array_numbers_refuted. *)
Theorem C71_array_numbers_partial :
forall (terminal : bool) (v : sa Z),
  to_list v <> [] ->
  exists t, print_array terminal (put_entry_array false) 0 v = Some t /\ numbers_shown t = map Some (to_list v).
Proof. exact OutputMain.C71_array_numbers_partial_main. Qed.
Print Assumptions C71_array_numbers_partial.

Example C71_array_numbers_partial_ex :
option_map numbers_shown (print_array true (put_entry_array false) 0 (Node (Leaf [1; 2; 3; 4]) (Leaf [50]))) = Some (map Some [1; 2; 3; 4; 50]).
Proof.
reflexivity.
Qed.

(** A SimdArray of signed char shows the characters instead: the array of entries 65 shows no number, and 49 shows 1. *)
Theorem C71_array_numbers_refuted :
~ (forall (character terminal : bool) (v : sa Z),
     to_list v <> [] ->
     exists t, print_array terminal (put_entry_array character) 0 v = Some t /\ numbers_shown t = map Some (to_list v)).
Proof. exact OutputMain.C71_array_numbers_refuted_main. Qed.
Print Assumptions C71_array_numbers_refuted.

(** A SimdMaskArray is shown as a SimdArray of bits between guillemets. *)
Theorem C71_mask_array :
forall (terminal : bool) (k : sa bool),
  exists t, print_mask_array terminal k = Some t /\
            visible t = [ascii_of_N 194; ascii_of_N 171] ++ join (bytes " ") (map (@concat ascii) (fours (map bit_text (to_list k)))) ++ [ascii_of_N 194; ascii_of_N 187] /\
            bits_shown t = to_list k.
Proof. exact OutputMain.C71_mask_array_main. Qed.
Print Assumptions C71_mask_array.

Example C71_mask_array_ex :
option_map bits_shown (print_mask_array true (Node (Leaf [true; true; false; true]) (Leaf [false]))) = Some [true; true; false; true; false].
Proof.
reflexivity.
Qed.

(** A one-dimensional Memory of fewer than 2^32 vectors shows all its vectors in order, padding included.
Missing: larger objects, see C71_memory_refuted. *)
Theorem C71_memory_partial :
forall (A : Type) (fmt : A -> list ascii) (terminal : bool) (width : nat) (m : memory A) (base : Z) (vs : list (list A)),
  (0 < width)%nat -> Forall (fun v => length v = width) vs ->
  Z.of_nat (length vs) < 2 ^ 32 -> Z.of_nat (length vs) * Z.of_nat width < 2 ^ 63 ->
  Forall (fun v => Forall (fun x => plain (fmt x)) v) vs ->
  mem_load m base (length (concat vs)) = Some (concat vs) ->
  exists steps t, print_memory terminal fmt width steps m base (Z.of_nat (length vs)) = Some t /\
    visible t = bytes "{" ++ concat (map (fun v => bytes "[" ++ join (bytes ", ") (map fmt v) ++ bytes "]") vs) ++ bytes "}".
Proof. exact OutputMain.C71_memory_partial_main. Qed.
Print Assumptions C71_memory_partial.

Example C71_memory_partial_ex :
option_map string_of_list_ascii (print_memory false put_int 2 2 (fun a => if (100 <=? a) && (a <? 104) then Some (a - 99) else None) 100 2) = Some "{[1, 2][3, 4]}"%string.
Proof.
reflexivity.
Qed.

(** The numbers it shows are the contents of all its cells. *)
Theorem C71_memory_numbers_partial :
forall (terminal : bool) (width : nat) (m : memory Z) (base : Z) (vs : list (list Z)),
  (0 < width)%nat -> Forall (fun v => length v = width) vs ->
  Z.of_nat (length vs) < 2 ^ 32 -> Z.of_nat (length vs) * Z.of_nat width < 2 ^ 63 ->
  mem_load m base (length (concat vs)) = Some (concat vs) ->
  exists steps t, print_memory terminal put_int width steps m base (Z.of_nat (length vs)) = Some t /\
    numbers_shown t = map Some (concat vs).
Proof. exact OutputMain.C71_memory_numbers_partial_main. Qed.
Print Assumptions C71_memory_numbers_partial.

Example C71_memory_numbers_partial_ex :
option_map numbers_shown (print_memory true put_int 2 2 (fun a => if (100 <=? a) && (a <? 104) then Some (99 - a) else None) 100 2) = Some (map Some [-1; -2; -3; -4]).
Proof.
reflexivity.
Qed.

(** Writing a one-dimensional Memory of 2^32 or more vectors never ends: the loop counter is an unsigned int. *)
Theorem C71_memory_refuted :
forall (A : Type) (fmt : A -> list ascii) (terminal : bool) (width steps : nat) (m : memory A) (base count : Z),
  2 ^ 32 <= count -> print_memory terminal fmt width steps m base count = None.
Proof. exact OutputMain.C71_memory_refuted_main. Qed.
Print Assumptions C71_memory_refuted.

(** The text shows more numbers than the Memory has entries: five entries in vectors of four are shown as eight. *)
Theorem C71_memory_entries_refuted :
~ (forall (width : nat) (m : memory Z) (base size : Z) (xs : list Z) steps t,
     (0 < width)%nat -> 0 < size -> Z.of_nat (length xs) = size -> mem_load m base (length xs) = Some xs ->
     print_memory false put_int width steps m base (vectors_count width size) = Some t ->
     numbers_shown t = map Some xs).
Proof. exact OutputMain.C71_memory_entries_refuted_main. Qed.
Print Assumptions C71_memory_entries_refuted.

(** A two-dimensional Memory shows its rows from top to bottom, each on a line of its own, and of each row all vectors. *)
Theorem C71_memory_2d :
forall (A : Type) (fmt : A -> list ascii) (terminal : bool) (k width : nat) (m : memory A) (base columns : Z) (rows : list (list (list A))),
  width = (2 ^ k)%nat -> Z.of_nat width < 2 ^ 62 -> 0 <= columns < 2 ^ 62 -> rows <> [] ->
  Forall (fun row => Z.of_nat (length row) = vectors_count width columns /\
                     Forall (fun v => length v = width /\ Forall (fun x => plain (fmt x)) v) row) rows ->
  mem_load m base (length (concat (map (@concat A) rows))) = Some (concat (map (@concat A) rows)) ->
  exists t, print_memory_2d terminal fmt width (length rows) m base columns = Some t /\
    visible t = bytes "{" ++
      join (newline :: bytes " ") (map (fun row => concat (map (fun v => bytes "[" ++ join (bytes ", ") (map fmt v) ++ bytes "]") row)) rows) ++
      bytes "}".
Proof. exact OutputMain.C71_memory_2d_main. Qed.
Print Assumptions C71_memory_2d.

Example C71_memory_2d_ex :
option_map string_of_list_ascii (print_memory_2d false put_int 2 2 (fun a => if (0 <=? a) && (a <? 8) then Some (10 * a) else None) 0 3)
  = Some (string_of_list_ascii (bytes "{[0, 10][20, 30]" ++ newline :: bytes " [40, 50][60, 70]}")).
Proof.
reflexivity.
Qed.

(** On a terminal the last thing written is the sequence that switches the colours off again. *)
Theorem C71_colours_end :
forall (A : Type) (fmt : A -> list ascii) (zero : A) (t : list ascii),
  ((exists xs, print_vector true fmt xs = Some t) \/ (exists v, print_array true fmt zero v = Some t) \/
   (exists m, print_mask true m = Some t) \/ (exists k, print_mask_array true k = Some t) \/
   (exists width steps m base count, print_memory true fmt width steps m base count = Some t) \/
   (exists width rows m base columns, print_memory_2d true fmt width rows m base columns = Some t)) ->
  exists before, t = before ++ ascii_of_N 27 :: bytes "[0m".
Proof. exact OutputMain.C71_colours_end_main. Qed.
Print Assumptions C71_colours_end.

Example C71_colours_end_ex :
print_mask true [true] = Some (ascii_of_N 27 :: bytes "[1;40;34mm[" ++ ascii_of_N 27 :: bytes "[1;40;33m1" ++ ascii_of_N 27 :: bytes "[1;40;34m]" ++ ascii_of_N 27 :: bytes "[0m").
Proof.
reflexivity.
Qed.

(** The documentation of operator<< for Memory shows the vectors of Memory<int_v, 10> with spaces between them: {[0, 1, 2, 3] [4,
5, 6, 7] [8, 9, 0, 0]}.  None are written. *)
Theorem C71_memory_doc_refuted :
let m : memory Z := fun a => if (0 <=? a) && (a <? 12) then Some (if a <? 10 then a else 0) else None in
  option_map string_of_list_ascii (print_memory false put_int 4 3 m 0 3) = Some "{[0, 1, 2, 3][4, 5, 6, 7][8, 9, 0, 0]}"%string.
Proof. exact OutputMain.C71_memory_doc_refuted_main. Qed.
Print Assumptions C71_memory_doc_refuted.
