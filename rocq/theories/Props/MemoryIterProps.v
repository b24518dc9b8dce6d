(** iteration over the vectors of a Memory object *)
From Coq Require Import ZArith List Bool Lia.
From Verif.Spec Require Import Seq MemSpec.
From Verif.Model Require Import Mem SimdArray MemoryClass MemoryIter.
Import ListNotations.
Local Open Scope Z_scope.
From Verif.Proof Require MemoryIterMain.

(** A loop from begin() to end() visits vector(0), vector(1), ..., each once and in this order; none if the object is empty. *)
Theorem C72_iterate :
forall (width : nat) (base count : Z),
  (0 < width)%nat -> Z.of_nat width < 2 ^ 63 -> 0 <= count -> count * Z.of_nat width < 2 ^ 63 ->
  exists steps, visited width steps (it_begin width base) (it_end width base count) = Some (tab (Z.to_nat count) (fun i => base + i * Z.of_nat width)).
Proof. exact MemoryIterMain.C72_iterate_main. Qed.
Print Assumptions C72_iterate.

Example C72_iterate_ex :
visited 4 3 (it_begin 4 1000) (it_end 4 1000 3) = Some [1000; 1004; 1008] /\ visited 4 0 (it_begin 4 1000) (it_end 4 1000 0) = Some [].
Proof.
split; vm_compute; reflexivity.
Qed.

(** A loop over range(first, last) visits vector(first), ..., vector(last), the last one included; none if last is first - 1,
also for first = 0. *)
Theorem C72_range :
forall (width : nat) (base first last : Z),
  (0 < width)%nat -> 0 <= first <= last + 1 -> (last + 1) * Z.of_nat width < 2 ^ 63 ->
  exists steps, visited width steps (range_begin width base (size_t first)) (range_end width base (size_t last)) =
    Some (tab (Z.to_nat (last + 1 - first)) (fun i => base + (first + i) * Z.of_nat width)).
Proof. exact MemoryIterMain.C72_range_main. Qed.
Print Assumptions C72_range.

Example C72_range_ex :
visited 4 9 (range_begin 4 1000 (size_t 2)) (range_end 4 1000 (size_t 4)) = Some [1008; 1012; 1016] /\
visited 4 9 (range_begin 4 1000 (size_t 0)) (range_end 4 1000 (size_t (-1))) = Some [].
Proof.
split; vm_compute; reflexivity.
Qed.

(** The values of the iterators are the vectors of the object, in order. *)
Theorem C72_read :
forall (A : Type) (width : nat) (m : memory A) (base : Z) (vs : list (list A)),
  (0 < width)%nat -> Z.of_nat width < 2 ^ 63 -> Forall (fun v => length v = width) vs -> Z.of_nat (length vs) * Z.of_nat width < 2 ^ 63 ->
  holds m base (concat vs) ->
  exists steps, read_all width steps m (it_begin width base) (it_end width base (Z.of_nat (length vs))) = Some vs.
Proof. exact MemoryIterMain.C72_read_main. Qed.
Print Assumptions C72_read.

Example C72_read_ex :
read_all 2 3 (fun a => Some (a * a)) (it_begin 2 10) (it_end 2 10 3) = Some [[100; 121]; [144; 169]; [196; 225]].
Proof.
vm_compute. reflexivity.
Qed.

(** A loop that assigns to every vector a function of it changes exactly the vectors of the object. *)
Theorem C72_update :
forall (A : Type) (width : nat) (f : list A -> list A) (m : memory A) (base : Z) (vs : list (list A)),
  (0 < width)%nat -> Z.of_nat width < 2 ^ 63 -> Forall (fun v => length v = width) vs -> Z.of_nat (length vs) * Z.of_nat width < 2 ^ 63 ->
  (forall v, length v = width -> length (f v) = width) -> holds m base (concat vs) ->
  exists steps m', update_all width steps f m (it_begin width base) (it_end width base (Z.of_nat (length vs))) = Some m' /\
    replaced m base (concat (map f vs)) m'.
Proof. exact MemoryIterMain.C72_update_main. Qed.
Print Assumptions C72_update.

Example C72_update_ex :
option_map (fun m' => map m' [9; 10; 11; 12; 13; 14]) (update_all 2 2 (map Z.opp) (fun a => Some a) (it_begin 2 10) (it_end 2 10 2)) =
  Some [Some 9; Some (-10); Some (-11); Some (-12); Some (-13); Some 14].
Proof.
vm_compute. reflexivity.
Qed.

(** Iterators to vectors i and j of an object: begin() + i is vector(i); the difference, the comparisons and the subscript agree with the
indexes; + and - , ++ and -- are inverse. *)
Theorem C72_random_access :
forall (A : Type) (width : nat) (m : memory A) (base i j : Z),
  (0 < width)%nat -> 0 <= i -> 0 <= j -> (i + j + 1) * Z.of_nat width < 2 ^ 63 ->
  let at_ := fun n => it_plus width (it_begin width base) n in
  at_ i = base + i * Z.of_nat width /\
  it_difference width (at_ i) (at_ j) = i - j /\
  (it_eq (at_ i) (at_ j) = true <-> i = j) /\ (it_lt (at_ i) (at_ j) = true <-> i < j) /\ (it_le (at_ i) (at_ j) = true <-> i <= j) /\
  it_at width m (at_ i) j = it_value width m (at_ (i + j)) /\
  it_plus width (at_ i) j = at_ (i + j) /\ it_minus width (at_ (i + j)) j = at_ i /\
  it_next width (at_ i) = at_ (i + 1) /\ it_prev width (at_ (i + 1)) = at_ i.
Proof. exact MemoryIterMain.C72_random_access_main. Qed.
Print Assumptions C72_random_access.

Example C72_random_access_ex :
it_difference 4 (it_plus 4 (it_begin 4 1000) 7) (it_plus 4 (it_begin 4 1000) 9) = -2 /\ it_at 2 (fun a => Some a) (it_plus 2 (it_begin 2 10) 3) 4 = Some [24; 25].
Proof.
split; vm_compute; reflexivity.
Qed.

(** The same loop over a two-dimensional object visits the rows in order, and in each row vector(0), vector(1), ... *)
Theorem C72_iterate_2d :
forall (k width rows : nat) (base columns : Z),
  width = (2 ^ k)%nat -> Z.of_nat width < 2 ^ 62 -> 0 <= columns < 2 ^ 62 -> Z.of_nat rows * padded_size width columns < 2 ^ 63 ->
  exists steps, visited width steps (it_begin width base) (it_end width base (vectors_count_2d width (Z.of_nat rows) columns)) =
    Some (concat (tab rows (fun x => tab (Z.to_nat (vectors_count width columns)) (fun j => row_base width base columns x + j * Z.of_nat width)))).
Proof. exact MemoryIterMain.C72_iterate_2d_main. Qed.
Print Assumptions C72_iterate_2d.

Example C72_iterate_2d_ex :
visited 4 6 (it_begin 4 100) (it_end 4 100 (vectors_count_2d 4 3 5)) = Some [100; 104; 108; 112; 116; 120].
Proof.
vm_compute. reflexivity.
Qed.
