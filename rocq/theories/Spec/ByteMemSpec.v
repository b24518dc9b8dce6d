(** Numbers in a memory of bytes. *)
From Coq Require Import ZArith List Bool.
From Verif.Spec Require Import CastSpec.
From Verif.Model Require Import Word SseReg SseMove SortNet SseBuild SseInt Mem AvxReg AvxMove AvxShuffle AvxGather.
Import ListNotations.
Local Open Scope Z_scope.

(** every valid cell holds a byte *)
Definition byte_memory (m : memory Z) : Prop := forall a b, m a = Some b -> 0 <= b < 256.
(** the n bytes at address a are valid *)
Definition readable (m : memory Z) (a : Z) (n : nat) : Prop := forall i, 0 <= i < Z.of_nat n -> m (a + i) <> None.
(** the n bytes at address a hold the unsigned number v, least significant byte first *)
Definition number_at (m : memory Z) (a : Z) (n : nat) (v : Z) : Prop :=
  0 <= v < 2 ^ (8 * Z.of_nat n) /\ forall i, 0 <= i < Z.of_nat n -> m (a + i) = Some (v / 2 ^ (8 * i) mod 256).
(** an n byte number read as a signed number *)
Definition as_signed (n : nat) (v : Z) : Z := if v <? 2 ^ (8 * Z.of_nat n - 1) then v else v - 2 ^ (8 * Z.of_nat n).
(** the value of a signed or unsigned number of 1 or 2 bytes *)
Definition small_value (mt : small_type) (v : Z) : Z := if st_signed mt then as_signed (st_size mt) v else v.

(** the index vector holds the numbers zs *)
Inductive index_values : index_vec -> list Z -> Prop :=
| index_avx u (xs : list (elt u)) : is_integer u = true -> length xs = (32 / esize u)%nat ->
    index_values (IxAvx u (ypack xs)) (map (int_value u) xs)
| index_sse u (xs : list (elt u)) : is_integer u = true -> length xs = (16 / esize u)%nat ->
    index_values (IxSse u (pack xs)) (map (int_value u) xs).
