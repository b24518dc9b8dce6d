(** deinterleave(V *a, V *b, const M *memory) (Vc/common/deinterleave.h:76-87, Vc/sse/deinterleave.tcc).
    Registers of the variants without conversion are lists of entries (as in Model/Interleave), those of the
    converting variants lists of bytes. *)
From Coq Require Import ZArith List Bool.
From Verif.Spec Require Import Seq.
From Verif.Model Require Import SimdArray Mem Word SseReg SseMove SseInt.
Import ListNotations.
Local Open Scope Z_scope.

Section SameType.
  Context {A : Type}.
  (** deinterleave.tcc:33-39 (float), 60-66 (int), 68-74 (unsigned int) *)
  Definition deinterleave_reg4 (a b : list A) : list A * list A :=
    let tmp0 := unpacklo 2 1 a b in
    let tmp1 := unpackhi 2 1 a b in
    (unpacklo 2 1 tmp0 tmp1, unpackhi 2 1 tmp0 tmp1).
  (** deinterleave.tcc:53-58 (double) *)
  Definition deinterleave_reg2 (a b : list A) : list A * list A :=
    let tmp := unpacklo 1 1 a b in
    (tmp, unpackhi 1 1 a b).
  (** deinterleave.tcc:76-84 (short), 86-94 (unsigned short) *)
  Definition deinterleave_reg8 (a b : list A) : list A * list A :=
    let tmp0 := unpacklo 4 1 a b in
    let tmp1 := unpackhi 4 1 a b in
    let tmp2 := unpacklo 4 1 tmp0 tmp1 in
    let tmp3 := unpackhi 4 1 tmp0 tmp1 in
    (unpacklo 4 1 tmp2 tmp3, unpackhi 4 1 tmp2 tmp3).
  (** deinterleave.tcc:114-120, 136-150, 159-165, 174-188: vectors with [n] entries *)
  Definition deinterleave_mem (n : nat) (m : memory A) (mem : Z) : option (list A * list A) :=
    a <-- mem_load m mem n;
    b <-- mem_load m (mem + Z.of_nat n) n;
    match n with
    | 8%nat => Some (deinterleave_reg8 a b)
    | 4%nat => Some (deinterleave_reg4 a b)
    | 2%nat => Some (deinterleave_reg2 a b)
    | _ => None
    end.
End SameType.

(** deinterleave.tcc:96-100: two int vectors from the register of a short vector *)
Definition deinterleave_short_int (tmp : reg) : reg * reg :=
  (srai_epi 4 (slli_epi 4 tmp 16) 16, srai_epi 4 tmp 16).
(** deinterleave.tcc:102-106: two unsigned int vectors from the register of an unsigned short vector *)
Definition deinterleave_ushort_uint (tmp : reg) : reg * reg :=
  (srli_epi 4 (slli_epi 4 tmp 16) 16, srli_epi 4 tmp 16).
(** deinterleave.tcc:152-157, 167-172 *)
Definition deinterleave_mem_short_int (m : memory (word 2)) (mem : Z) : option (reg * reg) :=
  tmp <-- mem_load m mem 8;
  Some (deinterleave_short_int (pack tmp)).
Definition deinterleave_mem_ushort_uint (m : memory (word 2)) (mem : Z) : option (reg * reg) :=
  tmp <-- mem_load m mem 8;
  Some (deinterleave_ushort_uint (pack tmp)).
