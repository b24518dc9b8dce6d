(** Machine words: the entries of integer (and the bit patterns of floating point) vectors.

    [word w] is the set of w-byte bit patterns, represented by their unsigned value.  Arithmetic on
    unsigned C++ types and the x86 packed integer instructions wrap modulo 2^(8w); the model of
    signed vector entries wraps as the hardware does (_mm_add_epi32 and friends). *)
From Coq Require Import ZArith List Bool Lia.
Import ListNotations.
Local Open Scope Z_scope.

Definition bits (w : nat) : Z := 8 * Z.of_nat w.
Definition modulus (w : nat) : Z := 2 ^ bits w.
Definition in_word (w : nat) (z : Z) : bool := (0 <=? z) && (z <? modulus w).

Definition word (w : nat) : Type := { z : Z | in_word w z = true }.

(** unsigned and signed (two's complement) value *)
Definition uval {w} (a : word w) : Z := proj1_sig a.
Definition to_signed (w : nat) (z : Z) : Z := if z <? modulus w / 2 then z else z - modulus w.
Definition sval {w} (a : word w) : Z := to_signed w (uval a).

Lemma mod_in_word w z : in_word w (z mod modulus w) = true.
Proof.
  unfold in_word. assert (0 < modulus w) by (unfold modulus, bits; apply Z.pow_pos_nonneg; lia).
  pose proof (Z.mod_pos_bound z (modulus w) ltac:(lia)). apply andb_true_intro.
  split; [apply Z.leb_le|apply Z.ltb_lt]; lia.
Qed.

(** the word with value [z] modulo 2^(8w) *)
Definition mkw (w : nat) (z : Z) : word w := exist _ (z mod modulus w) (mod_in_word w z).

Definition w0 (w : nat) : word w := mkw w 0.
Definition wadd {w} (a b : word w) : word w := mkw w (uval a + uval b).
Definition wsub {w} (a b : word w) : word w := mkw w (uval a - uval b).
Definition wmul {w} (a b : word w) : word w := mkw w (uval a * uval b).
Definition wand {w} (a b : word w) : word w := mkw w (Z.land (uval a) (uval b)).
Definition wor {w} (a b : word w) : word w := mkw w (Z.lor (uval a) (uval b)).
Definition wxor {w} (a b : word w) : word w := mkw w (Z.lxor (uval a) (uval b)).

(** orders of the unsigned and the signed element types *)
Definition le_u {w} (a b : word w) : bool := uval a <=? uval b.
Definition le_s {w} (a b : word w) : bool := sval a <=? sval b.

(** little-endian bytes *)
Fixpoint bytes (n : nat) (z : Z) : list Z :=
  match n with O => [] | S n' => z mod 256 :: bytes n' (z / 256) end.
Fixpoint of_bytes (bs : list Z) : Z :=
  match bs with [] => 0 | b :: bs' => b + 256 * of_bytes bs' end.
Definition enc {w} (a : word w) : list Z := bytes w (uval a).
Definition dec {w} (bs : list Z) : word w := mkw w (of_bytes bs).
