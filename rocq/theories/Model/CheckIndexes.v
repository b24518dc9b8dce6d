(** The assertion of debug builds that the indexes of an interleaved write are different. *)
From Coq Require Import ZArith List Bool.
From Verif.Spec Require Import Seq.
From Verif.Model Require Import SimdArray Word Fp SseReg SseMove SseInt SortNet SseBuild.
Import ListNotations.
Local Open Scope Z_scope.

(** interleavedmemory.h:119-135 CheckIndexesUnique<I>::test, used in debug builds before writing: does the assertion
    hold for the index vector [t] of an SSE build?  (SuccessiveEntries: always) *)
Definition check_indexes_unique (ssse3 : bool) (t : sa (elt Int)) : option bool :=
  test <-- sorted (sse_native 4) (sse_build ssse3 Int wadd) (w0 4) (e_min Int) (e_max Int) (e_top Int) t;
  rot <-- rotated (sse_native 4) (sse_build ssse3 Int wadd) (w0 4) test 1;
  Some (Nat.eqb (length (to_list t)) 1 || forallb negb (map2 (fun a b => uval a =? uval b) (to_list test) (to_list rot))).
