(** spans: parts, subscripts, iteration, comparison *)
From Coq Require Import ZArith List Bool Lia.
From Verif.Spec Require Import Seq SpanSpec.
From Verif.Model Require Import Span.
Import ListNotations.
Local Open Scope Z_scope.
From Verif.Proof Require SpanMain.

(** C66: a chain of first, last and subspan calls, with static or dynamic arguments on spans with static or dynamic extent, refers
to exactly the part of the original sequence that the calls name, whenever each call is in the range of the span before; the
result is the same with and without assertions. *)
Theorem C66_parts :
  forall chk s cs, (extent s = None \/ extent s = Some (count s)) -> 0 <= size s -> all_in_range cs (size s) ->
    exists s', run_all chk s cs = Some s' /\ forward s' = parts cs (forward s).
Proof. exact SpanMain.C66_parts_main. Qed.
Print Assumptions C66_parts.

Example C66_parts_ex :
  let s := {| data := 100; count := 10; extent := Some 10 |} in
  let cs := [SubspanT 2 (-1); Last 6; Subspan 1 4; FirstT 3] in
  all_in_range cs (size s) /\ option_map forward (run_all true s cs) = Some [105; 106; 107] /\ parts cs (forward s) = [105; 106; 107].
Proof.
  vm_compute. repeat split; congruence.
Qed.

(** C66: with assertions a call that is not in range does not return (or compile), so that no chain leaves the original
sequence.  Missing: subspan<o, k>() with a count (C66_static_subspan_refuted, C66_negative_subspan_refuted). *)
Theorem C66_checked_partial :
  forall s c s', (forall o k, c = SubspanT o k -> k = -1) -> (extent s = None \/ extent s = Some (count s)) -> 0 <= size s ->
    run true s c = Some s' -> in_range (size s) c.
Proof. exact SpanMain.C66_checked_partial_main. Qed.
Print Assumptions C66_checked_partial.

Example C66_checked_partial_ex :
  let s := {| data := 100; count := 10; extent := None |} in
  run true s (Subspan 7 4) = None /\ run true s (LastT 11) = None /\ run true s (First (-1)) = None /\
  run true s (Subspan 7 3) = Some {| data := 107; count := 3; extent := None |}.
Proof.
  vm_compute. repeat split.
Qed.

(** C66 fails for subspan<o, k>() of a span with static extent: only the offset is checked (span.h:252-258). *)
Theorem C66_static_subspan_refuted :
  let s := {| data := 100; count := 10; extent := Some 10 |} in
  run true s (SubspanT 8 5) = Some {| data := 108; count := 5; extent := Some 5 |} /\ ~ in_range (size s) (SubspanT 8 5).
Proof. exact SpanMain.C66_static_subspan_refuted_main. Qed.
Print Assumptions C66_static_subspan_refuted.

(** C66 fails for subspan<o, k>() of a span with dynamic extent and a negative count other than -1 (span.h:446-453). *)
Theorem C66_negative_subspan_refuted :
  let s := {| data := 100; count := 10; extent := None |} in
  run true s (SubspanT 2 (-5)) = Some {| data := 102; count := -5; extent := None |} /\ ~ in_range (size s) (SubspanT 2 (-5)).
Proof. exact SpanMain.C66_negative_subspan_refuted_main. Qed.
Print Assumptions C66_negative_subspan_refuted.

(** C66: begin to end visits the elements in order, rbegin to rend in the opposite order, s[i] is the i-th one, an index out of
range does not return with assertions, and swap exchanges the sequences. *)
Theorem C66_access :
  forall s t, (extent s = None \/ extent s = Some (count s)) -> (extent t = None \/ extent t = Some (count t)) -> extent s = extent t -> 0 <= size s ->
    (Z.of_nat (length (forward s)) = size s /\ backward s = rev (forward s)) /\
    (forall chk i, 0 <= i < size s -> exists a, subscript chk s i = Some a /\ nth_error (forward s) (Z.to_nat i) = Some a) /\
    (forall i, ~ 0 <= i < size s -> subscript true s i = None) /\
    forward (fst (swap s t)) = forward t /\ forward (snd (swap s t)) = forward s.
Proof. exact SpanMain.C66_access_main. Qed.
Print Assumptions C66_access.

Example C66_access_ex :
  let s := {| data := 100; count := 3; extent := None |} in forward s = [100; 101; 102] /\ backward s = [102; 101; 100] /\ subscript true s 2 = Some 102.
Proof.
  vm_compute. repeat split.
Qed.

(** C66: the comparison operators are the equality and the order of the dictionary: for elements with a total order exactly one of
a < b, a == b and b < a holds, and the other operators agree. *)
Theorem C66_compare :
  forall (X : Type) (lt eq : X -> X -> bool), (forall x y, eq x y = true <-> x = y) -> (forall x, lt x x = false) ->
    (forall x y z, lt x y = true -> lt y z = true -> lt x z = true) -> (forall x y, lt x y = true \/ x = y \/ lt y x = true) ->
    forall a b : list X,
      (span_eq eq a b = true <-> a = b) /\ (span_lt lt a b = true <-> before lt eq a b) /\
      (span_ne eq a b = true <-> a <> b) /\ (span_gt lt a b = true <-> before lt eq b a) /\
      (span_le lt a b = true <-> before lt eq a b \/ a = b) /\ (span_ge lt a b = true <-> before lt eq b a \/ a = b) /\
      ((before lt eq a b /\ a <> b /\ ~ before lt eq b a) \/ (~ before lt eq a b /\ a = b /\ ~ before lt eq b a) \/ (~ before lt eq a b /\ a <> b /\ before lt eq b a)).
Proof. exact SpanMain.C66_compare_main. Qed.
Print Assumptions C66_compare.

Example C66_compare_ex :
  span_lt Z.ltb [1; 2] [1; 3] = true /\ span_lt Z.ltb [1; 2] [1; 2; 0] = true /\ span_le Z.ltb [1; 2] [1; 2] = true /\ span_eq Z.eqb [1; 2] [1; 2; 0] = false.
Proof.
  vm_compute. repeat split.
Qed.
