(** types and values of binary operators with operands of different types (proofs). *)
From Coq Require Import ZArith List Bool Lia.
From Verif.Spec Require Import OperatorSpec.
From Verif.Model Require Import Operators.
Import ListNotations.
Local Open Scope Z_scope.
From Verif.Proof Require Import OperatorsP.

Ltac all_cases := repeat match goal with L : long_size_ok ?ls |- _ => destruct L; subst ls end.

Lemma C68_native_types_main :
  forall ls t u, long_size_ok ls -> is_valid_vector_argument t = true ->
    (forall r, with_scalar ls Native t u = Some r -> r = t \/ r = unsigned_of t) /\
    (4 <= size_of ls t -> forall r, with_scalar ls Native t u = Some r <-> r = usual ls t u /\ (r = t \/ r = unsigned_of t)) /\
    (size_of ls t < 4 -> forall r, with_scalar ls Native t u = Some r <->
       In u [Bool; Schar; Uchar; Short; Ushort; Int; Uint] /\ r = if is_unsigned t then t else match u with Ushort | Uint => unsigned_of t | _ => t end).
Proof.
  intros ls t u L V. split; [|split].
  - intros r. all_cases; destruct t; try discriminate V; destruct u; cbn; intros H; try discriminate H; injection H as <-; auto.
  - intros S r. all_cases; destruct t; try discriminate V; cbn in S; try lia; destruct u; cbn;
      (split; [intros H; try discriminate H; injection H as <-; auto|intros (-> & [H|H]); congruence || reflexivity]).
  - intros S r. all_cases; destruct t; try discriminate V; cbn in S; try lia; destruct u; cbn;
      (split; [intros H; try discriminate H; injection H as <-; auto 20|intros (H & ->); repeat destruct H as [H|H]; discriminate H || tauto || reflexivity]).
Qed.

Lemma C68_array_types_main :
  forall ls t u, long_size_ok ls -> is_valid_vector_argument t = true ->
    (In u [Long; Ulong; Llong; Ullong] -> with_scalar ls Array t u = None) /\
    (~ In u [Long; Ulong; Llong; Ullong] -> is_float t || is_float u = true \/ 4 <= size_of ls t \/ 4 <= size_of ls u -> with_scalar ls Array t u = Some (usual ls t u)) /\
    (is_float u = false -> size_of ls t < 4 -> size_of ls u < 4 -> with_scalar ls Array t u = Some (if is_unsigned t then t else match u with Ushort => Ushort | _ => t end)) /\
    (is_valid_vector_argument u = true -> forall k k', k = Array \/ k' = Array ->
       with_vector ls k k' t u = with_scalar ls Array t u /\ with_vector ls k k' t u = with_vector ls k' k u t).
Proof.
  intros ls t u L V. split; [|split; [|split]].
  - intros H. all_cases; repeat destruct H as [H|H]; subst; try contradiction; reflexivity.
  - intros H S. all_cases; destruct t; try discriminate V; destruct u; cbn in *; try (exfalso; apply H; auto 20; fail); try reflexivity; destruct S as [S|[S|S]]; discriminate S || lia.
  - intros F S S'. all_cases; destruct t; try discriminate V; destruct u; cbn in *; try discriminate F; try lia; reflexivity.
  - intros V' k k' K. assert (E : with_vector ls k k' t u = Some (evaluate ls t u) /\ with_vector ls k' k u t = Some (evaluate ls u t)) by (destruct k, k'; destruct K; try congruence; auto).
    destruct E as (E & E'). rewrite E, E'. all_cases; destruct t; try discriminate V; destruct u; try discriminate V'; split; reflexivity.
Qed.

Lemma C68_vectors_main :
  forall ls t u, long_size_ok ls -> is_valid_vector_argument t = true -> is_valid_vector_argument u = true ->
    (forall r, with_vector ls Native Native t u = Some r <-> unsigned_of t = unsigned_of u /\ r = if is_unsigned u then u else t) /\
    with_vector ls Native Native t u = with_vector ls Native Native u t /\
    with_vector ls Fixed Fixed t u = with_vector ls Array Array t u /\ with_vector ls Fixed Fixed t u = with_vector ls Fixed Fixed u t.
Proof.
  intros ls t u L V V'. all_cases; destruct t; try discriminate V; destruct u; try discriminate V'; cbn;
    (split; [intros r; split; [intros H; try discriminate H; injection H as <-; auto|intros (H & ->); discriminate H || reflexivity]|repeat split]).
Qed.

Lemma C68_fixed_partial_main :
  forall ls t u, long_size_ok ls -> is_valid_vector_argument t = true -> 4 <= size_of ls t -> ~ In u [Long; Ulong; Llong; Ullong] ->
    with_scalar ls Fixed t u = with_scalar ls Array t u.
Proof.
  intros ls t u L V S H. all_cases; destruct t; try discriminate V; cbn in S; try lia; destruct u; try (exfalso; apply H; cbn; auto 20; fail); reflexivity.
Qed.

Lemma C68_fixed_refuted_main :
  with_vector 8 Array Array Short Short = Some Short /\ with_scalar 8 Array Short Int = Some Int /\ with_scalar 8 Fixed Short Int = Some Short /\
  with_scalar 8 Array Short Uint = Some Uint /\ with_scalar 8 Fixed Short Uint = Some Ushort /\
  vector_value 8 Add Int 32767 1 = 32768 /\ vector_value 8 Add Short 32767 1 = -32768.
Proof.
  repeat split.
Qed.

Lemma C68_values_main :
  forall ls k k' o t u r x y, long_size_ok ls -> is_valid_vector_argument t = true -> is_float t = false -> is_float u = false ->
    with_scalar ls k t u = Some r \/ (is_valid_vector_argument u = true /\ with_vector ls k k' t u = Some r) ->
    vector_value ls o r x y = to ls r (cxx_value ls o t u x y) /\ vector_value ls o r y x = to ls r (cxx_value ls o u t y x).
Proof.
  intros ls k k' o t u r x y L V F F' H. unfold cxx_value.
  assert (Q : r <> Bool /\ usual ls t u <> Bool /\ usual ls u t <> Bool /\ bits ls r <= bits ls (usual ls t u) /\ bits ls r <= bits ls (usual ls u t)).
  { all_cases; destruct t; try discriminate V; try discriminate F; destruct u; try discriminate F'; destruct k;
      (destruct H as [H|(V' & H)]; [|try discriminate V'; destruct k']); cbn in H; try discriminate H; injection H as <-; vm_compute; repeat split; discriminate. }
  destruct Q as (Q1 & Q2 & Q3 & Q4 & Q5). split; apply value_narrow; auto.
Qed.

Lemma C68_compares_partial_main :
  forall ls k c t u r x y, long_size_ok ls -> is_valid_vector_argument t = true -> is_float t = false -> is_float u = false -> with_scalar ls k t u = Some r ->
    (holds ls r x -> holds ls r y -> vector_related ls c r x y = related c x y) /\
    (4 <= size_of ls t -> vector_related ls c r x y = cxx_related ls c t u x y).
Proof.
  intros ls k c t u r x y L V F F' H. unfold vector_related, cxx_related. split.
  - intros X Y. rewrite !to_id; auto.
  - intros S. assert (E : r = usual ls t u); [|now rewrite E].
    all_cases; destruct t; try discriminate V; try discriminate F; cbn in S; try lia; destruct u; try discriminate F'; destruct k; cbn in H; try discriminate H; injection H as <-; reflexivity.
Qed.

Lemma C68_compares_refuted_main :
  with_scalar 8 Native Ushort Int = Some Ushort /\ vector_related 8 Eq Ushort 65535 (-1) = true /\ cxx_related 8 Eq Ushort Int 65535 (-1) = false /\
  with_scalar 8 Native Short Int = Some Short /\ vector_related 8 Eq Short 0 65536 = true /\ cxx_related 8 Eq Short Int 0 65536 = false.
Proof.
  repeat split.
Qed.
