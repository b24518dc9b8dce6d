(** What the native vectors of a build must provide for simd_cast of SimdArrays *)
From Coq Require Import ZArith List Bool.
From Verif.Model Require Import Word SseBuild SimdArray ArrayCast.
From Verif.Spec Require Import FloatSpec RoundSpec CastSpec ArrayCastSpec.
Import ListNotations.
Local Open Scope nat_scope.

Record native_casts_ok {A B} (native_from native_to : nat -> bool) (zeroA : A) (zeroB : B) (R : A -> B -> Prop) (pad : B -> Prop) (ops : cast_ops A B) : Prop := {
  (* simd_cast<To>(x0, x1, ...), the last argument not superfluous *)
  nc_many : forall w m xs, native_from w = true -> native_to m = true -> xs <> [] -> (forall x, In x xs -> length x = w) ->
    (length xs - 1) * w < m -> exists r, c_many ops m xs = Some r /\ converts R pad m 0 (concat xs) r;
  (* simd_cast<To, k>(x), the part not empty *)
  nc_offset : forall w m k x, native_from w = true -> native_to m = true -> length x = w -> k * m < w ->
    exists r, c_offset ops m k x = Some r /\ converts R pad m (k * m) x r;
  (* static_cast *)
  nc_entry : forall a, R a (c_entry ops a);
  nc_same : c_same ops = true -> forall n, native_from n = native_to n;
  (* the entries of Return(0), and zero stays zero *)
  nc_pad : pad zeroB;
  nc_zero : forall y, R zeroA y -> pad y
}.

(** A Return type that exists: a native vector of the build or a SimdArray *)
Definition valid_target (native_to : nat -> bool) (r : target) : Prop := match r with ToVector m => native_to m = true | ToArray m => 1 <= m end.

(** static_cast, except that floating point entries of 32768 and more, which unsigned short could hold, are left open when
    converted to unsigned short. *)
Definition array_cast_entry (from to : etype) (x : elt from) (y : elt to) : Prop :=
  match is_integer from, to as t return elt t -> Prop with
  | false, UShort => fun y => (is_Finite x = true -> 0 <= Z.quot (fvalue x) (fone (esize from)) < 2 ^ 15 ->
                              int_value UShort y = Z.quot (fvalue x) (fone (esize from)))%Z
  | _, t => cast_ok from t x
  end y.
