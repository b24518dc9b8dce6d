(** Binary operators of C++ on arithmetic types, independent of the library: integer types with their ranges, the integral
    promotions and usual arithmetic conversions ([conv.prom], [expr.arith.conv]), and the value of x op y. *)
From Coq Require Import ZArith List Bool.
Import ListNotations.
Local Open Scope Z_scope.

Inductive ctype := Bool | Schar | Uchar | Short | Ushort | Int | Uint | Long | Ulong | Llong | Ullong | Float | Double.
Definition all_types := [Bool; Schar; Uchar; Short; Ushort; Int; Uint; Long; Ulong; Llong; Ullong; Float; Double].
Definition is_float (t : ctype) := match t with Float | Double => true | _ => false end.
Definition is_unsigned (t : ctype) := match t with Bool | Uchar | Ushort | Uint | Ulong | Ullong => true | _ => false end.
(** long has 4 bytes on some platforms and 8 on others *)
Definition long_size_ok (ls : Z) := ls = 4 \/ ls = 8.
Definition size_of (ls : Z) (t : ctype) : Z :=
  match t with Bool | Schar | Uchar => 1 | Short | Ushort => 2 | Int | Uint | Float => 4 | Long | Ulong => ls | Llong | Ullong | Double => 8 end.
Definition unsigned_of (t : ctype) : ctype :=
  match t with Schar => Uchar | Short => Ushort | Int => Uint | Long => Ulong | Llong => Ullong | _ => t end.

(** the values of the integer types, and the conversion of an integer to one (modulo 2^bits; bool: whether it is not 0) *)
Definition bits (ls : Z) (t : ctype) : Z := 8 * size_of ls t.
Definition holds (ls : Z) (t : ctype) (z : Z) : Prop :=
  match t with
  | Bool => 0 <= z <= 1
  | _ => if is_unsigned t then 0 <= z < 2 ^ bits ls t else - 2 ^ (bits ls t - 1) <= z < 2 ^ (bits ls t - 1)
  end.
Definition to (ls : Z) (t : ctype) (z : Z) : Z :=
  match t with
  | Bool => if z =? 0 then 0 else 1
  | _ => if is_unsigned t then z mod 2 ^ bits ls t else (z + 2 ^ (bits ls t - 1)) mod 2 ^ bits ls t - 2 ^ (bits ls t - 1)
  end.

(** integral promotion: types below int become int, which holds all their values *)
Definition promoted (t : ctype) : ctype := match t with Bool | Schar | Uchar | Short | Ushort => Int | _ => t end.
Definition rank (t : ctype) : Z := match t with Int | Uint => 1 | Long | Ulong => 2 | Llong | Ullong => 3 | _ => 0 end.
(** the type in which x op y is computed *)
Definition usual (ls : Z) (t u : ctype) : ctype :=
  match t, u with
  | Double, _ | _, Double => Double
  | Float, _ | _, Float => Float
  | _, _ =>
      let p := promoted t in let q := promoted u in
      if Bool.eqb (is_unsigned p) (is_unsigned q) then (if rank p <? rank q then q else p)
      else let s := if is_unsigned p then q else p in let v := if is_unsigned p then p else q in
        if rank s <=? rank v then v else if size_of ls v <? size_of ls s then s else unsigned_of s
  end.

Inductive arith := Add | Sub | Mul | And | Or | Xor.
Definition exact (o : arith) (x y : Z) : Z :=
  match o with Add => x + y | Sub => x - y | Mul => x * y | And => Z.land x y | Or => Z.lor x y | Xor => Z.lxor x y end.
(** the value of x op y for x, y of integer types t, u; modulo 2^bits where a signed overflow makes it undefined *)
Definition cxx_value (ls : Z) (o : arith) (t u : ctype) (x y : Z) : Z := let w := usual ls t u in to ls w (exact o (to ls w x) (to ls w y)).

Inductive comparison_op := Eq | Ne | Lt | Le | Gt | Ge.
Definition related (c : comparison_op) (x y : Z) : bool :=
  match c with Eq => x =? y | Ne => negb (x =? y) | Lt => x <? y | Le => x <=? y | Gt => y <? x | Ge => y <=? x end.
(** the value of the C++ comparison *)
Definition cxx_related (ls : Z) (c : comparison_op) (t u : ctype) (x y : Z) : bool := let w := usual ls t u in related c (to ls w x) (to ls w y).
