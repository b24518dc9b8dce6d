(** The reference meaning of SimdArray<T, N> for the integer types: a sequence of N entries, every operation acting on each
    entry as the C++ operator acts on two values of type T. *)
From Coq Require Import ZArith List Bool.
From Verif.Spec Require Import Seq MaskSpec VectorSpec.
From Verif.Model Require Import Word SseBuild SimdArray Mem Program.
Import ListNotations.
Local Open Scope Z_scope.

(** Arithmetic in C++: unsigned int is computed modulo 2^32; the other types are computed as int, where results that do not
    fit are undefined ([None]), and the result is converted to the type (modulo 2^bits). *)
Definition fits_int (z : Z) : bool := (- 2 ^ 31 <=? z) && (z <? 2 ^ 31).
Definition c_result (e : etype) (z : Z) : option (elt e) :=
  match e with UInt => Some (e_of e z) | _ => if fits_int z then Some (e_of e z) else None end.
(** the values of the type *)
Definition representable (e : etype) (z : Z) : bool := e_val e (e_of e z) =? z.

(** a op b.  Division needs a divisor other than zero and a quotient that is a value of the type: this excludes
    INT_MIN / -1, which is undefined in C++, and short(-32768) / short(-1), for which the builds differ (C23). *)
Definition c_arith (e : etype) (op : arith_op) (a b : elt e) : option (elt e) :=
  let x := e_val e a in let y := e_val e b in
  match op with
  | OAdd => c_result e (x + y)
  | OSub => c_result e (x - y)
  | OMul => c_result e (x * y)
  | ODiv => if negb (y =? 0) && representable e (Z.quot x y) then Some (e_of e (Z.quot x y)) else None
  | OMod => if negb (y =? 0) && representable e (Z.quot x y) then Some (e_of e (Z.rem x y)) else None
  | OAnd => Some (e_of e (Z.land x y))
  | OOr => Some (e_of e (Z.lor x y))
  | OXor => Some (e_of e (Z.lxor x y))
  | OMin => Some (e_of e (Z.min x y))
  | OMax => Some (e_of e (Z.max x y))
  end.
Definition c_negate (e : etype) (a : elt e) : option (elt e) := c_result e (- e_val e a).
(** ~a is -1 - a; abs exists for the signed types *)
Definition c_unary (e : etype) (op : un_op) (a : elt e) : option (elt e) :=
  match op, e with
  | UCompl, _ => Some (e_of e (-1 - e_val e a))
  | UAbs, (Short | Int) => c_result e (Z.abs (e_val e a))
  | _, _ => None
  end.
(** a << k, a >> k for 0 <= k < bits: a left shift of a negative value is undefined *)
Definition c_shift (e : etype) (op : shift_op) (k : Z) (a : elt e) : option (elt e) :=
  let x := e_val e a in
  if (0 <=? k) && (k <? bits (esize e)) then
    match op with
    | OShl => if 0 <=? x then c_result e (x * 2 ^ k) else None
    | OShr => Some (e_of e (x / 2 ^ k))
    end
  else None.
Definition c_compare (e : etype) (op : cmp_op) (a b : elt e) : bool :=
  let x := e_val e a in let y := e_val e b in
  match op with OEq => x =? y | ONe => negb (x =? y) | OLt => x <? y | OLe => x <=? y | OGt => y <? x | OGe => y <=? x end.
Definition c_logic (op : logic_op) : bool -> bool -> bool := match op with LAnd => andb | LOr => orb | LXor => xorb end.

(** all entries, if every one is defined *)
Fixpoint all_defined {A} (xs : list (option A)) : option (list A) :=
  match xs with
  | [] => Some []
  | x :: xs' => match x, all_defined xs' with Some a, Some l => Some (a :: l) | _, _ => None end
  end.

(** insertion sort by value *)
Fixpoint c_insert (e : etype) (a : elt e) (xs : list (elt e)) : list (elt e) :=
  match xs with [] => [a] | b :: xs' => if e_val e a <=? e_val e b then a :: xs else b :: c_insert e a xs' end.
Definition c_sort (e : etype) (xs : list (elt e)) : list (elt e) := fold_right (c_insert e) [] xs.

Definition z_sum (l : list Z) : Z := fold_right Z.add 0 l.
Definition z_product (l : list Z) : Z := fold_right Z.mul 1 l.
(** Reductions.  A sum (product) is defined if the sum (product) of the magnitudes is: then no order of the additions
    (multiplications) has an undefined step. *)
Definition c_reduce (e : etype) (op : red_op) (xs : list (elt e)) : option (elt e) :=
  let l := map (e_val e) xs in
  match op with
  | RMin => option_map (e_of e) (reduce_spec Z.min l)
  | RMax => option_map (e_of e) (reduce_spec Z.max l)
  | RSum => match c_result e (z_sum (map Z.abs l)) with Some _ => Some (e_of e (z_sum l)) | None => None end
  | RProduct => match c_result e (z_product (map (fun z => Z.max 1 (Z.abs z)) l)) with Some _ => Some (e_of e (z_product l)) | None => None end
  end.

(** x0, x0 + x1, x0 + x1 + x2, ... *)
Fixpoint z_partial_sums (acc : Z) (l : list Z) : list Z :=
  match l with [] => [] | z :: l' => (acc + z) :: z_partial_sums (acc + z) l' end.
(** shifted(k): an array whose size is not a power of two has halves of different sizes, for which shifted(k) is right only
    for k = 0 and for distances of at least the size of the larger half (C05) *)
Definition shift_defined (n : nat) (k : Z) : bool :=
  (n =? 2 ^ Nat.log2 n)%nat || (k =? 0) || (Z.of_nat (2 ^ Nat.log2 (n - 1)) <=? Z.abs k).
(** rotated, reversed, sorted, shifted: the entries in another order; partialSum is defined if sum() is *)
Definition c_move (e : etype) (n : nat) (op : move_op) (xs : list (elt e)) : option (list (elt e)) :=
  match op with
  | MRotate k => Some (rotate_spec (w0 _) xs k)
  | MReverse => Some (rev xs)
  | MSort => Some (c_sort e xs)
  | MShift k => if shift_defined n k then Some (shift_spec (w0 _) xs k) else None
  | MPartialSum => match c_reduce e RSum xs with Some _ => Some (map (e_of e) (z_partial_sums 0 (map (e_val e) xs))) | None => None end
  end.

Definition in_bounds (n : nat) (i : Z) : bool := (0 <=? i) && (i <? Z.of_nat n).

(* gather and scatter: the entries selected by the mask, all without one *)
Definition selected (k : option (list bool)) (i : Z) : bool := match k with Some ks => znth false ks i | None => true end.
(* scatter: one store after the other, in the order of the list; a later one overwrites an earlier one *)
Definition write_entries {A} (addr : Z -> Z) (sel : Z -> bool) (val : Z -> A) (is : list Z) (m : memory A) : memory A :=
  fold_left (fun m i => if sel i then (fun a => if a =? addr i then Some (val i) else m a) else m) is m.
Definition reference (e : etype) (n : nat) : vops (elt e) (list (elt e)) (list bool) := {|
  o_generate := fun f => tab n f;
  o_arith := fun op xs ys => all_defined (map2 (c_arith e op) xs ys);
  o_negate := fun xs => all_defined (map (c_negate e) xs);
  o_unary := fun op xs => all_defined (map (c_unary e op) xs);
  o_copysign := fun _ _ => None; (* floating-point types only *)
  o_test := fun _ _ => None;
  o_shift := fun op xs k => all_defined (map (c_shift e op k) xs);
  o_compare := fun op xs ys => Some (map2 (c_compare e op) xs ys);
  o_logic := fun op a b => Some (map2 (c_logic op) a b);
  o_not := fun a => Some (map negb a);
  o_assign := fun xs ys k => Some (masked_update_spec k ys xs);
  o_move := c_move e n;
  o_shift_in := fun xs k ys => if (- Z.of_nat n <=? k) && (k <=? Z.of_nat n) then Some (shiftin_spec (w0 _) xs ys k) else None;
  o_interleave := fun xs ys => Some (firstn n (interleave_spec xs ys), skipn n (interleave_spec xs ys));
  o_reduce := c_reduce e;
  o_reduce_mask := fun op xs k => c_reduce e op (select_spec k xs);
  o_get := fun xs i => if in_bounds n i then Some (znth (w0 _) xs i) else None;
  o_set := fun xs i v => if in_bounds n i then Some (tab n (fun j => if j =? i then v else znth (w0 _) xs j)) else None;
  o_load := fun m p => all_defined (tab n (fun i => m (p + i)));
  o_store := fun xs m p =>
    match all_defined (tab n (fun i => m (p + i))) with
    | Some _ => Some (fun a => if in_bounds n (a - p) then Some (znth (w0 _) xs (a - p)) else m a)
    | None => None
    end;
  o_full := fun k => forallb (fun b => b) k;
  o_not_empty := fun k => existsb (fun b => b) k;
  o_count := fun k => count_spec k;
  o_mask_get := fun k i => if in_bounds n i then Some (znth false k i) else None;
  o_gather := fun xs m p ix k => all_defined (tab n (fun i => if selected k i then m (p + ix i) else Some (znth (w0 _) xs i)));
  o_scatter := fun xs m p ix k =>
    match all_defined (tab n (fun i => if selected k i then m (p + ix i) else Some (znth (w0 _) xs i))) with
    | Some _ => Some (write_entries (fun i => p + ix i) (selected k) (znth (w0 _) xs) (tab n (fun i => i)) m)
    | None => None
    end
|}.

(** The state in which programs start: vectors of zeros, masks of false *)
Definition start {E H V M} (zero : V) (none : M) (m : memory E) (h : H) : state E H V M :=
  {| vr := fun _ => zero; mr := fun _ => none; mm := m; hs := h |}.
