(** Programs that use SimdArray<T, N> and SimdMaskArray<T, N>: sequences of calls of the member functions and operators,
    with arbitrary C++ code between the calls.  The meaning of the calls is a parameter ([vops]); Portable.v gives the one of
    the Vc implementations and Spec/PortableSpec.v the reference one. *)
From Coq Require Import ZArith List Bool.
From Verif.Model Require Import SimdArray Mem.
Import ListNotations.
Local Open Scope Z_scope.

(** binary operators and functions of two vectors: + - * / % & | ^ min max *)
Inductive arith_op := OAdd | OSub | OMul | ODiv | OMod | OAnd | OOr | OXor | OMin | OMax.
(** unary functions of a vector: ~x, abs(x), sqrt(x) *)
Inductive un_op := UCompl | UAbs | USqrt.
(** functions of a vector whose result is a mask: isnan, isinf, isfinite, isnegative *)
Inductive test_op := TNan | TInf | TFinite | TNegative.
(** shifts of a vector by an int: << >> *)
Inductive shift_op := OShl | OShr.
(** == != < <= > >= *)
Inductive cmp_op := OEq | ONe | OLt | OLe | OGt | OGe.
(** & | ^ of two masks *)
Inductive logic_op := LAnd | LOr | LXor.
(** rotated(k), reversed(), sorted(), shifted(k), partialSum() *)
Inductive move_op := MRotate (k : Z) | MReverse | MSort | MShift (k : Z) | MPartialSum.
(** min(), max(), sum(), product() *)
Inductive red_op := RMin | RMax | RSum | RProduct.

(** The calls on vectors of type V and masks of type M with entries of type E.  None: undefined behaviour. *)
Record vops (E V M : Type) := {
  o_generate : (Z -> E) -> V;                               (* V::generate(f), also V(scalar) *)
  o_arith : arith_op -> V -> V -> option V;
  o_negate : V -> option V;                                 (* unary - *)
  o_unary : un_op -> V -> option V;
  o_copysign : V -> V -> option V;                          (* copysign(x, y) *)
  o_test : test_op -> V -> option M;                        (* isnan(x), ... *)
  o_shift : shift_op -> V -> Z -> option V;
  o_compare : cmp_op -> V -> V -> option M;
  o_logic : logic_op -> M -> M -> option M;
  o_not : M -> option M;                                    (* !mask *)
  o_assign : V -> V -> M -> option V;                       (* where(mask) | x = y *)
  o_move : move_op -> V -> option V;
  o_shift_in : V -> Z -> V -> option V;                     (* x.shifted(k, y) *)
  o_interleave : V -> V -> option (V * V);                  (* interleave(x, y) *)
  o_reduce : red_op -> V -> option E;
  o_reduce_mask : red_op -> V -> M -> option E;             (* x.min(mask), ... *)
  o_get : V -> Z -> option E;                               (* x[i] *)
  o_set : V -> Z -> E -> option V;                          (* x[i] = a *)
  o_load : memory E -> Z -> option V;                       (* x.load(p) *)
  o_store : V -> memory E -> Z -> option (memory E);        (* x.store(p) *)
  o_full : M -> bool;                                       (* all_of(mask) *)
  o_not_empty : M -> bool;                                  (* any_of(mask) *)
  o_count : M -> Z;                                         (* mask.count() *)
  o_mask_get : M -> Z -> option bool;                       (* mask[i] *)
  o_gather : V -> memory E -> Z -> (Z -> Z) -> option M -> option V;   (* x.gather(p, indexes) or x.gather(p, indexes, mask) *)
  o_scatter : V -> memory E -> Z -> (Z -> Z) -> option M -> option (memory E)   (* x.scatter(p, indexes[, mask]) *)
}.
Arguments o_generate {E V M}. Arguments o_arith {E V M}. Arguments o_negate {E V M}. Arguments o_unary {E V M}. Arguments o_copysign {E V M}. Arguments o_test {E V M}. Arguments o_shift {E V M}. Arguments o_compare {E V M}.
Arguments o_logic {E V M}. Arguments o_not {E V M}. Arguments o_assign {E V M}. Arguments o_move {E V M}. Arguments o_shift_in {E V M}. Arguments o_interleave {E V M}. Arguments o_reduce {E V M}.
Arguments o_reduce_mask {E V M}. Arguments o_get {E V M}. Arguments o_set {E V M}. Arguments o_load {E V M}. Arguments o_store {E V M}. Arguments o_full {E V M}.
Arguments o_not_empty {E V M}. Arguments o_count {E V M}. Arguments o_mask_get {E V M}. Arguments o_gather {E V M}. Arguments o_scatter {E V M}.

(** One call.  Vector and mask variables are numbered.  H is the state of the rest of the program (its scalars, indices,
    counters, ...): arguments of calls are computed from it and results of calls are stored into it by arbitrary functions. *)
Inductive instr (E H : Type) :=
| IHost (f : H -> option H)                                  (* C++ code without vectors; None: undefined behaviour *)
| IGenerate (d : nat) (f : H -> Z -> E)
| IArith (op : arith_op) (d x y : nat)
| INegate (d x : nat)
| IUnary (op : un_op) (d x : nat)
| ICopysign (d x y : nat)
| ITest (op : test_op) (d x : nat)
| IShift (op : shift_op) (d x : nat) (k : H -> Z)
| ICompare (op : cmp_op) (d x y : nat)
| ILogic (op : logic_op) (d x y : nat)
| INot (d x : nat)
| IAssign (d y k : nat)                                      (* where(mask k) | d = y *)
| IMove (op : H -> move_op) (d x : nat)
| IShiftIn (d x : nat) (k : H -> Z) (y : nat)
| IInterleave (d d' x y : nat)                               (* std::tie(d, d') = interleave(x, y) *)
| IReduce (op : red_op) (x : nat) (f : E -> H -> H)
| IReduceMask (op : red_op) (x k : nat) (f : E -> H -> H)
| IGet (x : nat) (i : H -> Z) (f : E -> H -> H)
| ISet (x : nat) (i : H -> Z) (v : H -> E)
| ILoad (d : nat) (p : H -> Z)
| IStore (x : nat) (p : H -> Z)
| IFull (k : nat) (f : bool -> H -> H)
| INotEmpty (k : nat) (f : bool -> H -> H)
| ICount (k : nat) (f : Z -> H -> H)
| IMaskGet (k : nat) (i : H -> Z) (f : bool -> H -> H)
| IGather (d : nat) (p : H -> Z) (ix : H -> Z -> Z) (k : option nat)   (* ix: the array of N indexes; k: the mask, if any *)
| IScatter (x : nat) (p : H -> Z) (ix : H -> Z -> Z) (k : option nat).
Arguments IHost {E H}. Arguments IGenerate {E H}. Arguments IArith {E H}. Arguments INegate {E H}. Arguments IUnary {E H}. Arguments ICopysign {E H}. Arguments ITest {E H}. Arguments IShift {E H}. Arguments ICompare {E H}.
Arguments ILogic {E H}. Arguments INot {E H}. Arguments IAssign {E H}. Arguments IMove {E H}. Arguments IShiftIn {E H}. Arguments IInterleave {E H}. Arguments IReduce {E H}. Arguments IReduceMask {E H}. Arguments IGet {E H}.
Arguments ISet {E H}. Arguments ILoad {E H}. Arguments IStore {E H}. Arguments IFull {E H}. Arguments INotEmpty {E H}. Arguments ICount {E H}.
Arguments IMaskGet {E H}. Arguments IGather {E H}. Arguments IScatter {E H}.

Inductive prog (E H : Type) :=
| PDo (i : instr E H)
| PSeq (p q : prog E H)
| PIf (c : H -> bool) (p q : prog E H)
| PWhile (c : H -> bool) (p : prog E H).
Arguments PDo {E H}. Arguments PSeq {E H}. Arguments PIf {E H}. Arguments PWhile {E H}.

(** The vector variables, the mask variables, the memory and the rest of the state *)
Record state (E H V M : Type) := { vr : nat -> V; mr : nat -> M; mm : memory E; hs : H }.
Arguments vr {E H V M}. Arguments mr {E H V M}. Arguments mm {E H V M}. Arguments hs {E H V M}.

Definition upd {A} (r : nat -> A) (d : nat) (v : A) : nat -> A := fun i => if Nat.eqb i d then v else r i.

Section Run.
  Context {E H V M : Type} (ops : vops E V M).
  Definition set_v (s : state E H V M) d v : state E H V M := {| vr := upd (vr s) d v; mr := mr s; mm := mm s; hs := hs s |}.
  Definition set_m (s : state E H V M) d m : state E H V M := {| vr := vr s; mr := upd (mr s) d m; mm := mm s; hs := hs s |}.
  Definition set_h (s : state E H V M) h : state E H V M := {| vr := vr s; mr := mr s; mm := mm s; hs := h |}.
  Definition set_mem (s : state E H V M) m : state E H V M := {| vr := vr s; mr := mr s; mm := m; hs := hs s |}.

  Definition step (i : instr E H) (s : state E H V M) : option (state E H V M) :=
    match i with
    | IHost f => option_map (set_h s) (f (hs s))
    | IGenerate d f => Some (set_v s d (o_generate ops (f (hs s))))
    | IArith op d x y => option_map (set_v s d) (o_arith ops op (vr s x) (vr s y))
    | INegate d x => option_map (set_v s d) (o_negate ops (vr s x))
    | IUnary op d x => option_map (set_v s d) (o_unary ops op (vr s x))
    | ICopysign d x y => option_map (set_v s d) (o_copysign ops (vr s x) (vr s y))
    | ITest op d x => option_map (set_m s d) (o_test ops op (vr s x))
    | IShift op d x k => option_map (set_v s d) (o_shift ops op (vr s x) (k (hs s)))
    | ICompare op d x y => option_map (set_m s d) (o_compare ops op (vr s x) (vr s y))
    | ILogic op d x y => option_map (set_m s d) (o_logic ops op (mr s x) (mr s y))
    | INot d x => option_map (set_m s d) (o_not ops (mr s x))
    | IAssign d y k => option_map (set_v s d) (o_assign ops (vr s d) (vr s y) (mr s k))
    | IMove op d x => option_map (set_v s d) (o_move ops (op (hs s)) (vr s x))
    | IShiftIn d x k y => option_map (set_v s d) (o_shift_in ops (vr s x) (k (hs s)) (vr s y))
    | IInterleave d d' x y => option_map (fun r => set_v (set_v s d (fst r)) d' (snd r)) (o_interleave ops (vr s x) (vr s y))
    | IReduce op x f => option_map (fun a => set_h s (f a (hs s))) (o_reduce ops op (vr s x))
    | IReduceMask op x k f => option_map (fun a => set_h s (f a (hs s))) (o_reduce_mask ops op (vr s x) (mr s k))
    | IGet x i f => option_map (fun a => set_h s (f a (hs s))) (o_get ops (vr s x) (i (hs s)))
    | ISet x i v => option_map (set_v s x) (o_set ops (vr s x) (i (hs s)) (v (hs s)))
    | ILoad d p => option_map (set_v s d) (o_load ops (mm s) (p (hs s)))
    | IStore x p => option_map (set_mem s) (o_store ops (vr s x) (mm s) (p (hs s)))
    | IFull k f => Some (set_h s (f (o_full ops (mr s k)) (hs s)))
    | INotEmpty k f => Some (set_h s (f (o_not_empty ops (mr s k)) (hs s)))
    | ICount k f => Some (set_h s (f (o_count ops (mr s k)) (hs s)))
    | IMaskGet k i f => option_map (fun a => set_h s (f a (hs s))) (o_mask_get ops (mr s k) (i (hs s)))
    | IGather d p ix k => option_map (set_v s d) (o_gather ops (vr s d) (mm s) (p (hs s)) (ix (hs s)) (option_map (mr s) k))
    | IScatter x p ix k => option_map (set_mem s) (o_scatter ops (vr s x) (mm s) (p (hs s)) (ix (hs s)) (option_map (mr s) k))
    end.

  (** Execution with at most [fuel] nested calls of [run]; None: undefined behaviour or not finished *)
  Fixpoint run (fuel : nat) (p : prog E H) (s : state E H V M) : option (state E H V M) :=
    match fuel with
    | O => None
    | S fuel' =>
        match p with
        | PDo i => step i s
        | PSeq p q => s' <-- run fuel' p s; run fuel' q s'
        | PIf c p q => if c (hs s) then run fuel' p s else run fuel' q s
        | PWhile c p => if c (hs s) then s' <-- run fuel' p s; run fuel' (PWhile c p) s' else Some s
        end
    end.
End Run.
