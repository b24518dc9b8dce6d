(** compound division and remainder under a mask *)
From Coq Require Import ZArith List Bool Lia.
From Verif.Spec Require Import Seq CastSpec MaskSpec NativeSpec MaskedDivSpec.
From Verif.Model Require Import Word Fp FpArith SseReg SseMove SortNet SseInt SseBuild SseArith SseMask SseNative SimdArray SimdArrayOps Mem SseConvert
  AvxReg AvxMove AvxBuild AvxShuffle AvxMask AvxArith AvxConvert ScalarVec MaskedDiv.
Import ListNotations.
Local Open Scope Z_scope.
From Verif.Proof Require MaskedDivMain.

(** C70: x(mask) /= y, x(mask) %= y, where(mask) | x /= y and where(mask) | x %= y of a SimdArray<T, n> of short, unsigned short,
int or unsigned int, in every build and for every n (with n the size of a native vector: of that vector).  When every
quotient of the entries, selected or not, is defined, the selected entries become the quotients (the remainders) and the
other entries are unchanged. *)
Theorem C70_all :
  forall b e n (x y : sa (elt e)) (k : sa bool), is_integer e = true -> let W := div_native b e in
    wf W n x -> wf W n y -> wf W n k -> Forall2 (divisible e) (to_list x) (to_list y) ->
    (exists r, masked_div b e x y k = Some r /\ wf W n r /\
      forall i, 0 <= i < Z.of_nat n ->
        let xi := znth (w0 _) (to_list x) i in let yi := znth (w0 _) (to_list y) i in let ri := znth (w0 _) (to_list r) i in
        if znth false (to_list k) i then int_value e ri = Z.quot (int_value e xi) (int_value e yi) else ri = xi) /\
    (exists r, masked_mod b e x y k = Some r /\ wf W n r /\
      forall i, 0 <= i < Z.of_nat n ->
        let xi := znth (w0 _) (to_list x) i in let yi := znth (w0 _) (to_list y) i in let ri := znth (w0 _) (to_list r) i in
        if znth false (to_list k) i then int_value e ri = Z.rem (int_value e xi) (int_value e yi) else ri = xi).
Proof. exact MaskedDivMain.C70_all_main. Qed.
Print Assumptions C70_all.

Example C70_all_ex :
let W := div_native (DSse true) Int in
  option_map (fun r => map sval (to_list r)) (masked_div (DSse true) Int (generate W 7 (fun i => mkw 4 (i * 10 - 25))) (generate W 7 (fun i => mkw 4 (i + 1))) (generate W 7 Z.odd))
    = Some [-25; -7; -5; 1; 15; 4; 35].
Proof.
vm_compute. reflexivity.
Qed.

(** C70: the full claim - entries that are not selected may have any value, zero divisors included - holds for SimdArray<T, n>
with n a multiple of 8 and T short or unsigned short in SSE and AVX builds, and with T any of the four types in AVX2 builds
(there the native vectors divide in floating point).  C70_refuted shows that it holds for no other combination. *)
Theorem C70_partial :
  forall b e n (x y : sa (elt e)) (k : sa bool), is_integer e = true -> divides_in_floating_point b e n = true -> let W := div_native b e in
    wf W n x -> wf W n y -> wf W n k ->
    (forall i, 0 <= i < Z.of_nat n -> znth false (to_list k) i = true -> divisible e (znth (w0 _) (to_list x) i) (znth (w0 _) (to_list y) i)) ->
    (exists r, masked_div b e x y k = Some r /\ wf W n r /\
      forall i, 0 <= i < Z.of_nat n ->
        let xi := znth (w0 _) (to_list x) i in let yi := znth (w0 _) (to_list y) i in let ri := znth (w0 _) (to_list r) i in
        if znth false (to_list k) i then int_value e ri = Z.quot (int_value e xi) (int_value e yi) else ri = xi) /\
    (exists r, masked_mod b e x y k = Some r /\ wf W n r /\
      forall i, 0 <= i < Z.of_nat n ->
        let xi := znth (w0 _) (to_list x) i in let yi := znth (w0 _) (to_list y) i in let ri := znth (w0 _) (to_list r) i in
        if znth false (to_list k) i then int_value e ri = Z.rem (int_value e xi) (int_value e yi) else ri = xi).
Proof. exact MaskedDivMain.C70_partial_main. Qed.
Print Assumptions C70_partial.

Example C70_partial_ex :
let W := div_native (DAvx true true) UShort in
  option_map (fun r => map uval (to_list r)) (masked_div (DAvx true true) UShort (generate W 24 (fun i => mkw 2 (65535 - i))) (generate W 24 (fun i => mkw 2 (i mod 3))) (generate W 24 (fun i => 0 <? i mod 3)))
    = Some [65535; 65534; 32766; 65532; 65531; 32765; 65529; 65528; 32763; 65526; 65525; 32762; 65523; 65522; 32760; 65520; 65519; 32759; 65517; 65516; 32757; 65514; 65513; 32756].
Proof.
vm_compute. reflexivity.
Qed.

(** C70: in every other build and size - Scalar builds, int and unsigned int in SSE and AVX builds, and every n that is not a
multiple of 8 - the compound division under a mask is undefined (the processor traps) when all divisors are zero, even if
no entry is selected: the quotients of all entries are computed before the mask is applied. *)
Theorem C70_refuted :
  forall b e n (x y : sa (elt e)) (k : sa bool), is_integer e = true -> divides_in_floating_point b e n = false -> let W := div_native b e in
    wf W n x -> wf W n y -> wf W n k -> Forall (fun v => int_value e v = 0) (to_list y) ->
    masked_div b e x y k = None /\ masked_mod b e x y k = None.
Proof. exact MaskedDivMain.C70_refuted_main. Qed.
Print Assumptions C70_refuted.

Example C70_refuted_ex :
let W := div_native (DAvx true true) Int in
  option_map (fun r => map sval (to_list r)) (masked_div (DAvx true true) Int (generate W 12 (fun i => mkw 4 (i * 10))) (generate W 12 (fun i => mkw 4 (Z.max 0 (8 - i)))) (generate W 12 (fun i => i <? 8))) = None.
Proof.
vm_compute. reflexivity.
Qed.

(** C70: where(mask) | x /= y and where(mask) | x %= y of the Scalar vector itself test the mask first.  They give the quotient
(the remainder) if the entry is selected and leave x unchanged otherwise, whatever the divisor is. *)
Theorem C70_scalar :
  forall e (x y : elt e) (k : bool), is_integer e = true -> (k = true -> divisible e x y) ->
    (exists r, s_where_div e x y k = Some r /\ if k then int_value e r = Z.quot (int_value e x) (int_value e y) else r = x) /\
    (exists r, s_where_mod e x y k = Some r /\ if k then int_value e r = Z.rem (int_value e x) (int_value e y) else r = x).
Proof. exact MaskedDivMain.C70_scalar_main. Qed.
Print Assumptions C70_scalar.

Example C70_scalar_ex :
s_where_div Short (mkw 2 (-7)) (mkw 2 2) true = Some (mkw 2 (-3)) /\ s_where_mod Int (mkw 4 5) (mkw 4 0) false = Some (mkw 4 5).
Proof.
split; reflexivity.
Qed.

(** C70: x(mask) /= y and x(mask) %= y of the Scalar vector divide first: they are undefined exactly when the divisor is zero or,
for int, when -2147483648 is divided by -1, even if the entry is not selected.  where(mask) | x /= y and where(mask) | x %= y
are undefined for the same operands, but only if the entry is selected. *)
Theorem C70_scalar_refuted :
  forall e (x y : elt e) (k : bool), is_integer e = true ->
    let undefined := int_value e y = 0 \/ (e = Int /\ int_value e x = -2147483648 /\ int_value e y = -1) in
    (s_call_div e x y k = None <-> undefined) /\ (s_call_mod e x y k = None <-> undefined) /\
    (s_where_div e x y k = None <-> k = true /\ undefined) /\ (s_where_mod e x y k = None <-> k = true /\ undefined).
Proof. exact MaskedDivMain.C70_scalar_refuted_main. Qed.
Print Assumptions C70_scalar_refuted.

Example C70_scalar_refuted_ex :
  forall k, s_call_div Int (mkw 4 (-2147483648)) (mkw 4 (-1)) k = None /\ s_where_mod UShort (mkw 2 5) (mkw 2 0) k = if k then None else Some (mkw 2 5).
Proof.
  intros [|]; split; reflexivity.
Qed.
