(** simd_cast from and to SimdArray, the converting constructors and conversion operators of SimdArray (proofs). *)
From Coq Require Import ZArith List Bool Lia Arith.
From Verif.Spec Require Import Seq FloatSpec RoundSpec CastSpec NativeSpec ArrayCastSpec NativeCastSpec.
From Verif.Model Require Import SplitSize SimdArray SimdArrayOps Word Fp FpArith SseReg SseMove SseBuild AvxMove AvxBuild ArrayCast NativeCast.
Import ListNotations.
Local Open Scope nat_scope.
From Verif.Proof Require Import SeqP WordP SimdArrayP SseBuildP AvxBuildP ConvertP ArrayCastP NativeCastP.

Lemma generated_wf e n (f : Z -> elt e) : (1 <= n)%nat -> wf (sse_native (esize e)) n (generate (sse_native (esize e)) n f).
Proof. intros H. apply generate_wf; [apply build_widths|exact H]. Qed.

Lemma C58_simd_cast_main :
  forall (A B : Type) native_from native_to (moves : native_ops A) (ops : cast_ops A B) zeroA zeroB R pad,
    widths_ok native_from -> widths_ok native_to -> native_moves_ok native_from zeroA moves ->
    native_casts_ok native_from native_to zeroA zeroB R pad ops ->
    forall r n xs, xs <> [] -> (forall x, In x xs -> wf native_from n x) -> valid_target native_to r ->
      length xs = 1 \/ (length xs - 1) * n < target_size r ->
      exists t, array_cast native_from native_to moves ops zeroA zeroB r xs = Some t /\ wf native_to (target_size r) t /\
                converts R pad (target_size r) 0 (concat (map to_list xs)) (to_list t).
Proof.
  intros A B native_from native_to moves ops zeroA zeroB R pad Wf Wt Hm Hc r n xs X W T C.
  exact (array_cast_ok native_from native_to moves ops zeroA zeroB R pad Wf Wt Hm Hc r n xs X W T C).
Qed.

Lemma C58_simd_cast_offset_partial_main :
  forall (A B : Type) native_from native_to (moves : native_ops A) (ops : cast_ops A B) zeroA zeroB R pad,
    widths_ok native_from -> widths_ok native_to -> native_moves_ok native_from zeroA moves ->
    native_casts_ok native_from native_to zeroA zeroB R pad ops ->
    forall r n k x, wf native_from n x -> valid_target native_to r -> k * target_size r < n ->
      power_of_two n \/ power_of_two (target_size r) ->
      exists t, array_cast_offset native_from native_to moves ops zeroA zeroB r k x = Some t /\ wf native_to (target_size r) t /\
                converts R pad (target_size r) (k * target_size r) (to_list x) (to_list t).
Proof.
  intros A B native_from native_to moves ops zeroA zeroB R pad Wf Wt Hm Hc r n k x W T K P.
  exact (array_cast_offset_ok native_from native_to moves ops zeroA zeroB R pad Wf Wt Hm Hc r n k x W T K P).
Qed.

Lemma C58_simd_cast_offset_refuted_main :
  forall ssse3 sse41 undef add x, wf (sse_native 8) 13 x ->
    array_cast_offset (sse_native 8) (sse_native 2) (sse_build ssse3 Double add) (sse_casts undef sse41 Double Short) (w0 8) (w0 2) (ToArray 10) 1 x = None /\
    1 * target_size (ToArray 10) < 13.
Proof.
  intros ssse3 sse41 undef add x W. split; [|cbn; lia].
  Ltac peel W := let N := fresh "N" in let L := fresh "L" in let Wa := fresh "W" in let Wb := fresh "W" in
    match type of W with
    | wf _ _ ?x => destruct x as [x|? ?]; [apply leaf_wf in W as (N & L); try discriminate N|apply node_wf in W as (N & Wa & Wb); try discriminate N; peel Wa; peel Wb]
    end.
  peel W.
  repeat match goal with L : length ?l = _ |- _ => destruct l as [|? [|? [|? ?]]]; try discriminate L; clear L end.
  vm_compute. reflexivity.
Qed.

Lemma C58_vector_cast_main :
  forall (A B : Type) native_from native_to (moves : native_ops A) (ops : cast_ops A B) zeroA zeroB R pad,
    widths_ok native_from -> widths_ok native_to -> native_moves_ok native_from zeroA moves ->
    native_casts_ok native_from native_to zeroA zeroB R pad ops ->
    forall r n, native_from n = true -> valid_target native_to r ->
      (forall vs, vs <> [] -> (forall v, In v vs -> length v = n) -> length vs = 1 \/ (length vs - 1) * n < target_size r ->
        exists t, vector_cast native_from native_to moves ops zeroA zeroB r vs = Some t /\ wf native_to (target_size r) t /\
                  converts R pad (target_size r) 0 (concat vs) (to_list t)) /\
      (forall k v, length v = n -> k * target_size r < n ->
        exists t, vector_cast_offset native_from native_to moves ops zeroA zeroB r k v = Some t /\ wf native_to (target_size r) t /\
                  converts R pad (target_size r) (k * target_size r) v (to_list t)).
Proof.
  intros A B native_from native_to moves ops zeroA zeroB R pad Wf Wt Hm Hc r n N T. split.
  - intros vs X L C. exact (vector_cast_ok native_from native_to moves ops zeroA zeroB R pad Wf Wt Hm Hc r n vs X N L T C).
  - intros k v L K. exact (vector_cast_offset_ok native_from native_to moves ops zeroA zeroB R pad Wf Wt Hm Hc r n k v N L T K).
Qed.

Lemma C58_sse_simd_cast_main :
  forall undef ssse3 sse41 from to add, ~ (sse41 = false /\ from = Double /\ to = UInt) ->
    let cast := array_cast (sse_native (esize from)) (sse_native (esize to)) (sse_build ssse3 from add) (sse_casts undef sse41 from to) (w0 (esize from)) (w0 (esize to)) in
    let cast_offset := array_cast_offset (sse_native (esize from)) (sse_native (esize to)) (sse_build ssse3 from add) (sse_casts undef sse41 from to) (w0 (esize from)) (w0 (esize to)) in
    forall r n, valid_target (sse_native (esize to)) r ->
      (forall xs, xs <> [] -> (forall x, In x xs -> wf (sse_native (esize from)) n x) -> length xs = 1 \/ (length xs - 1) * n < target_size r ->
        exists t, cast r xs = Some t /\ wf (sse_native (esize to)) (target_size r) t /\
                  converts (array_cast_entry from to) (fun y => y = w0 (esize to)) (target_size r) 0 (concat (map to_list xs)) (to_list t)) /\
      (forall k x, wf (sse_native (esize from)) n x -> k * target_size r < n -> power_of_two n \/ power_of_two (target_size r) ->
        exists t, cast_offset r k x = Some t /\ wf (sse_native (esize to)) (target_size r) t /\
                  converts (array_cast_entry from to) (fun y => y = w0 (esize to)) (target_size r) (k * target_size r) (to_list x) (to_list t)).
Proof.
  intros undef ssse3 sse41 from to add ND cast cast_offset r n T. split.
  - intros xs X W C. exact (array_cast_ok _ _ _ _ _ _ _ _ (build_widths from) (build_widths to) (build_moves ssse3 from add) (sse_casts_ok undef sse41 from to ND) r n xs X W T C).
  - intros k x W K P. exact (array_cast_offset_ok _ _ _ _ _ _ _ _ (build_widths from) (build_widths to) (build_moves ssse3 from add) (sse_casts_ok undef sse41 from to ND) r n k x W T K P).
Qed.

Lemma C58_avx_simd_cast_main :
  forall undef avx2 c from to add,
    let cast := array_cast (avx_widths_of avx2 from) (avx_widths_of avx2 to) (avx_build avx2 c from add) (avx_casts undef (repeat 0%Z 16) avx2 from to) (w0 (esize from)) (w0 (esize to)) in
    let cast_offset := array_cast_offset (avx_widths_of avx2 from) (avx_widths_of avx2 to) (avx_build avx2 c from add) (avx_casts undef (repeat 0%Z 16) avx2 from to) (w0 (esize from)) (w0 (esize to)) in
    forall r n, valid_target (avx_widths_of avx2 to) r ->
      (forall xs, xs <> [] -> (forall x, In x xs -> wf (avx_widths_of avx2 from) n x) -> length xs = 1 \/ (length xs - 1) * n < target_size r ->
        exists t, cast r xs = Some t /\ wf (avx_widths_of avx2 to) (target_size r) t /\
                  converts (array_cast_entry from to) (fun y => y = w0 (esize to)) (target_size r) 0 (concat (map to_list xs)) (to_list t)) /\
      (forall k x, wf (avx_widths_of avx2 from) n x -> k * target_size r < n -> power_of_two n \/ power_of_two (target_size r) ->
        exists t, cast_offset r k x = Some t /\ wf (avx_widths_of avx2 to) (target_size r) t /\
                  converts (array_cast_entry from to) (fun y => y = w0 (esize to)) (target_size r) (k * target_size r) (to_list x) (to_list t)).
Proof.
  intros undef avx2 c from to add cast cast_offset r n T. split.
  - intros xs X W C. exact (array_cast_ok _ _ _ _ _ _ _ _ (abuild_widths avx2 from) (abuild_widths avx2 to) (abuild_moves avx2 c from add) (avx_casts_ok undef avx2 from to) r n xs X W T C).
  - intros k x W K P. exact (array_cast_offset_ok _ _ _ _ _ _ _ _ (abuild_widths avx2 from) (abuild_widths avx2 to) (abuild_moves avx2 c from add) (avx_casts_ok undef avx2 from to) r n k x W T K P).
Qed.

Lemma C58_simd_cast_ushort_refuted_main :
  forall undef ssse3 sse41 avx2 c add, let x := Node (Leaf [of_int 4 40000]) (Leaf [of_int 4 1]) in
    wf (sse_native 4) 2 x /\ wf (avx_widths_of avx2 Float) 2 x /\
    option_map to_list (array_cast (sse_native 4) (sse_native 2) (sse_build ssse3 Float add) (sse_casts undef sse41 Float UShort) (w0 4) (w0 2) (ToVector 8) [x])
      = Some ([mkw 2 undef; mkw 2 1] ++ repeat (w0 2) 6) /\
    option_map to_list (array_cast (avx_widths_of avx2 Float) (avx_widths_of avx2 UShort) (avx_build avx2 c Float add) (avx_casts undef (repeat 0%Z 16) avx2 Float UShort) (w0 4) (w0 2) (ToVector 8) [x])
      = Some ([mkw 2 undef; mkw 2 1] ++ repeat (w0 2) 6) /\
    (undef mod 2 ^ 16 <> 40000 -> ~ cast_ok Float UShort (of_int 4 40000) (mkw 2 undef))%Z.
Proof.
  intros undef ssse3 sse41 avx2 c add x.
  assert (S1 : static_cast undef Float Short (of_int 4 40000) = mkw 2 undef) by (unfold static_cast; cbn [is_integer esize]; replace (negb (is_nan (of_int 4 40000)) && negb (is_inf (of_int 4 40000)) && holds Short (round_int ToZero (of_int 4 40000))) with false by (vm_compute; reflexivity); reflexivity).
  assert (S2 : static_cast undef Float Short (of_int 4 1) = mkw 2 1) by (apply word_ext; vm_compute; reflexivity).
  split; [repeat first [apply wf_leaf; reflexivity|apply wf_node; [reflexivity| |]]|]. split; [destruct avx2; repeat first [apply wf_leaf; reflexivity|apply wf_node; [reflexivity| |]]|].
  split; [|split].
  - transitivity (Some (map (setr_argument undef Float UShort) [of_int 4 40000; of_int 4 1] ++ repeat (w0 2) 6)); [reflexivity|]. cbn [map]. change (@setr_argument undef Float UShort) with (static_cast undef Float Short).
    now rewrite S1, S2.
  - transitivity (Some (map (setr_argument undef Float UShort) [of_int 4 40000; of_int 4 1] ++ repeat (w0 2) 6)); [destruct avx2; reflexivity|]. cbn [map]. change (@setr_argument undef Float UShort) with (static_cast undef Float Short).
    now rewrite S1, S2.
  - intros U H. unfold cast_ok in H. cbn [is_integer] in H. assert (F : is_Finite (of_int 4 40000) = true) by (vm_compute; reflexivity). specialize (H F).
    assert (Q : Z.quot (@fvalue (esize Float) (of_int 4 40000)) (fone (esize Float)) = 40000%Z) by (vm_compute; reflexivity). rewrite Q in H. specialize (H ltac:(unfold in_range; cbn; lia)).
    unfold int_value in H. cbn [is_signed esize] in H. rewrite uval_mkw in H. apply U. exact H.
Qed.

Lemma C59_converting_constructor_main :
  forall undef from to,
    (forall sse41 n x, ~ (sse41 = false /\ from = Double /\ to = UInt) -> wf (sse_native (esize from)) n x ->
      exists t, converted (sse_native (esize to)) (sse_casts undef sse41 from to) n x = Some t /\ wf (sse_native (esize to)) n t /\
                Forall2 (cast_ok from to) (to_list x) (to_list t)) /\
    (forall avx2 n x, wf (avx_widths_of avx2 from) n x ->
      exists t, converted (avx_widths_of avx2 to) (avx_casts undef (repeat 0%Z 16) avx2 from to) n x = Some t /\ wf (avx_widths_of avx2 to) n t /\
                Forall2 (cast_ok from to) (to_list x) (to_list t)).
Proof.
  intros undef from to. split.
  - intros sse41 n x ND W. pose proof (build_widths from) as Wf. pose proof (build_widths to) as Wt.
    destruct (construct_ok _ _ _ _ _ _ _ Wf Wt (sse_static_ok undef sse41 from to ND) (sse_sizes from to) (S n) n x ltac:(lia) W) as (t & E & Wt' & C).
    exists t. split; [rewrite sse_construct_static by exact W; exact E|]. split; [exact Wt'|]. apply (whole_part _ (fun y => y = w0 (esize to)) n); [now apply (wf_len _ Wf)|exact C].
  - intros avx2 n x W. pose proof (abuild_widths avx2 from) as Wf. pose proof (abuild_widths avx2 to) as Wt.
    destruct (construct_ok _ _ _ _ _ _ _ Wf Wt (avx_static_ok undef avx2 from to) (avx_sizes avx2 from to) (S n) n x ltac:(lia) W) as (t & E & Wt' & C).
    exists t. split; [rewrite avx_construct_static by exact W; exact E|]. split; [exact Wt'|]. apply (whole_part _ (fun y => y = w0 (esize to)) n); [now apply (wf_len _ Wf)|exact C].
Qed.

Lemma C59_to_vector_main :
  forall undef from to,
    (forall ssse3 sse41 add n x, ~ (sse41 = false /\ from = Double /\ to = UInt) -> sse_native (esize to) n = true -> wf (sse_native (esize from)) n x ->
      exists ys, to_native (sse_native (esize from)) (sse_native (esize to)) (sse_build ssse3 from add) (sse_casts undef sse41 from to) (w0 (esize from)) (w0 (esize to)) n x = Some (Leaf ys) /\
                Forall2 (cast_ok from to) (to_list x) ys) /\
    (forall avx2 c add n x, avx_widths_of avx2 to n = true -> wf (avx_widths_of avx2 from) n x ->
      exists ys, to_native (avx_widths_of avx2 from) (avx_widths_of avx2 to) (avx_build avx2 c from add) (avx_casts undef (repeat 0%Z 16) avx2 from to) (w0 (esize from)) (w0 (esize to)) n x = Some (Leaf ys) /\
                Forall2 (cast_ok from to) (to_list x) ys).
Proof.
  intros undef from to. split.
  - intros ssse3 sse41 add n x ND N W. destruct (proj1 (C59_converting_constructor_main undef from to) sse41 n x ND W) as (t & E & Wt' & C).
    destruct t as [ys|l h]; [|inversion Wt'; congruence]. exists ys. split; [|exact C]. rewrite (to_native_converted _ _ _ _ _ _ (build_widths from) (build_widths to) (sse_sizes from to) n x N W). exact E.
  - intros avx2 c add n x N W. destruct (proj2 (C59_converting_constructor_main undef from to) avx2 n x W) as (t & E & Wt' & C).
    destruct t as [ys|l h]; [|inversion Wt'; congruence]. exists ys. split; [|exact C]. rewrite (to_native_converted _ _ _ _ _ _ (abuild_widths avx2 from) (abuild_widths avx2 to) (avx_sizes avx2 from to) n x N W). exact E.
Qed.

Lemma C59_integer_round_trip_main :
  forall undef sse41 from to n x, is_integer from = true -> is_integer to = true -> esize from <= esize to -> wf (sse_native (esize from)) n x ->
    exists t u, converted (sse_native (esize to)) (sse_casts undef sse41 from to) n x = Some t /\
                converted (sse_native (esize from)) (sse_casts undef sse41 to from) n t = Some u /\ to_list u = to_list x.
Proof.
  intros undef sse41 from to n x I J S W.
  destruct (proj1 (C59_converting_constructor_main undef from to) sse41 n x) as (t & E & Wt & F); [intros (_ & -> & _); discriminate I|exact W|].
  destruct (proj1 (C59_converting_constructor_main undef to from) sse41 n t) as (u & E' & Wu & F'); [intros (_ & -> & _); discriminate J|exact Wt|].
  exists t, u. split; [exact E|]. split; [exact E'|]. clear E E' Wt Wu W. revert F'. generalize (to_list u). induction F as [|a b xs ys H _ IH]; intros zs F'; inversion F' as [|? z ? zs' H' F'']; subst; [reflexivity|].
  f_equal; [|now apply IH]. exact (int_round_trip from to a b z I J S H H').
Qed.
