(** sqrt, rsqrt and reciprocal of native vectors and of SimdArray<T, N> (T = float, double).

    The instructions sqrtps and sqrtpd and std::sqrt round correctly ([fsqrt] of Transcend.v).  rcpps and rsqrtps are
    approximations that differ between processors: [approx] holds the functions of one processor, nothing is assumed about
    them here (RootSpec.v has what the manuals promise).  Simplification: no extended precision, no flush-to-zero. *)
From Coq Require Import ZArith List Bool.
From Verif.Spec Require Import Seq FloatSpec.
From Verif.Model Require Import Word Fp FpArith SseReg SseMove SortNet SseInt SseBuild SseArith SimdArray SimdArrayOps
  AvxReg AvxMove AvxBuild AvxShuffle AvxArith ScalarVec ScalarMath Transcend ArrayMath.
Import ListNotations.
Local Open Scope Z_scope.

(** the processor's rcpps and rsqrtps for one entry *)
Record approx := { rcp : word 4 -> word 4; rsq : word 4 -> word 4 }.

(** scalar/math.h:75-83 *)
Definition s_sqrt {w} (x : word w) : word w := fsqrt x.
Definition s_rsqrt {w} (x : word w) : word w := fdiv (of_int w 1) (s_sqrt x).

(** sse/vector.h:453-455; sse/vectorhelper.h:171, 252 (sqrtpd, sqrtps) *)
Definition v_sqrt (w : nat) : reg -> reg := lift1 w fsqrt.
(** divpd of one() and x: sse/vectorhelper.h:172-177 *)
Definition one_pd : reg := pack (repeat (of_int 8 1) 2).
Definition v_rsqrt (h : approx) (w : nat) (x : reg) : reg :=
  match w with 4%nat => lift1 4 (rsq h) x (* 252: rsqrtps *) | _ => lift2 8 fdiv one_pd (v_sqrt 8 x) end.
Definition v_reciprocal (h : approx) (w : nat) (x : reg) : reg :=
  match w with 4%nat => lift1 4 (rcp h) x (* 262-264: rcpps *) | _ => lift2 8 fdiv one_pd x end.

(** avx/math.h:53-72; avx/vectorhelper.h:135-141, 209-212 *)
Definition y_sqrt (w : nat) : yreg -> yreg := ymap1 (v_sqrt w).
Definition yone_pd : yreg := ypack (repeat (of_int 8 1) 4).
Definition y_rsqrt (h : approx) (w : nat) (x : yreg) : yreg :=
  match w with 4%nat => ymap1 (lift1 4 (rsq h)) x | _ => ymap2 (lift2 8 fdiv) yone_pd (y_sqrt 8 x) end.
Definition y_reciprocal (h : approx) (w : nat) (x : yreg) : yreg :=
  match w with 4%nat => ymap1 (lift1 4 (rcp h)) x | _ => ymap2 (lift2 8 fdiv) yone_pd x end.

(** simdarray.h:1842, 1844, 1852 *)
Definition a_sqrt b w : sa (word w) -> sa (word w) := op1 (leaf1 b w s_sqrt (fun _ => v_sqrt w) (y_sqrt w)).
Definition a_rsqrt h b w : sa (word w) -> sa (word w) := op1 (leaf1 b w s_rsqrt (fun _ => v_rsqrt h w) (y_rsqrt h w)).
Definition a_reciprocal h b w : sa (word w) -> sa (word w) := op1 (leaf1 b w s_reciprocal (fun _ => v_reciprocal h w) (y_reciprocal h w)).
