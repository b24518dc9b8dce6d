(** Integer SSE intrinsics on registers of 16 bytes (lists of byte values 0..255), and the emulations
    of sse/intrinsics.h.

    The first section gives the meaning of the x86 instructions (Intel Intrinsics Guide; trusted).
    [sse41], [sse42], [ssse3] say whether the build has the instruction set.  The GCC and the generic
    variants of the blendv functions (sse/intrinsics.h:362-384) compute the same bits and are not
    distinguished.  XOP builds (98-104) are not modelled. *)
From Coq Require Import ZArith List Bool.
From Verif.Spec Require Import Seq.
From Verif.Model Require Import Word SseReg SseMove.
Import ListNotations.
Local Open Scope Z_scope.

Definition reg := list Z.

(** a register seen as 16 / w words of w bytes *)
Definition lanes (w : nat) (r : reg) : list (word w) := of_reg w dec r.
Definition pack {w : nat} (xs : list (word w)) : reg := to_reg enc xs.

(** lane-wise instructions *)
Definition lift1 (w : nat) (f : word w -> word w) (a : reg) : reg := pack (map f (lanes w a)).
Definition lift2 (w : nat) (f : word w -> word w -> word w) (a b : reg) : reg := pack (map2 f (lanes w a) (lanes w b)).

(** _mm_and_si128, _mm_or_si128, _mm_xor_si128, _mm_andnot_si128 (~a & b) *)
Definition mm_and (a b : reg) : reg := map2 Z.land a b.
Definition mm_or (a b : reg) : reg := map2 Z.lor a b.
Definition mm_xor (a b : reg) : reg := map2 Z.lxor a b.
Definition mm_andnot (a b : reg) : reg := map2 (fun x y => Z.land (255 - x) y) a b.

(** the all-ones / zero lane a comparison produces *)
Definition wmask (w : nat) (b : bool) : word w := mkw w (if b then -1 else 0).

(** _mm_set1_epi8/16/32, _mm_setzero_si128 *)
Definition set1 (w : nat) (z : Z) : reg := pack (repeat (mkw w z) (16 / w)).
Definition mm_setzero : reg := repeat 0 16.
(** _mm_add_epi*, _mm_sub_epi*, _mm_mullo_epi16 (w = 2) and _mm_mullo_epi32 (w = 4, SSE4.1) *)
Definition add_epi (w : nat) : reg -> reg -> reg := lift2 w wadd.
Definition sub_epi (w : nat) : reg -> reg -> reg := lift2 w wsub.
Definition mullo_epi (w : nat) : reg -> reg -> reg := lift2 w wmul.
(** _mm_cmpgt_epi*, _mm_cmplt_epi*, _mm_cmpeq_epi* *)
Definition cmpgt_epi (w : nat) : reg -> reg -> reg := lift2 w (fun a b => wmask w (sval b <? sval a)).
Definition cmplt_epi (w : nat) : reg -> reg -> reg := lift2 w (fun a b => wmask w (sval a <? sval b)).
Definition cmpeq_epi (w : nat) : reg -> reg -> reg := lift2 w (fun a b => wmask w (uval a =? uval b)).
(** _mm_srli_epi*, _mm_srai_epi*, _mm_slli_epi* with 0 <= k < 8w *)
Definition srli_epi (w : nat) (a : reg) (k : Z) : reg := lift1 w (fun x => mkw w (uval x / 2 ^ k)) a.
Definition srai_epi (w : nat) (a : reg) (k : Z) : reg := lift1 w (fun x => mkw w (sval x / 2 ^ k)) a.
Definition slli_epi (w : nat) (a : reg) (k : Z) : reg := lift1 w (fun x => mkw w (uval x * 2 ^ k)) a.
(** _mm_blendv_epi8: the top bit of each byte of [c] selects *)
Definition mm_blendv_epi8 (a b c : reg) : reg := map3 (fun x y m => if 128 <=? m then y else x) a b c.
(** packed minimum and maximum; signed and unsigned *)
Definition mm_min_epi (w : nat) : reg -> reg -> reg := lift2 w (fun a b => if sval a <? sval b then a else b).
Definition mm_max_epi (w : nat) : reg -> reg -> reg := lift2 w (fun a b => if sval b <? sval a then a else b).
Definition mm_min_epu (w : nat) : reg -> reg -> reg := lift2 w (fun a b => if uval a <? uval b then a else b).
Definition mm_max_epu (w : nat) : reg -> reg -> reg := lift2 w (fun a b => if uval b <? uval a then a else b).
(** _mm_abs_epi* *)
Definition mm_abs_epi (w : nat) : reg -> reg := lift1 w (fun a => mkw w (Z.abs (sval a))).
(** byte-level data movement: units are bytes (u = 8) *)
Definition mm_srli (r : reg) (k : nat) : reg := srli_si128 8 0 r k.
Definition mm_slli (r : reg) (k : nat) : reg := slli_si128 8 0 r k.

(** sse/intrinsics.h:94-96; src/const.cpp minShort = 0x8000, signMaskFloat = 0x80000000 *)
Definition setmin_epi (w : nat) : reg := set1 w (2 ^ (bits w - 1)).
(** sse/intrinsics.h:77 *)
Definition setallone : reg := set1 1 (-1).

(** sse/intrinsics.h:106-110 (w = 1), 116-120 (w = 2), 126-130 (w = 4) *)
Definition cmpgt_epu (w : nat) (a b : reg) : reg :=
  cmpgt_epi w (mm_xor a (setmin_epi w)) (mm_xor b (setmin_epi w)).
(** sse/intrinsics.h:111-115 (w = 2), 121-125 (w = 4) *)
Definition cmplt_epu (w : nat) (a b : reg) : reg :=
  cmplt_epi w (mm_xor a (setmin_epi w)) (mm_xor b (setmin_epi w)).
(** sse/intrinsics.h:131-154 *)
Definition cmpgt_epi64 (sse42 : bool) (a b : reg) : reg :=
  if sse42 then cmpgt_epi 8 a b
  else
    let aa := mm_xor a (srli_epi 8 (setmin_epi 4) 32) in
    let bb := mm_xor b (srli_epi 8 (setmin_epi 4) 32) in
    let gt := cmpgt_epi 4 aa bb in
    let eq := cmpeq_epi 4 aa bb in
    let gt2 := shuffle_epi32 8 gt 245 in
    let lo := shuffle_epi32 8 (mm_and (srli_epi 8 eq 32) gt) 160 in
    mm_or gt2 lo.
(** sse/intrinsics.h:252-255, 348-351 *)
Definition cmpeq_epi64 (sse41 : bool) (a b : reg) : reg :=
  if sse41 then cmpeq_epi 8 a b
  else let tmp := cmpeq_epi 4 a b in mm_and tmp (shuffle_epi32 8 tmp (1 * 1 + 0 * 4 + 3 * 16 + 2 * 64)).
(** sse/intrinsics.h:166-168, 182-203 (w = 1, 2, 4) *)
Definition abs_epi (ssse3 : bool) (w : nat) (a : reg) : reg :=
  if ssse3 then mm_abs_epi w a
  else
    let negative := cmplt_epi w a mm_setzero in
    add_epi w (mm_xor a negative)
      (match w with
       | 1%nat => mm_and negative (set1 1 1)
       | _ => srli_epi w negative (bits w - 1)
       end).
(** sse/intrinsics.h:260-271, 361-385; blendv_pd and blendv_ps of SSE4.1 test the top bit of the
    lane instead of the byte, which is the same for masks with full lanes *)
Definition blendv_epi8 (sse41 : bool) (a b c : reg) : reg :=
  if sse41 then mm_blendv_epi8 a b c else mm_or (mm_andnot c a) (mm_and c b).

(** sse/intrinsics.h:272-275, 389-404; None: abort() *)
Definition blend_pd (sse41 : bool) (mask : nat) (a b : reg) : option reg :=
  if sse41 then Some (blend 8 8 a b mask)
  else match mask with
  | 0%nat => Some a
  | 1%nat => Some (shuffle_pd 8 b a 2)
  | 2%nat => Some (shuffle_pd 8 a b 2)
  | 3%nat => Some b
  | _ => None
  end.

(** _mm_set_epi32(e3, e2, e1, e0) *)
Definition set_epi32 (e3 e2 e1 e0 : Z) : reg := pack (map (mkw 4) [e0; e1; e2; e3]).
Definition set_epi16 (e7 e6 e5 e4 e3 e2 e1 e0 : Z) : reg := pack (map (mkw 2) [e0; e1; e2; e3; e4; e5; e6; e7]).

(** sse/intrinsics.h:276-279, 405-462 *)
Definition blend_ps_mask (mask : nat) : option reg :=
  match mask with
  | 1%nat => Some (mm_srli setallone 12)
  | 2%nat => Some (mm_slli (mm_srli setallone 12) 4)
  | 3%nat => Some (mm_srli setallone 8)
  | 4%nat => Some (mm_slli (mm_srli setallone 12) 8)
  | 5%nat => Some (set_epi32 0 (-1) 0 (-1))
  | 6%nat => Some (mm_slli (mm_srli setallone 8) 4)
  | 7%nat => Some (mm_srli setallone 4)
  | 8%nat => Some (mm_slli setallone 12)
  | 9%nat => Some (set_epi32 (-1) 0 0 (-1))
  | 10%nat => Some (set_epi32 (-1) 0 (-1) 0)
  | 11%nat => Some (set_epi32 (-1) 0 (-1) (-1))
  | 12%nat => Some (mm_slli setallone 8)
  | 13%nat => Some (set_epi32 (-1) (-1) 0 (-1))
  | 14%nat => Some (mm_slli setallone 4)
  | _ => None
  end.
Definition blend_ps (sse41 : bool) (mask : nat) (a b : reg) : option reg :=
  if sse41 then Some (blend 8 4 a b mask)
  else match mask with
  | 0%nat => Some a
  | 15%nat => Some b
  | _ => match blend_ps_mask mask with
         | Some c => Some (mm_or (mm_andnot c a) (mm_and c b))
         | None => None
         end
  end.

(** sse/intrinsics.h:280-283, 463-522 *)
Definition blend_epi16_mask (mask : Z) : reg :=
  if mask =? 0x01 then mm_srli setallone 14
  else if mask =? 0x03 then mm_srli setallone 12
  else if mask =? 0x07 then mm_srli setallone 10
  else if mask =? 0x1f then mm_srli setallone 6
  else if mask =? 0x3f then mm_srli setallone 4
  else if mask =? 0x7f then mm_srli setallone 2
  else if mask =? 0x80 then mm_slli setallone 14
  else if mask =? 0xc0 then mm_slli setallone 12
  else if mask =? 0xe0 then mm_slli setallone 10
  else if mask =? 0xf0 then mm_slli setallone 8
  else if mask =? 0xf8 then mm_slli setallone 6
  else if mask =? 0xfc then mm_slli setallone 4
  else if mask =? 0xfe then mm_slli setallone 2
  else srai_epi 2 (mullo_epi 2 (set1 2 mask) (set_epi16 0x0100 0x0200 0x0400 0x0800 0x1000 0x2000 0x4000 (-0x7fff))) 15.
(** _MM_SHUFFLE(2, 0, 2, 0) = 136, _MM_SHUFFLE(3, 1, 3, 1) = 221 *)
Definition blend_epi16 (sse41 : bool) (mask : Z) (a b : reg) : reg :=
  if sse41 then blend 8 2 a b (Z.to_nat mask)
  else if mask =? 0x00 then a
  else if mask =? 0x0f then unpackhi 8 8 (mm_slli b 8) a
  else if mask =? 0xff then b
  else if mask =? 0xcc then unpacklo 8 4 (shuffle_epi32 8 a 136) (shuffle_epi32 8 b 221)
  else if mask =? 0x33 then unpacklo 8 4 (shuffle_epi32 8 b 136) (shuffle_epi32 8 a 221)
  else let c := blend_epi16_mask mask in mm_or (mm_andnot c a) (mm_and c b).

(** sse/intrinsics.h:284-315 (SSE4.1), 524-547: signed for w = 1, 4, unsigned for w = 2, 4 *)
Definition max_epi (sse41 : bool) (w : nat) (a b : reg) : reg :=
  if sse41 then mm_max_epi w a b else blendv_epi8 sse41 b a (cmpgt_epi w a b).
Definition min_epi (sse41 : bool) (w : nat) (a b : reg) : reg :=
  if sse41 then mm_min_epi w a b else blendv_epi8 sse41 a b (cmpgt_epi w a b).
Definition max_epu (sse41 : bool) (w : nat) (a b : reg) : reg :=
  if sse41 then mm_max_epu w a b else blendv_epi8 sse41 b a (cmpgt_epu w a b).
Definition min_epu (sse41 : bool) (w : nat) (a b : reg) : reg :=
  if sse41 then mm_min_epu w a b else blendv_epi8 sse41 a b (cmpgt_epu w a b).

(** _mm_cvtepu8_epi16 ...: the low entries of [w] bytes, zero or sign extended to 2w bytes *)
Definition mm_cvtepu (w : nat) (a : reg) : reg :=
  pack (map (fun x => mkw (2 * w) (uval x)) (firstn (8 / w) (lanes w a))).
Definition mm_cvtepi (w : nat) (a : reg) : reg :=
  pack (map (fun x => mkw (2 * w) (sval x)) (firstn (8 / w) (lanes w a))).
(** sse/intrinsics.h:316-331, 548-559: w = 1, 2 *)
Definition cvtepu (sse41 : bool) (w : nat) (a : reg) : reg :=
  if sse41 then mm_cvtepu w a else unpacklo 8 w a mm_setzero.
Definition cvtepi (sse41 : bool) (w : nat) (a : reg) : reg :=
  if sse41 then mm_cvtepi w a else unpacklo 8 w a (cmplt_epi w a mm_setzero).
(** sse/intrinsics.h:332-339, 560-567: 8 to 32 bits *)
Definition mm_cvtepu8_epi32 (a : reg) : reg := pack (map (fun x => mkw 4 (uval x)) (firstn 4 (lanes 1 a))).
Definition mm_cvtepi8_epi32 (a : reg) : reg := pack (map (fun x => mkw 4 (sval x)) (firstn 4 (lanes 1 a))).
Definition cvtepu8_epi32 (sse41 : bool) (a : reg) : reg :=
  if sse41 then mm_cvtepu8_epi32 a else cvtepu sse41 2 (cvtepu sse41 1 a).
Definition cvtepi8_epi32 (sse41 : bool) (a : reg) : reg :=
  if sse41 then mm_cvtepi8_epi32 a
  else
    let neg := cmplt_epi 1 a mm_setzero in
    let epi16 := unpacklo 8 1 a neg in
    unpacklo 8 2 epi16 (unpacklo 8 1 neg neg).
