(** Vc::SSE::Mask<T> (sse/mask.h, sse/mask.tcc, mask_cast of sse/detail.h).  [w] is
    sizeof(VectorEntryType), so Size = 16 / w.  A set entry has all bits of its lane set. *)
From Coq Require Import ZArith List Bool.
From Verif.Spec Require Import Seq.
From Verif.Model Require Import Word Fp SseReg SseMove SortNet SseInt SimdArray SimdArrayOps ScalarVec Mem.
Import ListNotations.
Local Open Scope Z_scope.

(** * instructions *)

(** bit i is the i-th boolean *)
Fixpoint bits_to_int (bs : list bool) : Z :=
  match bs with [] => 0 | b :: bs' => Z.b2z b + 2 * bits_to_int bs' end.
(** _mm_movemask_epi8 (w = 1), _mm_movemask_ps (4), _mm_movemask_pd (8): the top bit of each lane *)
Definition movemask (w : nat) (r : reg) : Z := bits_to_int (map negative (lanes w r)).
(** _mm_packs_epi16 (w = 2), _mm_packs_epi32 (w = 4): to w/2 bytes with signed saturation *)
Definition saturate_s (w : nat) (z : Z) : word w := mkw w (Z.max (- 2 ^ (bits w - 1)) (Z.min (2 ^ (bits w - 1) - 1) z)).
Definition packs_epi16 (a b : reg) : reg := pack (map (fun x => saturate_s 1 (sval x)) (lanes 2 a ++ lanes 2 b)).
Definition packs_epi32 (a b : reg) : reg := pack (map (fun x => saturate_s 2 (sval x)) (lanes 4 a ++ lanes 4 b)).
(** _mm_popcnt_u32 *)
Fixpoint popcnt (n : nat) (z : Z) : Z := match n with O => 0 | S n' => z mod 2 + popcnt n' (z / 2) end.
Definition mm_popcnt_u32 (z : Z) : Z := popcnt 32 z.
(** _mm_testz_si128(a, b): 1 if a & b is zero; _mm_testc_si128(a, b): 1 if ~a & b is zero;
    _mm_test_mix_ones_zeros(a, m): 1 if neither (a & m) nor (~a & m) is zero *)
Definition is_zero (r : reg) : bool := forallb (fun b => b =? 0) r.
Definition testz (a b : reg) : bool := is_zero (mm_and a b).
Definition testc (a b : reg) : bool := is_zero (mm_andnot a b).
Definition test_mix (a m : reg) : bool := negb (testz a m) && negb (testc a m).

(** * sse/detail.h:364-409 popcnt4, popcnt8, popcnt16, popcnt32 *)
Definition pop_step (z mask k : Z) : Z := Z.land z mask + Z.land (Z.shiftr z k) mask.
Definition popcnt4 (hw : bool) (n : Z) : Z :=
  if hw then mm_popcnt_u32 n else pop_step (pop_step n 0x5 1) 0x3 2.
Definition popcnt8 (hw : bool) (n : Z) : Z :=
  if hw then mm_popcnt_u32 n else pop_step (pop_step (pop_step n 0x55 1) 0x33 2) 0x0f 4.
Definition popcnt16 (hw : bool) (n : Z) : Z :=
  if hw then mm_popcnt_u32 n
  else pop_step (pop_step (pop_step (pop_step n 0x5555 1) 0x3333 2) 0x0f0f 4) 0x00ff 8.
Definition popcnt32 (hw : bool) (n : Z) : Z :=
  if hw then mm_popcnt_u32 n
  else pop_step (pop_step (pop_step (pop_step (pop_step n 0x55555555 1) 0x33333333 2) 0x0f0f0f0f 4) 0x00ff00ff 8) 0x0000ffff 16.

(** * sse/mask.tcc:35-69 count *)
Definition lane_u (w : nat) (r : reg) : Z := uval (nth 0 (lanes w r) (w0 w)).
Definition m_count (hw : bool) (w : nat) (k : reg) : Z :=
  match w with
  | 8%nat => let mask := movemask 8 k in Z.land mask 1 + Z.shiftr mask 1
  | 4%nat =>
      if hw then mm_popcnt_u32 (movemask 4 k)
      else
        let x := srli_epi 4 k 31 in
        let x := add_epi 4 x (shuffle_epi32 8 x (mm_shuffle 0 1 2 3)) in
        let x := add_epi 4 x (shufflelo_epi16 8 x (mm_shuffle 1 0 3 2)) in
        lane_u 4 x
  | 2%nat =>
      if hw then mm_popcnt_u32 (movemask 1 k) / 2
      else
        let x := srli_epi 2 k 15 in
        let x := add_epi 2 x (shuffle_epi32 8 x (mm_shuffle 0 1 2 3)) in
        let x := add_epi 2 x (shufflelo_epi16 8 x (mm_shuffle 0 1 2 3)) in
        let x := add_epi 2 x (shufflelo_epi16 8 x (mm_shuffle 2 3 0 1)) in
        lane_u 2 x
  | _ => popcnt16 hw (movemask 1 k)
  end.

(** sse/mask.tcc:72-87, mask.h:214 toInt *)
Definition m_to_int (w : nat) (k : reg) : Z :=
  match w with
  | 8%nat => movemask 8 k
  | 4%nat => movemask 4 k
  | 2%nat => movemask 1 (packs_epi16 k mm_setzero)
  | _ => movemask 1 k
  end.
(** sse/mask.h:212 *)
Definition m_shift_mask (k : reg) : Z := movemask 1 k.

(** sse/mask.tcc:146-184, mask.h:153-160 operator== / != *)
Definition m_eq (w : nat) (a b : reg) : bool :=
  match w with
  | 8%nat => movemask 8 a =? movemask 8 b
  | 4%nat => movemask 4 a =? movemask 4 b
  | _ => movemask 1 a =? movemask 1 b
  end.
Definition m_neq (w : nat) (a b : reg) : bool :=
  match w with
  | 8%nat => negb (movemask 8 a =? movemask 8 b)
  | 4%nat => negb (movemask 4 a =? movemask 4 b)
  | _ => negb (movemask 1 a =? movemask 1 b)
  end.

(** sse/mask.h:182-210; [ptest]: Vc_USE_PTEST *)
Definition m_full (ptest : bool) (k : reg) : bool := if ptest then testc k setallone else movemask 1 k =? 0xffff.
Definition m_not_empty (ptest : bool) (k : reg) : bool := if ptest then negb (testz k k) else negb (movemask 1 k =? 0).
Definition m_empty (ptest : bool) (k : reg) : bool := if ptest then testz k k else movemask 1 k =? 0.
Definition m_mix (ptest : bool) (k : reg) : bool :=
  if ptest then test_mix k setallone
  else let tmp := movemask 1 k in negb (tmp =? 0) && negb (Z.lxor tmp 0xffff =? 0).

(** sse/mask.h:162-180 operator!, &, |, ^, &&, || *)
Definition m_not (k : reg) : reg := mm_andnot k setallone.
Definition m_and : reg -> reg -> reg := mm_and.
Definition m_or : reg -> reg -> reg := mm_or.
Definition m_xor : reg -> reg -> reg := mm_xor.

(** sse/mask.h:223-226 get; sse/mask.tcc:208-217 for short_m and ushort_m *)
Definition m_get (w : nat) (k : reg) (i : Z) : bool :=
  match w with
  | 2%nat => negb (Z.land (m_shift_mask k) (Z.shiftl 1 (2 * i)) =? 0)
  | _ => negb (Z.land (m_to_int w k) (Z.shiftl 1 i) =? 0)
  end.
(** sse/mask.h:227-232 set (Storage::set stores MaskBool(v), common/maskbool.h:49-60, in entry i) *)
Definition m_set (w : nat) (k : reg) (i : Z) (v : bool) : reg :=
  pack (list_set (lanes w k) (Z.to_nat i) (wmask w v)).

(** sse/mask.tcc:220-231 firstOne; bsf leaves the result undefined for 0 *)
Fixpoint ctz (n : nat) (z : Z) : Z :=
  match n with O => 0 | S n' => if Z.odd z then 0 else 1 + ctz n' (z / 2) end.
Definition m_first (w : nat) (k : reg) : option Z :=
  let mask := m_to_int w k in if mask =? 0 then None else Some (ctz 32 mask).

(** sse/mask.tcc:234-260 generate *)
Definition m_generate (w : nat) (gen : Z -> bool) : reg := pack (tab (16 / w) (fun i => wmask w (gen i))).

(** sse/mask.h:121 Mask(bool) *)
Definition m_broadcast (b : bool) : reg := if b then setallone else mm_setzero.

(** sse/detail.h:334-348 shifted<amount>(__m128i); sse/mask.tcc:262-300; None: int overflow *)
Definition d_shifted (amount : Z) (r : reg) : reg :=
  if amount =? 0 then r
  else if 0 <? amount then mm_srli r (Z.to_nat amount) else mm_slli r (Z.to_nat (- amount)).
Definition m_shifted (w : nat) (k : reg) (amount : Z) : option reg :=
  let n := amount * Z.of_nat w in
  if (n <? - 2 ^ 31) || (2 ^ 31 <=? n) then None
  else if (-16 <=? n) && (n <=? 16) then Some (d_shifted n k) else Some mm_setzero.

(** the bytes of a little-endian integer stored to / loaded from bool memory *)
Definition low_bytes (n : nat) (r : reg) : list Z := firstn n r.
(** sse/mask.tcc:90-115, 189-196 store: the bytes written *)
Definition m_store (w : nat) (k : reg) : list Z :=
  match w with
  | 8%nat => bytes 2 (Z.land (movemask 1 k) 0x0101)
  | 4%nat => low_bytes 4 (packs_epi16 (srli_epi 2 (packs_epi32 k mm_setzero) 15) mm_setzero)
  | 2%nat => low_bytes 8 (packs_epi16 (srli_epi 2 k 15) mm_setzero)
  | _ => mm_and k (set1 1 1)
  end.
(** sse/mask.tcc:118-143, 197-205 load from the bytes of [16 / w] bools (object representation 0 or 1) *)
Definition m_load (w : nat) (bs : list Z) : reg :=
  match w with
  | 8%nat => m_set 8 (m_set 8 mm_setzero 0 (negb (nth 0 bs 0 =? 0))) 1 (negb (nth 1 bs 0 =? 0))
  | 4%nat =>
      let k := bs ++ repeat 0 12 in
      let k := cmpgt_epi 2 (unpacklo 8 1 k k) mm_setzero in
      unpacklo 8 2 k k
  | 2%nat =>
      let k := bs ++ repeat 0 8 in
      cmpgt_epi 2 (unpacklo 8 1 k k) mm_setzero
  | _ => cmpgt_epi 1 bs mm_setzero
  end.

(** sse/detail.h:412-461 mask_cast<From, To>: entry sizes 16 / From and 16 / To *)
Definition mask_cast (from to : nat) (k : reg) : option reg :=
  match from, to with
  | 2%nat, 4%nat => Some (packs_epi16 k mm_setzero)
  | 2%nat, 8%nat => Some (packs_epi16 (packs_epi16 k mm_setzero) mm_setzero)
  | 4%nat, 2%nat => Some (unpacklo 8 4 k k)
  | 4%nat, 8%nat => Some (packs_epi16 k mm_setzero)
  | 8%nat, 2%nat => let tmp := unpacklo 8 2 k k in Some (unpacklo 8 4 tmp tmp)
  | 8%nat, 4%nat => Some (unpacklo 8 2 k k)
  | 16%nat, 8%nat => Some (unpacklo 8 1 k k)
  | 16%nat, 4%nat => let tmp := unpacklo 8 1 k k in Some (unpacklo 8 2 tmp tmp)
  | 16%nat, 2%nat =>
      let tmp := unpacklo 8 1 k k in let tmp := unpacklo 8 2 tmp tmp in Some (unpacklo 8 4 tmp tmp)
  | _, _ => if Nat.eqb from to then Some k else None
  end.

(** * The native masks of an SSE build: 16 / w entries, and Scalar masks with one entry *)
Definition mask_reg (w : nat) (m : list bool) : reg := pack (map (wmask w) m).
Definition sse_mask_ops (ptest hw : bool) (w : nat) : native_mask_ops :=
  let single {X} (m : list bool) (s v : X) := if Nat.eqb (length m) 1 then s else v in
  let sc := scalar_mask_ops in {|
  k_full := fun m => single m (k_full sc m) (m_full ptest (mask_reg w m));
  k_not_empty := fun m => single m (k_not_empty sc m) (m_not_empty ptest (mask_reg w m));
  k_empty := fun m => single m (k_empty sc m) (m_empty ptest (mask_reg w m));
  k_to_int := fun m => single m (k_to_int sc m) (m_to_int w (mask_reg w m));
  k_count := fun m => single m (k_count sc m) (m_count hw w (mask_reg w m));
  k_first := fun m => single m (k_first sc m) (match m_first w (mask_reg w m) with Some i => i | None => 0 end);
  k_eq := fun a b => single a (k_eq sc a b) (m_eq w (mask_reg w a) (mask_reg w b));
  k_neq := fun a b => single a (k_neq sc a b) (m_neq w (mask_reg w a) (mask_reg w b))
|}.
