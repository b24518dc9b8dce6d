(** Programs in every build: gather and scatter. *)
From Coq Require Import ZArith List Bool Lia.
From Verif.Spec Require Import Seq NativeSpec GatherSpec PortableSpec.
From Verif.Model Require Import Word SseMove SseBuild SseArith SimdArray Mem AvxMove AvxBuild ScalarVec MaskedDiv GatherScatter AvxGather Program Portable.
From Verif.Proof Require Import WordP SeqP SimdArrayP ScalarVecP SseIntP SseArithP SseBuildP AvxBuildP GatherP AvxGatherP SseVecMain AvxVecMain MaskedDivMain.
Import ListNotations.
Local Open Scope Z_scope.

Lemma write_entries_at {A} (zero : A) (v : list A) (p : Z) (ix : Z -> Z) sel (m : memory A) : scattered_last zero v p ix sel m
  (write_entries (fun i => p + ix i) sel (znth zero v) (tab (length v) (fun i => i)) m).
Proof.
  assert (G : forall n a, let m' := write_entries (fun i => p + ix i) sel (znth zero v) (tab n (fun i => i)) m in
    (m' a = m a /\ forall i, 0 <= i < Z.of_nat n -> sel i = true -> p + ix i <> a) \/
    (exists i, 0 <= i < Z.of_nat n /\ sel i = true /\ p + ix i = a /\ m' a = Some (znth zero v i) /\ forall j, i < j < Z.of_nat n -> sel j = true -> p + ix j <> a)).
  { induction n as [|n IH]; intros a; cbv zeta.
    - left. split; [reflexivity|]. intros; lia.
    - assert (T : tab (S n) (fun i : Z => i) = tab n (fun i => i) ++ [Z.of_nat n]) by (unfold tab; rewrite seq_S, map_app; reflexivity).
      rewrite T. unfold write_entries. rewrite fold_left_app. cbn [fold_left]. specialize (IH a). cbv zeta in IH. unfold write_entries in IH.
      destruct (sel (Z.of_nat n)) eqn:S.
      + destruct (Z.eqb_spec a (p + ix (Z.of_nat n))) as [->|N].
        * right. exists (Z.of_nat n). repeat split; auto; try lia.
        * destruct IH as [(E & H)|(i & H1 & H2 & H3 & H4 & H5)].
          -- left. split; [exact E|]. intros i Hi Si. destruct (Z.eq_dec i (Z.of_nat n)) as [->|]; [congruence|]. apply H; auto. lia.
          -- right. exists i. repeat split; auto; try lia. intros j Hj Sj. destruct (Z.eq_dec j (Z.of_nat n)) as [->|]; [congruence|]. apply H5; auto. lia.
      + destruct IH as [(E & H)|(i & H1 & H2 & H3 & H4 & H5)].
        * left. split; [exact E|]. intros i Hi Si. destruct (Z.eq_dec i (Z.of_nat n)) as [->|]; [congruence|]. apply H; auto. lia.
        * right. exists i. repeat split; auto; try lia. intros j Hj Sj. destruct (Z.eq_dec j (Z.of_nat n)) as [->|]; [congruence|]. apply H5; auto. lia. }
  intros a. exact (G (length v) a).
Qed.
Lemma scattered_unique {A} (zero : A) v p ix sel (m m0 m1 m2 : memory A) : (forall a, m0 a = m a) ->
  scattered_last zero v p ix sel m0 m1 -> scattered_last zero v p ix sel m m2 -> forall a, m1 a = m2 a.
Proof.
  intros M H1 H2 a. destruct (H1 a) as [(A1 & A2)|(i & A1 & A2 & A3 & A4 & A5)], (H2 a) as [(B1 & B2)|(j & B1 & B2 & B3 & B4 & B5)].
  - now rewrite A1, B1.
  - elim (A2 j B1 B2 B3).
  - elim (B2 i A1 A2 A3).
  - destruct (Z.lt_trichotomy i j) as [L|[->|L]]; [elim (A5 j (conj L (proj2 B1)) B2 B3)|congruence|elim (B5 i (conj L (proj2 A1)) A2 A3)].
Qed.

Section MemBuild.
  Context (b : build) (e : etype).
  Let W := b_native b e.
  Lemma mem_widths : widths_ok W.
  Proof using. unfold W, b_native. destruct (b_impl b); cbn [div_native]; [apply scalar_widths|apply build_widths|apply abuild_widths]. Qed.
  Lemma scalar_sse w k : scalar_native k = true -> sse_native w k = true.
  Proof using. unfold scalar_native, sse_native. intros ->. reflexivity. Qed.
  Lemma b_index_ok n ix : index_ok n (IxPointer (tab n ix) 0).
  Proof using. cbn. rewrite tab_length. lia. Qed.
  Lemma b_index_at n ix i : 0 <= i < Z.of_nat n -> index_at (IxPointer (tab n ix) 0) i = ix i.
  Proof using. intros H. cbn [index_at]. rewrite Z.add_0_l. now apply znth_tab. Qed.
  Lemma b_gather_ok n t m p ix k : wf W n t -> match k with Some ks => wf W n ks | None => True end ->
    mapped m p ix n (selected (option_map to_list k)) ->
    exists r, b_gather b e n t m p ix k = Some r /\ wf W n r /\ gathered (w0 _) m p ix (selected (option_map to_list k)) (to_list t) (to_list r).
  Proof using.
    intros Wt Wk M. assert (Lt : length (to_list t) = n) by exact (wf_len W mem_widths n t Wt).
    assert (X : forall sel r, gathered (w0 _) m p (index_at (IxPointer (tab n ix) 0)) sel (to_list t) r -> gathered (w0 (esize e)) m p ix sel (to_list t) r).
    { intros sel r. apply gathered_ext. intros i Hi. split; [|reflexivity]. apply b_index_at. unfold elt in *. lia. }
    assert (M' : mapped m p (index_at (IxPointer (tab n ix) 0)) n (selected (option_map to_list k))).
    { intros i Hi S. rewrite b_index_at by auto. now apply M. }
    unfold b_gather. destruct k as [ks|]; cbn [option_map selected] in *.
    - assert (G : exists g, ngather_masked_ok (w0 (esize e)) W g /\ b_gather b e n t m p ix (Some ks) = gather_mask g m p (IxPointer (tab n ix) 0) ks t).
      { unfold b_gather, W, b_native. destruct (b_impl b) as [|s|avx2 gcc]; cbn [div_native].
        - exists (native_gather_masked SimpleLoop (b_popcnt b) (esize e)). split; [|reflexivity].
          intros m0 mem idx ks0 v N. apply (native_gather_masked_ok (w0 _) SimpleLoop (b_popcnt b) (esize e) (esize_ok e) eq_refl). now apply scalar_sse.
        - exists (native_gather_masked SimpleLoop (b_popcnt b) (esize e)). split; [|reflexivity]. exact (native_gather_masked_ok (w0 _) SimpleLoop (b_popcnt b) (esize e) (esize_ok e) eq_refl).
        - exists (avx_native_gather_masked SimpleLoop (b_popcnt b) (esize e)). split; [|reflexivity]. exact (avx_native_gather_masked_ok (w0 _) SimpleLoop (b_popcnt b) avx2 e eq_refl). }
      destruct G as (g & G1 & G2). unfold b_gather in G2. rewrite G2.
      destruct (gather_mask_ok (w0 _) W mem_widths g m p G1 n t Wt ks (IxPointer (tab n ix) 0) Wk (b_index_ok n ix)) as [Q _].
      destruct (Q M') as (r & R1 & R2 & R3). exists r. split; [exact R1|]. split; [exact R2|]. now apply X.
    - assert (G : b_gather b e n t m p ix None = gather gather_all m p (IxPointer (tab n ix) 0) t) by (unfold b_gather; destruct (b_impl b); reflexivity).
      unfold b_gather in G. rewrite G.
      assert (G1 : ngather_ok (w0 (esize e)) W gather_all) by (intros m0 mem idx v _; apply gather_all_ok).
      destruct (gather_ok (w0 _) W mem_widths gather_all m p G1 n t Wt (IxPointer (tab n ix) 0) (b_index_ok n ix)) as [Q _].
      destruct (Q M') as (r & R1 & R2 & R3). exists r. split; [exact R1|]. split; [exact R2|]. now apply X.
  Qed.
  Lemma b_scatter_ok n t m p ix k : wf W n t -> match k with Some ks => wf W n ks | None => True end ->
    mapped m p ix n (selected (option_map to_list k)) ->
    exists m', b_scatter b e n t m p ix k = Some m' /\ scattered_last (w0 _) (to_list t) p ix (selected (option_map to_list k)) m m'.
  Proof using.
    intros Wt Wk M. assert (Lt : length (to_list t) = n) by exact (wf_len W mem_widths n t Wt).
    assert (X : forall sel m', scattered_gen true (w0 _) (to_list t) p (index_at (IxPointer (tab n ix) 0)) sel m m' -> scattered_last (w0 (esize e)) (to_list t) p ix sel m m').
    { intros sel m' H. apply scattered_last_of_gen. revert H. apply scattered_ext. intros i Hi. split; [|reflexivity]. apply b_index_at. unfold elt in *. lia. }
    assert (M' : mapped m p (index_at (IxPointer (tab n ix) 0)) n (selected (option_map to_list k))).
    { intros i Hi S. rewrite b_index_at by auto. now apply M. }
    destruct k as [ks|]; cbn [option_map selected] in *.
    - assert (G : exists g, nscatter_masked_ok (w0 (esize e)) W true g /\ b_scatter b e n t m p ix (Some ks) = scatter_mask g t p (IxPointer (tab n ix) 0) ks m).
      { unfold b_scatter, W, b_native. destruct (b_impl b) as [|s|avx2 gcc]; cbn [div_native].
        - exists (native_scatter_masked (w0 _) SimpleLoop (b_popcnt b) (esize e)). split; [|reflexivity].
          intros m0 mem idx ks0 v N. apply (native_scatter_masked_ok (w0 _) SimpleLoop (b_popcnt b) (esize e) (esize_ok e) eq_refl). now apply scalar_sse.
        - exists (native_scatter_masked (w0 _) SimpleLoop (b_popcnt b) (esize e)). split; [|reflexivity]. exact (native_scatter_masked_ok (w0 _) SimpleLoop (b_popcnt b) (esize e) (esize_ok e) eq_refl).
        - exists (avx_native_scatter_masked (w0 _) SimpleLoop (b_popcnt b) (esize e)). split; [|reflexivity]. exact (avx_native_scatter_masked_ok (w0 _) SimpleLoop (b_popcnt b) avx2 e eq_refl). }
      destruct G as (g & G1 & ->).
      destruct (scatter_mask_ok (w0 _) W mem_widths true g p G1 n t Wt ks (IxPointer (tab n ix) 0) m Wk (b_index_ok n ix)) as [Q _].
      destruct (Q M') as (r & R1 & R2). exists r. split; [exact R1|]. now apply X.
    - assert (G : b_scatter b e n t m p ix None = scatter (scatter_all (w0 _)) t p (IxPointer (tab n ix) 0) m) by (unfold b_scatter; destruct (b_impl b); reflexivity).
      rewrite G.
      assert (G1 : nscatter_ok (w0 (esize e)) W true (scatter_all (w0 _))) by (intros m0 mem idx v _; apply scatter_all_ok).
      destruct (scatter_ok (w0 _) W mem_widths true _ p G1 n t Wt (IxPointer (tab n ix) 0) m (b_index_ok n ix)) as [Q _].
      destruct (Q M') as (r & R1 & R2). exists r. split; [exact R1|]. now apply X.
  Qed.
End MemBuild.
