(** The native vectors of an SSE build satisfy what SimdArray relies on; float and double sorting. *)
From Coq Require Import ZArith List Bool Lia Permutation.
From Verif.Spec Require Import Seq NativeSpec.
From Verif.Model Require Import SplitSize SimdArray ScalarVec Word Fp SseReg SseMove SortNet SseBuild.
From Verif.Proof Require Import SeqP WordP SseMoveP SseVecP SortNetP.
Import ListNotations.
Local Open Scope Z_scope.

Lemma esize_ok e : width_ok (esize e).
Proof. destruct e; unfold width_ok; cbn; auto. Qed.
Lemma build_widths e : widths_ok (sse_native (esize e)).
Proof. apply sse_widths, esize_ok. Qed.
Lemma build_moves ssse3 e add : native_moves_ok (sse_native (esize e)) (w0 (esize e)) (sse_build ssse3 e add).
Proof.
  unfold sse_build. apply sse_moves.
  all: try apply esize_ok; try (intros; apply enc_length); try (intros; apply dec_enc); try apply enc_w0; try (intros; apply Z.lor_0_l); try (intros; apply Z.lor_0_r).
Qed.
Lemma build_sorted ssse3 e add : is_integer e = true -> native_sorted_ok (sse_native (esize e)) (e_le e) (sse_build ssse3 e add).
Proof.
  intros He. unfold sse_build. apply sse_sorted_ok; try apply esize_ok; try (intros; apply enc_length); try (intros; apply dec_enc); try apply enc_w0.
  intros xs L. destruct e; try discriminate He; unfold sse_sort, e_le, e_min, e_max; change (16 / esize _)%nat with 8%nat in L || change (16 / esize _)%nat with 4%nat in L.
  - apply sse_sorted16_ok; auto. apply le_s_total.
  - apply sse_sorted16_ok; auto. apply le_u_total.
  - apply sse_sorted32_ok; auto. apply le_s_total.
  - apply sse_sorted32_ok; auto. apply le_u_total.
Qed.
Lemma build_partial_sum ssse3 e : native_partial_sum_ok (sse_native (esize e)) wadd (sse_build ssse3 e wadd).
Proof.
  unfold sse_build. apply sse_partial_sum_ok; try apply esize_ok; try (intros; apply enc_length); try (intros; apply dec_enc); try apply enc_w0.
  - apply wadd_comm. - apply wadd_assoc. - apply wadd_0_l.
Qed.

(** * sorting non-NaN floating-point values *)
Section F.
  Context {w : nat}.
  Definition num := { x : word w | is_nan x = false }.
  Definition raw (x : num) : word w := proj1_sig x.
  Definition key (x : num) : Z := fkey (raw x).

  Lemma mn_nan (a b : num) : is_nan (mm_fmin (raw a) (raw b)) = false.
  Proof. destruct a, b. unfold mm_fmin. cbn [raw proj1_sig]. now destruct (flt _ _). Qed.
  Lemma mx_nan (a b : num) : is_nan (mm_fmax (raw a) (raw b)) = false.
  Proof. destruct a, b. unfold mm_fmax. cbn [raw proj1_sig]. now destruct (flt _ _). Qed.
  Definition nmin (a b : num) : num := exist _ _ (mn_nan a b).
  Definition nmax (a b : num) : num := exist _ _ (mx_nan a b).
  Lemma raw_min a b : raw (nmin a b) = mm_fmin (raw a) (raw b). Proof. reflexivity. Qed.
  Lemma raw_max a b : raw (nmax a b) = mm_fmax (raw a) (raw b). Proof. reflexivity. Qed.
  Definition zmn (x y : Z) := if x <=? y then x else y.
  Definition zmx (x y : Z) := if x <=? y then y else x.
  Lemma key_min a b : key (nmin a b) = zmn (key a) (key b).
  Proof.
    unfold key. rewrite raw_min. unfold mm_fmin, zmn, flt. destruct a as [a Na], b as [b Nb]. cbn [raw proj1_sig]. rewrite Na, Nb. cbn [negb andb].
    destruct (Z.ltb_spec (fkey a) (fkey b)), (Z.leb_spec (fkey a) (fkey b)); lia.
  Qed.
  Lemma key_max a b : key (nmax a b) = zmx (key a) (key b).
  Proof.
    unfold key. rewrite raw_max. unfold mm_fmax, zmx, flt. destruct a as [a Na], b as [b Nb]. cbn [raw proj1_sig]. rewrite Na, Nb. cbn [negb andb].
    destruct (Z.ltb_spec (fkey b) (fkey a)), (Z.leb_spec (fkey a) (fkey b)); lia.
  Qed.
  Lemma lift_num xs : (forall x, In x xs -> is_nan x = false) -> exists ns, map raw ns = xs.
  Proof.
    induction xs as [|x xs IH]; intros H; [now exists []|].
    destruct IH as [ns E]; [intros; apply H; now right|].
    exists (exist _ x (H x (or_introl eq_refl)) :: ns). cbn. now rewrite E.
  Qed.
  Lemma raw_num ns x : In x (map raw ns) -> is_nan x = false.
  Proof. intros H. apply in_map_iff in H. destruct H as [[y Hy] [<- _]]. exact Hy. Qed.
  Lemma zle_total : total_order Z.leb.
  Proof.
    split; intros; rewrite ?Z.leb_le in *; try lia.
  Qed.
  Lemma sorted_keys (zs : list Z) (ns : list num) : map key ns = zs -> sorted_spec Z.leb zs -> sorted_spec (fun a b => fkey a <=? fkey b) (map raw ns).
  Proof.
    intros <-. induction ns as [|n ns IH]; cbn; auto. intros [H1 H2]. split; auto.
    intros y Hy. apply in_map_iff in Hy. destruct Hy as [m [<- Hm]]. apply (H1 (key m)). now apply in_map.
  Qed.
  (** a network that commutes with homomorphisms and sorts integers sorts non-NaN values *)
  Lemma float_net (net : forall X, (X -> X -> X) -> (X -> X -> X) -> list X -> list X) :
    (forall X Y (f : X -> Y) mn mx mn' mx', (forall a b, f (mn a b) = mn' (f a) (f b)) -> (forall a b, f (mx a b) = mx' (f a) (f b)) ->
       forall xs, map f (net X mn mx xs) = net Y mn' mx' (map f xs)) ->
    forall n, (forall zs : list Z, length zs = n -> sorted_spec Z.leb (net Z zmn zmx zs) /\ Permutation (net Z zmn zmx zs) zs) ->
    forall xs : list (word w), length xs = n -> (forall x, In x xs -> is_nan x = false) ->
      let out := net _ mm_fmin mm_fmax xs in
      (forall x, In x out -> is_nan x = false) /\ sorted_spec (fun a b => fkey a <=? fkey b) out /\ Permutation (map fkey out) (map fkey xs).
  Proof.
    intros Hn n Hz xs L N out. destruct (lift_num xs N) as [ns E].
    assert (O : out = map raw (net num nmin nmax ns)).
    { unfold out. rewrite <- E. symmetry. apply Hn; [apply raw_min|apply raw_max]. }
    assert (K : map key (net num nmin nmax ns) = net Z zmn zmx (map key ns)).
    { apply Hn; [apply key_min|apply key_max]. }
    destruct (Hz (map key ns)) as [S P]. { rewrite map_length, <- L, <- E, map_length. reflexivity. }
    split; [|split].
    - rewrite O. intros x. apply raw_num.
    - rewrite O. now apply (sorted_keys _ _ K).
    - rewrite O, <- E, !map_map. fold key. change (fun x => fkey (raw x)) with key. now rewrite K.
  Qed.
End F.

Definition fp_sorted {w} (out xs : list (word w)) : Prop :=
  (forall x, In x out -> is_nan x = false) /\ sorted_spec fle out /\ Permutation (map fkey out) (map fkey xs).
Lemma sorted_fle w (out : list (word w)) : (forall x, In x out -> is_nan x = false) -> sorted_spec (fun a b => fkey a <=? fkey b) out -> sorted_spec fle out.
Proof.
  induction out as [|x out IH]; cbn; auto. intros H [H1 H2]. split; [|apply IH; auto].
  intros y Hy. unfold fle. rewrite (H x), (H y) by auto. cbn. now apply H1.
Qed.
Lemma fp_net {w} net n : 
    (forall X Y (f : X -> Y) mn mx mn' mx', (forall a b, f (mn a b) = mn' (f a) (f b)) -> (forall a b, f (mx a b) = mx' (f a) (f b)) ->
       forall xs, map f (net X mn mx xs) = net Y mn' mx' (map f xs)) ->
    (forall zs : list Z, length zs = n -> sorted_spec Z.leb (net Z zmn zmx zs) /\ Permutation (net Z zmn zmx zs) zs) ->
    forall xs : list (word w), length xs = n -> (forall x, In x xs -> is_nan x = false) -> fp_sorted (net _ mm_fmin mm_fmax xs) xs.
Proof.
  intros H1 H2 xs L N. destruct (float_net net H1 n H2 xs L N) as [A [B C]]. split; auto. split; auto. now apply sorted_fle.
Qed.
Lemma sse_float_sorted xs : length xs = 4%nat -> (forall x, In x xs -> is_nan x = false) -> fp_sorted (sse_sort Float xs) xs.
Proof.
  apply (fp_net (fun X mn mx => @sse_sorted_ps X mn mx)).
  - intros. now apply hom_sse_ps.
  - intros. apply sse_sorted_ps_ok; auto. apply zle_total.
Qed.
Lemma sse_double_sorted xs : length xs = 2%nat -> (forall x, In x xs -> is_nan x = false) -> fp_sorted (sse_sort Double xs) xs.
Proof.
  apply (fp_net (fun X mn mx => @sse_sorted_pd X mn mx)).
  - intros. now apply hom_sse_pd.
  - intros. apply sse_sorted_pd_ok; auto. apply zle_total.
Qed.
Lemma avx_float_sorted (xs : list (word 4)) : length xs = 8%nat -> (forall x, In x xs -> is_nan x = false) -> fp_sorted (avx_sorted_ps mm_fmin mm_fmax xs) xs.
Proof.
  apply (fp_net (fun X mn mx => @avx_sorted_ps X mn mx)).
  - intros X Y f a b a' b' H1 H2 ys. unfold avx_sorted_ps. rewrite (hom_phase1 f a b a' b' H1 H2).
    destruct (avx_sorted32_phase1 a b ys) as [x y]. cbn [fst snd]. unfold avx_sorted32_b, avx_sorted32_a.
    rewrite (hom_merge f a b a' b' H1 H2). now rewrite nat_shuffle4, nat_unpackhi.
  - intros. apply avx_sorted_ps_ok; auto. apply zle_total.
Qed.
Lemma avx_double_sorted (xs : list (word 8)) : length xs = 4%nat -> (forall x, In x xs -> is_nan x = false) -> fp_sorted (avx_sorted_pd mm_fmin mm_fmax xs) xs.
Proof.
  apply (fp_net (fun X mn mx => @avx_sorted_pd X mn mx)).
  - intros. now apply hom_avx_pd.
  - intros. apply avx_sorted_pd_ok; auto. apply zle_total.
Qed.
