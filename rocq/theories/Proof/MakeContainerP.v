(** Proofs about Model/MakeContainer. *)
From Coq Require Import List Arith Lia.
From Verif.Model Require Import MakeContainer.
Import ListNotations.

Lemma skipn_twice {A} : forall b a (l : list A), skipn a (skipn b l) = skipn (b + a) l.
Proof. induction b as [|b IH]; intros a l; [reflexivity|]. destruct l; cbn; [now rewrite skipn_nil|apply IH]. Qed.
Section MakeContainer.
  Context {A : Type} (zero : A) (size : nat) (H1 : 1 <= size).
  Lemma load_loop_ok : forall k (init : list A), k * size <= length init ->
    exists vs, load_loop size k init = Some (vs, skipn (k * size) init) /\ length vs = k /\ Forall (fun v => length v = size) vs /\ concat vs = firstn (k * size) init.
  Proof.
    induction k as [|k IH]; intros init L; [exists []; cbn; auto|]. cbn [load_loop]. destruct (Nat.ltb_spec (length init) size); [cbn in L; lia|].
    destruct (IH (skipn size init)) as (vs & E & N & F & C); [rewrite skipn_length; cbn in L; lia|]. rewrite E. exists (firstn size init :: vs).
    split; [f_equal; f_equal; rewrite skipn_twice; f_equal; cbn; lia|]. split; [cbn; lia|]. split; [constructor; auto; rewrite firstn_length; lia|].
    cbn [concat]. rewrite C. rewrite <- (firstn_skipn size (firstn (S k * size) init)). f_equal; [rewrite firstn_firstn; f_equal; cbn; lia|].
    rewrite skipn_firstn_comm. f_equal. cbn. lia.
  Qed.
  Lemma fill_ok : forall init done : list A, length done + length init <= size ->
    fill size (done ++ repeat zero (size - length done)) (length done) init = Some (done ++ init ++ repeat zero (size - length done - length init)).
  Proof.
    induction init as [|x init IH]; intros done L; cbn [fill length app]; [now rewrite Nat.sub_0_r|]. cbn in L.
    destruct (Nat.ltb_spec (length done) size); [|lia]. specialize (IH (done ++ [x])). rewrite app_length in IH. cbn in IH.
    replace (write (done ++ repeat zero (size - length done)) (length done) x) with ((done ++ [x]) ++ repeat zero (size - (length done + 1))).
    - rewrite Nat.add_1_r in *. rewrite IH by lia. rewrite <- app_assoc. cbn. do 4 f_equal. f_equal. lia.
    - unfold write. replace (size - length done) with (S (size - (length done + 1))) by lia.
      rewrite (skipn_app (S (length done))), (skipn_all2 done) by lia. replace (S (length done) - length done) with 1 by lia. cbn [repeat skipn app].
      rewrite firstn_app, Nat.sub_diag, firstn_all. cbn [firstn]. rewrite app_nil_r, <- app_assoc. reflexivity.
  Qed.
  Lemma make_container_ok l : l <> [] ->
    exists vs, make_container zero size l = Some vs /\ (length vs - 1) * size < length l <= length vs * size /\ Forall (fun v => length v = size) vs /\
               concat vs = l ++ repeat zero (length vs * size - length l).
  Proof.
    intros NE. unfold make_container, container_size. set (c := (length l + (size - 1)) / size).
    assert (NL : 1 <= length l) by (destruct l; [congruence|cbn; lia]).
    pose proof (Nat.div_mod (length l + (size - 1)) size ltac:(lia)) as D. pose proof (Nat.mod_upper_bound (length l + (size - 1)) size ltac:(lia)) as B. fold c in D.
    assert (C : (c - 1) * size < length l <= c * size) by nia. destruct c as [|k]; [lia|]. replace (S k - 1) with k in C by lia.
    destruct (load_loop_ok k l ltac:(lia)) as (vs & E & N & F & CC). rewrite E.
    pose proof (fill_ok (skipn (k * size) l) [] ltac:(rewrite skipn_length; cbn in *; lia)) as FO. cbn [app length] in FO. rewrite Nat.sub_0_r in FO. rewrite FO.
    exists (vs ++ [skipn (k * size) l ++ repeat zero (size - length (skipn (k * size) l))]). split; [reflexivity|]. rewrite app_length. cbn [length]. rewrite N.
    split; [replace (k + 1 - 1) with k by lia; replace ((k + 1) * size) with (S k * size) by lia; exact C|]. split.
    - apply Forall_app. split; auto. constructor; [|constructor]. rewrite app_length, repeat_length. rewrite skipn_length. cbn in C. lia.
    - rewrite concat_app, CC. cbn [concat]. rewrite app_nil_r, app_assoc, firstn_skipn. f_equal. f_equal. rewrite skipn_length. cbn in C. lia.
  Qed.
End MakeContainer.
