(** text written to streams (proofs). *)
From Coq Require Import ZArith Bool Ascii String List Lia.
From Verif.Spec Require Import Seq OutputSpec.
From Verif.Model Require Import Mem SimdArray MemoryClass Output.
Import ListNotations.
Local Open Scope Z_scope.
From Verif.Proof Require Import OutputP.
From Verif.Proof Require MemoryP.

Lemma plain_map {A} (fmt : A -> text) xs : Forall (fun x => plain (fmt x)) xs -> Forall plain (map fmt xs).
Proof. apply Forall_map. Qed.
Lemma print_mask_ok terminal m : exists t, print_mask terminal m = Some t /\ visible t = lit "m[" ++ bits_text m ++ lit "]".
Proof.
  destruct (put_bits_ok terminal m (entry_at m)) as (t & E & C & V); [intros; apply entry_at_nat|].
  unfold print_mask, put_mask. rewrite E. cbn [obind]. eexists. split; [reflexivity|].
  rewrite (closed_blue terminal), vis_blue. cbn [app]. rewrite (visible_plain (lit "m[")) by (apply plainb_ok; reflexivity).
  rewrite C, V, (closed_blue terminal), vis_blue. cbn [app]. rewrite (visible_plain (lit "]")) by (apply plainb_ok; reflexivity).
  rewrite vis_normal, app_nil_r. reflexivity.
Qed.
Lemma print_mask_array_ok terminal (k : sa bool) :
  exists t, print_mask_array terminal k = Some t /\ visible t = [chr 194; chr 171] ++ bits_text (to_list k) ++ [chr 194; chr 187].
Proof.
  destruct (put_bits_ok terminal (to_list k) (get false k)) as (t & E & C & V).
  { intros i H. apply get_nth; [rewrite length_size in H; exact H|apply length_size]. }
  unfold print_mask_array, put_mask_array. rewrite length_size in E. rewrite E. cbn [obind]. eexists. split; [reflexivity|].
  rewrite (closed_blue terminal), vis_blue. cbn [app].
  change (chr 194 :: chr 171 :: t ++ ?x) with ([chr 194; chr 171] ++ t ++ x).
  rewrite (visible_plain [chr 194; chr 171]) by (apply plainb_ok; reflexivity).
  rewrite C, V, (closed_blue terminal), vis_blue. cbn [app].
  change (chr 194 :: chr 187 :: ?x) with ([chr 194; chr 187] ++ x).
  rewrite (visible_plain [chr 194; chr 187]) by (apply plainb_ok; reflexivity).
  rewrite vis_normal, app_nil_r. reflexivity.
Qed.
Lemma print_all {A} (fmt : A -> text) terminal vs : Forall (fun v => v <> []) vs -> Forall (fun v => Forall (fun x => plain (fmt x)) v) vs ->
  exists ts, map (print_vector terminal fmt) vs = map Some ts /\ Forall closed ts /\ map visible ts = map (vector_text fmt) vs.
Proof.
  intros N F. induction vs as [|v vs IH]; [exists []; repeat split; constructor|].
  inversion N; subst. inversion F; subst. destruct (IH ltac:(assumption) ltac:(assumption)) as (ts & E & C & V).
  destruct (print_vector_ok fmt terminal v ltac:(assumption)) as (t & E1 & C1 & V1); [apply plain_map; assumption|].
  exists (t :: ts). cbn [map]. rewrite E, E1, V, V1. repeat split. constructor; assumption.
Qed.
Lemma nth_error_some {A} (xs : list (option A)) ys k : xs = map Some ys -> nth_error ys k = match nth_error xs k with Some x => x | None => None end.
Proof. intros ->. rewrite nth_error_map. destruct (nth_error ys k); reflexivity. Qed.
Lemma print_memory_ok {A} (fmt : A -> text) terminal width m base vs :
  (0 < width)%nat -> Forall (fun v => length v = width) vs -> Z.of_nat (length vs) < 2 ^ 32 -> Z.of_nat (length vs) * Z.of_nat width < 2 ^ 63 ->
  Forall (fun v => Forall (fun x => plain (fmt x)) v) vs -> mem_load m base (length (concat vs)) = Some (concat vs) ->
  exists t, print_memory terminal fmt width (length vs) m base (Z.of_nat (length vs)) = Some t /\
            visible t = lit "{" ++ concat (map (vector_text fmt) vs) ++ lit "}".
Proof.
  intros W L N B F M.
  destruct (print_all fmt terminal vs) as (ts & E & C & V); [|exact F|].
  { eapply Forall_impl; [|exact L]. intros v Hv Q. subst v. cbn in Hv. lia. }
  assert (LT : length ts = length vs) by (rewrite <- (map_length Some ts), <- E, map_length; reflexivity).
  unfold print_memory, put_memory. rewrite <- LT. change (Z.of_nat (length ts)) with (0 + Z.of_nat (length ts)).
  rewrite (vectors32_ok _ ts 0).
  - cbn [obind]. eexists. split; [reflexivity|].
    rewrite (closed_blue terminal), vis_blue. cbn [app]. rewrite (visible_plain (lit "{")) by (apply plainb_ok; reflexivity).
    rewrite (closed_normal terminal), vis_normal. cbn [app]. rewrite (closed_concat ts C), (visible_concat ts C), V.
    rewrite (closed_blue terminal), vis_blue. cbn [app]. rewrite (visible_plain (lit "}")) by (apply plainb_ok; reflexivity).
    rewrite vis_normal, app_nil_r. reflexivity.
  - lia.
  - lia.
  - intros k Hk. rewrite Z.add_0_l. unfold load_vector, vec_addr.
    rewrite MemoryP.offset_small by nia.
    rewrite (load_parts m width vs L base M k) by lia.
    destruct (nth_error vs k) as [v|] eqn:EV; [|apply nth_error_None in EV; lia].
    cbn [obind]. pose proof (nth_error_some _ ts k E) as NS. rewrite nth_error_map, EV in NS. symmetry. exact NS.
Qed.

Lemma C71_vector_main :
forall (A : Type) (fmt : A -> list ascii) (terminal : bool) (xs : list A),
  xs <> [] -> Forall (fun x => plain (fmt x)) xs ->
  exists t, print_vector terminal fmt xs = Some t /\
            visible t = bytes "[" ++ join (bytes ", ") (map fmt xs) ++ bytes "]" /\
            (terminal = false -> t = visible t).
Proof.
intros A fmt terminal xs N F. destruct (print_vector_ok fmt terminal xs N (plain_map fmt xs F)) as (t & E & C & V).
exists t. split; [exact E|]. split; [exact V|]. intros ->. rewrite V.
destruct xs as [|a xs]; [contradiction|]. unfold print_vector in E. cbn [length] in E.
rewrite (put_vector_text fmt false a xs) in E by (intros; apply entry_at_nat). injection E as <-. reflexivity.
Qed.

Lemma C71_vector_numbers_main :
forall (character terminal : bool) (xs : list Z),
  xs <> [] ->
  exists t, print_vector terminal (put_entry_vector character) xs = Some t /\ numbers_shown t = map Some xs.
Proof.
intros character terminal xs N. destruct (print_vector_ok put_int terminal xs N (plain_ints xs)) as (t & E & C & V).
exists t. split; [exact E|]. unfold numbers_shown. rewrite V. destruct xs as [|a xs]; [contradiction|].
rewrite <- (app_nil_r (vector_text _ _)), words_vector. cbn [words]. rewrite app_nil_r. apply values_back.
Qed.

Lemma C71_mask_main :
forall (terminal : bool) (m : list bool),
  exists t, print_mask terminal m = Some t /\
            visible t = bytes "m[" ++ join (bytes " ") (map (@concat ascii) (fours (map bit_text m))) ++ bytes "]" /\
            bits_shown t = m.
Proof.
intros terminal m. destruct (print_mask_ok terminal m) as (t & E & V). exists t. split; [exact E|]. split; [exact V|].
unfold bits_shown. rewrite V, !bits_of_app, bits_of_text. cbn. apply app_nil_r.
Qed.

Lemma C71_array_main :
forall (A : Type) (fmt : A -> list ascii) (zero : A) (terminal : bool) (v : sa A),
  to_list v <> [] -> Forall (fun x => plain (fmt x)) (to_list v) ->
  exists t, print_array terminal fmt zero v = Some t /\
            visible t = bytes "<" ++ join (bytes " | ") (map (join (bytes " ")) (fours (map fmt (to_list v)))) ++ bytes ">".
Proof.
intros A fmt zero terminal v N F.
destruct (put_array_ext fmt terminal (to_list v) (size v) (get zero v)) as (t & E & V); try assumption.
- symmetry. apply length_size.
- intros k H. apply get_nth; [exact H|apply length_size].
- apply plain_map. exact F.
- exists t. split; [exact E|exact V].
Qed.

Lemma C71_array_numbers_partial_main :
forall (terminal : bool) (v : sa Z),
  to_list v <> [] ->
  exists t, print_array terminal (put_entry_array false) 0 v = Some t /\ numbers_shown t = map Some (to_list v).
Proof.
intros terminal v N.
destruct (put_array_ext put_int terminal (to_list v) (size v) (get 0 v)) as (t & E & V); try assumption.
- symmetry. apply length_size.
- intros k H. apply get_nth; [exact H|apply length_size].
- apply plain_ints.
- exists t. split; [exact E|]. unfold numbers_shown. rewrite V. destruct (to_list v) as [|a xs]; [contradiction|].
  rewrite words_array. apply values_back.
Qed.

Lemma C71_array_numbers_refuted_main :
~ (forall (character terminal : bool) (v : sa Z),
     to_list v <> [] ->
     exists t, print_array terminal (put_entry_array character) 0 v = Some t /\ numbers_shown t = map Some (to_list v)).
Proof.
intro H. destruct (H true false (Leaf [65; 65])) as (t & E & N); [discriminate|]. injection E as <-. discriminate N.
Qed.

Lemma C71_mask_array_main :
forall (terminal : bool) (k : sa bool),
  exists t, print_mask_array terminal k = Some t /\
            visible t = [ascii_of_N 194; ascii_of_N 171] ++ join (bytes " ") (map (@concat ascii) (fours (map bit_text (to_list k)))) ++ [ascii_of_N 194; ascii_of_N 187] /\
            bits_shown t = to_list k.
Proof.
intros terminal k. destruct (print_mask_array_ok terminal k) as (t & E & V). exists t. split; [exact E|]. split; [exact V|].
unfold bits_shown. rewrite V, !bits_of_app, bits_of_text. cbn. apply app_nil_r.
Qed.

Lemma C71_memory_partial_main :
forall (A : Type) (fmt : A -> list ascii) (terminal : bool) (width : nat) (m : memory A) (base : Z) (vs : list (list A)),
  (0 < width)%nat -> Forall (fun v => length v = width) vs ->
  Z.of_nat (length vs) < 2 ^ 32 -> Z.of_nat (length vs) * Z.of_nat width < 2 ^ 63 ->
  Forall (fun v => Forall (fun x => plain (fmt x)) v) vs ->
  mem_load m base (length (concat vs)) = Some (concat vs) ->
  exists steps t, print_memory terminal fmt width steps m base (Z.of_nat (length vs)) = Some t /\
    visible t = bytes "{" ++ concat (map (fun v => bytes "[" ++ join (bytes ", ") (map fmt v) ++ bytes "]") vs) ++ bytes "}".
Proof.
intros A fmt terminal width m base vs W L N B F M.
destruct (print_memory_ok fmt terminal width m base vs W L N B F M) as (t & E & V).
exists (length vs), t. split; [exact E|exact V].
Qed.

Lemma C71_memory_numbers_partial_main :
forall (terminal : bool) (width : nat) (m : memory Z) (base : Z) (vs : list (list Z)),
  (0 < width)%nat -> Forall (fun v => length v = width) vs ->
  Z.of_nat (length vs) < 2 ^ 32 -> Z.of_nat (length vs) * Z.of_nat width < 2 ^ 63 ->
  mem_load m base (length (concat vs)) = Some (concat vs) ->
  exists steps t, print_memory terminal put_int width steps m base (Z.of_nat (length vs)) = Some t /\
    numbers_shown t = map Some (concat vs).
Proof.
intros terminal width m base vs W L N B M.
destruct (print_memory_ok put_int terminal width m base vs W L N B) as (t & E & V); [|exact M|].
{ apply Forall_forall. intros v _. apply Forall_forall. intros z _. apply put_int_plain. }
exists (length vs), t. split; [exact E|]. unfold numbers_shown. rewrite V.
rewrite words_sep by (repeat constructor).
rewrite words_vectors.
- cbn. rewrite app_nil_r. apply values_back.
- eapply Forall_impl; [|exact L]. intros v Hv Q. subst v. cbn in Hv. lia.
Qed.

Lemma C71_memory_refuted_main :
forall (A : Type) (fmt : A -> list ascii) (terminal : bool) (width steps : nat) (m : memory A) (base count : Z),
  2 ^ 32 <= count -> print_memory terminal fmt width steps m base count = None.
Proof.
intros. unfold print_memory, put_memory. rewrite vectors32_endless; [reflexivity|split; [lia|reflexivity]|assumption].
Qed.

Lemma C71_memory_entries_refuted_main :
~ (forall (width : nat) (m : memory Z) (base size : Z) (xs : list Z) steps t,
     (0 < width)%nat -> 0 < size -> Z.of_nat (length xs) = size -> mem_load m base (length xs) = Some xs ->
     print_memory false put_int width steps m base (vectors_count width size) = Some t ->
     numbers_shown t = map Some xs).
Proof.
intro H. specialize (H 4%nat (fun a => if (0 <=? a) && (a <? 8) then Some 7 else None) 0 5 [7; 7; 7; 7; 7] 2%nat _ ltac:(lia) ltac:(lia) eq_refl eq_refl eq_refl).
discriminate H.
Qed.

Lemma put_row {A} (fmt : A -> text) terminal width m base vs :
  (0 < width)%nat -> Forall (fun v => length v = width) vs -> Z.of_nat (length vs) * Z.of_nat width < 2 ^ 63 ->
  Forall (fun v => Forall (fun x => plain (fmt x)) v) vs -> mem_load m base (length (concat vs)) = Some (concat vs) ->
  exists t, for_each (length vs) 0 (fun j => x <-- load_vector width m base j; print_vector terminal fmt x) = Some t /\
            closed t /\ visible t = concat (map (vector_text fmt) vs).
Proof.
  intros W L B F M.
  destruct (print_all fmt terminal vs) as (ts & E & C & V); [|exact F|].
  { eapply Forall_impl; [|exact L]. intros v Hv Q. subst v. cbn in Hv. lia. }
  assert (LT : length ts = length vs) by (rewrite <- (map_length Some ts), <- E, map_length; reflexivity).
  exists (concat ts). split; [|split; [apply closed_concat, C|rewrite (visible_concat ts C), V; reflexivity]].
  apply for_each_ok; [exact LT|]. intros k Hk. rewrite Z.add_0_l. unfold load_vector, vec_addr.
  rewrite MemoryP.offset_small by nia.
  rewrite (load_parts m width vs L base M k) by lia.
  destruct (nth_error vs k) as [v|] eqn:EV; [|apply nth_error_None in EV; lia].
  cbn [obind]. pose proof (nth_error_some _ ts k E) as NS. rewrite nth_error_map, EV in NS. symmetry. exact NS.
Qed.
Lemma concat_length_const {A} (vs : list (list A)) w : Forall (fun v => length v = w) vs -> length (concat vs) = (length vs * w)%nat.
Proof. induction 1 as [|v vs H F IH]; [reflexivity|]. cbn [concat length]. rewrite app_length, IH, H. lia. Qed.
Lemma collect {B C} (f : nat -> option C) (Q : C -> B -> Prop) bs :
  (forall i b, nth_error bs i = Some b -> exists t, f i = Some t /\ Q t b) ->
  exists ts, Forall2 Q ts bs /\ forall i, (i < length bs)%nat -> f i = nth_error ts i.
Proof.
  revert f. induction bs as [|b bs IH]; intros f H; [exists []; split; [constructor|intros i Hi; cbn in Hi; lia]|].
  destruct (IH (fun i => f (S i))) as (ts & Q1 & N1); [intros i x E; apply (H (S i)); exact E|].
  destruct (H 0%nat b eq_refl) as (t & E & Qt). exists (t :: ts). split; [constructor; assumption|].
  intros [|i] Hi; [exact E|]. cbn [nth_error]. apply N1. cbn in Hi. lia.
Qed.
Definition nl : text := chr 10 :: lit " ".
Lemma rows_tail (rts : list text) : Forall closed rts ->
  let ts := map (fun t => nl ++ t) rts in
  closed (concat ts) /\ visible (concat ts) = concat (map (fun t => nl ++ visible t) rts).
Proof.
  intros C ts. subst ts. assert (F : Forall closed (map (fun t => nl ++ t) rts)).
  { apply Forall_map. eapply Forall_impl; [|exact C]. intros t Ht. apply closed_app; [apply closed_plain, plainb_ok; reflexivity|exact Ht]. }
  split; [apply closed_concat, F|]. rewrite (visible_concat _ F), map_map. reflexivity.
Qed.
Lemma rows_all {A} (fmt : A -> text) terminal width (m : memory A) columns k base vss :
  width = (2 ^ k)%nat -> Z.of_nat width < 2 ^ 62 -> 0 <= columns < 2 ^ 62 ->
  Forall (fun row => Z.of_nat (length row) = vectors_count width columns /\ Forall (fun v => length v = width /\ Forall (fun x => plain (fmt x)) v) row) vss ->
  mem_load m base (length (concat (map (@concat A) vss))) = Some (concat (map (@concat A) vss)) ->
  exists rts, length rts = length vss /\ Forall closed rts /\ map visible rts = map (fun row => concat (map (vector_text fmt) row)) vss /\
    forall i, (i < length vss)%nat ->
      for_each (Z.to_nat (vectors_count width columns)) 0
        (fun j => x <-- load_vector width m (row_base width base columns (Z.of_nat i)) j; print_vector terminal fmt x) = nth_error rts i.
Proof.
  intros Hk Hw Hc F M.
  destruct (MemoryP.padded_facts k width columns Hk Hw Hc) as (PE & PB & PC & _).
  assert (W0 : (0 < width)%nat) by (rewrite Hk; clear; induction k; cbn; lia).
  assert (L : cell_rows (Z.to_nat (padded_size width columns)) (map (@concat A) vss)).
  { unfold cell_rows. apply Forall_map. eapply Forall_impl; [|exact F]. intros row [LR FR].
    rewrite (concat_length_const row width) by (eapply Forall_impl; [|exact FR]; intros v [Q _]; exact Q). rewrite PE. nia. }
  pose proof (load_parts m _ _ L base M) as P.
  assert (R : forall i row, nth_error vss i = Some row ->
    exists t, for_each (Z.to_nat (vectors_count width columns)) 0
        (fun j => x <-- load_vector width m (row_base width base columns (Z.of_nat i)) j; print_vector terminal fmt x) = Some t /\
      closed t /\ visible t = concat (map (vector_text fmt) row)).
  { intros i row E. assert (Hi : (i < length vss)%nat) by (apply nth_error_Some; congruence).
    rewrite Forall_forall in F. destruct (F row (nth_error_In _ _ E)) as [LR FR].
    assert (FL : Forall (fun v => length v = width) row) by (eapply Forall_impl; [|exact FR]; intros v [Q _]; exact Q).
    replace (Z.to_nat (vectors_count width columns)) with (length row) by lia.
    apply put_row.
    - exact W0.
    - exact FL.
    - rewrite LR, <- PE. lia.
    - eapply Forall_impl; [|exact FR]. intros v [_ Q]. exact Q.
    - specialize (P i). rewrite map_length in P. specialize (P Hi). rewrite nth_error_map, E in P. cbn [option_map] in P.
      rewrite Z2Nat.id in P by lia. unfold row_base. rewrite (concat_length_const row width FL).
      replace (length row * width)%nat with (Z.to_nat (padded_size width columns)) by (rewrite PE; nia). exact P. }
  destruct (collect (fun i => for_each (Z.to_nat (vectors_count width columns)) 0
      (fun j => x <-- load_vector width m (row_base width base columns (Z.of_nat i)) j; print_vector terminal fmt x))
    (fun t row => closed t /\ visible t = concat (map (vector_text fmt) row)) vss R) as (rts & Q & N).
  exists rts. split; [|split; [|split; [|exact N]]].
  - clear -Q. induction Q; [reflexivity|]. cbn [length]. congruence.
  - clear -Q. induction Q as [|t row rts vss [H1 H2] Q IH]; constructor; assumption.
  - clear -Q. induction Q as [|t row rts vss [H1 H2] Q IH]; [reflexivity|]. cbn [map]. rewrite H2, IH. reflexivity.
Qed.

Lemma C71_memory_2d_main :
forall (A : Type) (fmt : A -> list ascii) (terminal : bool) (k width : nat) (m : memory A) (base columns : Z) (rows : list (list (list A))),
  width = (2 ^ k)%nat -> Z.of_nat width < 2 ^ 62 -> 0 <= columns < 2 ^ 62 -> rows <> [] ->
  Forall (fun row => Z.of_nat (length row) = vectors_count width columns /\
                     Forall (fun v => length v = width /\ Forall (fun x => plain (fmt x)) v) row) rows ->
  mem_load m base (length (concat (map (@concat A) rows))) = Some (concat (map (@concat A) rows)) ->
  exists t, print_memory_2d terminal fmt width (length rows) m base columns = Some t /\
    visible t = bytes "{" ++
      join (newline :: bytes " ") (map (fun row => concat (map (fun v => bytes "[" ++ join (bytes ", ") (map fmt v) ++ bytes "]") row)) rows) ++
      bytes "}".
Proof.
intros A fmt terminal k width m base columns rows Hk Hw Hc NE F M.
destruct (rows_all fmt terminal width m columns k base rows Hk Hw Hc F M) as (rts & L & C & V & N).
unfold print_memory_2d, put_memory_2d.
destruct rts as [|t0 rts]; [destruct rows; [contradiction|discriminate L]|].
rewrite (for_each_ok _ _ 0 (t0 :: map (fun t => nl ++ t) rts)).
- cbn [obind]. eexists. split; [reflexivity|].
  inversion C as [|? ? C0 CR]; subst. destruct (rows_tail rts CR) as [CT VT].
  rewrite (closed_blue terminal), vis_blue. cbn [app]. rewrite (visible_plain (lit "{")) by (apply plainb_ok; reflexivity).
  rewrite (closed_normal terminal), vis_normal. cbn [app concat].
  rewrite (closed_app _ _ C0 CT). rewrite C0, VT.
  rewrite (closed_blue terminal), vis_blue. cbn [app]. rewrite (visible_plain (lit "}")) by (apply plainb_ok; reflexivity).
  rewrite vis_normal, app_nil_r.
  match goal with |- _ = ?a ++ join ?s ?r ++ ?b => change r with (map (fun row => concat (map (vector_text fmt) row)) rows) end.
  rewrite <- V. cbn [map]. rewrite join_cons, map_map. reflexivity.
- rewrite <- L. cbn [length]. rewrite map_length. reflexivity.
- intros i Hi. rewrite Z.add_0_l. rewrite (N i Hi). destruct i as [|i].
  + reflexivity.
  + cbn [nth_error]. rewrite nth_error_map. replace (0 <? Z.of_nat (S i)) with true by (symmetry; apply Z.ltb_lt; lia).
    destruct (nth_error rts i); reflexivity.
Qed.

Lemma ends_ok (x t e : text) : Some x = Some t -> (exists b, x = b ++ e) -> exists b, t = b ++ e.
Proof. intros H. injection H as ->. auto. Qed.
Ltac ends := repeat match goal with |- context [obind ?e _] => destruct e; cbn [obind]; [|discriminate] end; intros H; apply (ends_ok _ _ _ H); clear H; unfold color; change (ascii_of_N 27 :: bytes "[0m") with normal; rewrite ?app_assoc; eexists; reflexivity.

Lemma C71_colours_end_main :
forall (A : Type) (fmt : A -> list ascii) (zero : A) (t : list ascii),
  ((exists xs, print_vector true fmt xs = Some t) \/ (exists v, print_array true fmt zero v = Some t) \/
   (exists m, print_mask true m = Some t) \/ (exists k, print_mask_array true k = Some t) \/
   (exists width steps m base count, print_memory true fmt width steps m base count = Some t) \/
   (exists width rows m base columns, print_memory_2d true fmt width rows m base columns = Some t)) ->
  exists before, t = before ++ ascii_of_N 27 :: bytes "[0m".
Proof.
intros A fmt zero t [(xs & H)|[(v & H)|[(m & H)|[(k & H)|[(w & st & m & b & c & H)|(w & r & m & b & c & H)]]]]]; revert H;
    unfold print_vector, print_array, print_mask, print_mask_array, print_memory, print_memory_2d, put_vector, put_array, put_mask, put_mask_array, put_memory, put_memory_2d; ends.
Qed.

Lemma C71_memory_doc_refuted_main :
let m : memory Z := fun a => if (0 <=? a) && (a <? 12) then Some (if a <? 10 then a else 0) else None in
  option_map string_of_list_ascii (print_memory false put_int 4 3 m 0 3) = Some "{[0, 1, 2, 3][4, 5, 6, 7][8, 9, 0, 0]}"%string.
Proof.
reflexivity.
Qed.
