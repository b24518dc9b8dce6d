(** What a reader sees of, and can read from, the text written to a stream.  A text is a list of bytes. *)
From Coq Require Import ZArith List Bool Ascii String.
Import ListNotations.
Local Open Scope Z_scope.

Definition bytes (s : string) : list ascii := list_ascii_of_string s.
Definition ESC : ascii := ascii_of_N 27.
Definition newline : ascii := ascii_of_N 10.

(** The visible part of a text: escape sequences, which begin with ESC and end with the letter m, show
    nothing. *)
Fixpoint visible_from (in_escape : bool) (t : list ascii) : list ascii :=
  match t with
  | [] => []
  | c :: t' =>
      if in_escape then visible_from (negb (Ascii.eqb c "m"%char)) t'
      else if Ascii.eqb c ESC then visible_from true t'
      else c :: visible_from false t'
  end.
Definition visible (t : list ascii) : list ascii := visible_from false t.
(** A text without escape sequences *)
Definition plain (t : list ascii) : Prop := ~ In ESC t.

(** a sep b sep c *)
Fixpoint join {A} (sep : list A) (xs : list (list A)) : list A :=
  match xs with
  | [] => []
  | [x] => x
  | x :: xs' => x ++ sep ++ join sep xs'
  end.
(** Groups of four, the last may be shorter *)
Fixpoint fours {A} (xs : list A) : list (list A) :=
  match xs with
  | [] => []
  | [a] => [[a]]
  | [a; b] => [[a; b]]
  | [a; b; c] => [[a; b; c]]
  | a :: b :: c :: d :: xs' => [a; b; c; d] :: fours xs'
  end.

(** The value of a decimal number with an optional sign, [None] when the text is not one *)
Definition digit_value (c : ascii) : option Z :=
  let z := Z.of_N (N_of_ascii c) - 48 in
  if (0 <=? z) && (z <=? 9) then Some z else None.
Fixpoint unsigned_value (acc : Z) (t : list ascii) : option Z :=
  match t with
  | [] => Some acc
  | c :: t' => match digit_value c with Some d => unsigned_value (10 * acc + d) t' | None => None end
  end.
Definition number_value (t : list ascii) : option Z :=
  match t with
  | [] => None
  | c :: t' =>
      if Ascii.eqb c "-"%char
      then match t' with [] => None | _ => option_map Z.opp (unsigned_value 0 t') end
      else unsigned_value 0 t
  end.

(** The maximal runs of characters of numbers in a text, from left to right *)
Definition number_char (c : ascii) : bool :=
  Ascii.eqb c "-"%char || match digit_value c with Some _ => true | None => false end.
Fixpoint words (current : list ascii) (t : list ascii) : list (list ascii) :=
  match t with
  | [] => match current with [] => [] | _ => [current] end
  | c :: t' =>
      if number_char c then words (current ++ [c]) t'
      else match current with [] => words [] t' | _ => current :: words [] t' end
  end.
(** The numbers a text shows, from left to right *)
Definition numbers_shown (t : list ascii) : list (option Z) := map number_value (words [] (visible t)).
(** The bits a text shows, from left to right *)
Fixpoint bits_of (t : list ascii) : list bool :=
  match t with
  | [] => []
  | c :: t' => if Ascii.eqb c "1"%char then true :: bits_of t'
               else if Ascii.eqb c "0"%char then false :: bits_of t' else bits_of t'
  end.
Definition bits_shown (t : list ascii) : list bool := bits_of (visible t).
Definition bit_text (b : bool) : list ascii := if b then bytes "1" else bytes "0".

(** x[i] *)
Definition entry_at {A} (xs : list A) (i : Z) : option A := if i <? 0 then None else nth_error xs (Z.to_nat i).
