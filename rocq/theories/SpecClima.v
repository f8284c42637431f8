(** Specification vocabulary for C51 and C107: texts given for a temperature. *)
From Coq Require Import String Ascii ZArith List Bool.
Import ListNotations.
Open Scope Z_scope.

Definition text_digit (c : ascii) : bool := existsb (Ascii.eqb c) (list_ascii_of_string "0123456789").
Definition text_bar (c : ascii) : bool := Ascii.eqb c "_".
(** No two underscores in a row. *)
Fixpoint single_bars (l : list ascii) : bool :=
  match l with
  | c :: r => match r with c' :: _ => negb (text_bar c && text_bar c') | [] => true end && single_bars r
  | [] => true
  end.
(** Digits, possibly with single underscores between them. *)
Definition plain_number (l : list ascii) : bool :=
  forallb (fun c => text_digit c || text_bar c) l &&
  match l with c :: _ => text_digit c | [] => false end && text_digit (last l "_"%char) && single_bars l.
(** The number written in decimal digits, whatever else stands between them. *)
Definition digits_number (l : list ascii) : Z :=
  fold_left (fun a c => 10 * a + (Z.of_N (N_of_ascii c) - 48)) (filter text_digit l) 0.
(** A text multiplied by ten is the text written ten times. *)
Definition tenths_of_text (s : string) : option Z :=
  let l := list_ascii_of_string s in
  if plain_number l then Some (digits_number (concat (repeat l 10))) else None.
