(** Specification vocabulary for C73: decimal numbers, lines and table rows. *)
From Coq Require Import String Ascii ZArith List Bool.
From Verif Require Import SpecMsg SpecInet Address Tables.
Import ListNotations.
Open Scope Z_scope.

(** A natural number in decimal digits without leading zeros, and an integer. *)
Definition natural_text (t : list ascii) (v : Z) : Prop :=
  t <> [] /\ reads 10 t v /\ (forall r, t = "0"%char :: r -> r = []).
Definition decimal (s : string) (v : Z) : Prop :=
  (0 <= v /\ natural_text (list_ascii_of_string s) v) \/
  (v < 0 /\ exists r, list_ascii_of_string s = "-"%char :: r /\ natural_text r (- v)).

(** The lines of a text; behind the last line end there is one more, empty line. *)
Definition line_end : ascii := ascii_of_N 10.
Fixpoint lines (s : string) : list string :=
  match s with
  | EmptyString => [EmptyString]
  | String c r =>
      if Ascii.eqb c line_end then EmptyString :: lines r
      else match lines r with l :: ls => String c l :: ls | [] => [String c EmptyString] end
  end.
(** A text of one line. *)
Definition one_line (s : string) : Prop := ~ In line_end (list_ascii_of_string s).

(** A row of a table's text. *)
Definition row (key entry : string) : string := ("    " ++ key ++ " -> " ++ entry)%string.

(** Address numbers fit in 16 bits. *)
Definition sixteen_bits (a : address) : Prop := 0 <= a_val a < 65536.
Definition table_sixteen (t : address_table) : Prop := sixteen_bits (at_ia t) /\ Forall sixteen_bits (at_addrs t).

(** What of an address, an ASAP and a table can be seen: kind and number, number
    and name (an empty name counts as none). *)
Definition seen_address (is_group : N -> bool) (a : address) : bool * Z := (is_group (a_ref a), a_val a).
Definition seen_asap (a : asap) : Z * option string :=
  (asap_value a, match asap_name a with Some EmptyString => None | n => n end).
Definition seen_table (is_group : N -> bool) (t : address_table) : (bool * Z) * Z * list (bool * Z) :=
  (seen_address is_group (at_ia t), at_max t, map (seen_address is_group) (at_addrs t)).
Definition seen_associations (is_group : N -> bool) (s : assoc_table) : list ((Z * option string) * list (bool * Z)) :=
  map (fun e => (seen_asap (fst e), map (seen_address is_group) (snd e))) (as_addresses s).
Definition one_line_names (l : list asap) : Prop :=
  Forall (fun a => match asap_name a with Some n => one_line n | None => True end) l.
