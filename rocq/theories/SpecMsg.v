(** Specification vocabulary for messages and addresses (C01-C03), written
    without reference to the model's functions. *)
From Coq Require Import String Ascii ZArith List Bool.
Import ListNotations.
Open Scope Z_scope.

(** Octets and octet strings. *)
Definition is_octet (z : Z) : Prop := 0 <= z < 256.
Definition octets (m : list Z) : Prop := Forall is_octet m.

(** The number a list of octets denotes, most significant octet first. *)
Definition big_endian (l : list Z) : Z := fold_left (fun v b => 256 * v + b) l 0.

(** The sixteen hexadecimal digits, upper case, and the six lower-case letters. *)
Definition digits : list ascii := list_ascii_of_string "0123456789ABCDEF".
Definition small_letters : list ascii := list_ascii_of_string "abcdef".
Definition is_hex (c : ascii) : Prop := In c digits \/ In c small_letters.
Definition all_hex (s : string) : Prop := Forall is_hex (list_ascii_of_string s).

(** The digit of a number 0..15. *)
Definition digit (n : Z) : ascii := nth (Z.to_nat n) digits "0"%char.

(** Two digits per octet. *)
Definition text_of (m : list Z) : string :=
  string_of_list_ascii (flat_map (fun o => [digit (o / 16); digit (o mod 16)]) m).

(** Upper-case form of a text: letters a-z only. *)
Definition upper_char (c : ascii) : ascii :=
  if (97 <=? Z.of_N (N_of_ascii c)) && (Z.of_N (N_of_ascii c) <=? 122)
  then ascii_of_N (N_of_ascii c - 32) else c.
Definition upper (s : string) : string :=
  string_of_list_ascii (map upper_char (list_ascii_of_string s)).
