(** Text forms: what repr and str give for numbers, addresses and tables.  All
    values in ctypes unions lie within their width, so that the padded
    hexadecimal formats always give the stated number of digits. *)
From Coq Require Import String Ascii ZArith List Bool NArith.
From Verif Require Import Py Msg Address Dpt Tables.
Import ListNotations.
Open Scope Z_scope.
Local Open Scope string_scope.

(** ["%0wX" % v] for a value of at most w hexadecimal digits. address.py 35-36
    and 82-90 and msg.py 85. *)
Fixpoint hexpad (w : nat) (v : Z) : string :=
  match w with
  | O => ""
  | S k => hexpad k (v / 16) ++ String (hexdigit (v mod 16)) ""
  end.
(** ["%d" % v] and ["{}".format(v)] of a natural number; each step divides by
    ten, and the number of binary digits bounds the number of steps. address.py
    35-36 and 82-90 and definition/layer/network/address_table.py 160-168. *)
Definition decdigit (n : Z) : ascii := ascii_of_N (Z.to_N (48 + n)).
Fixpoint dec_steps (fuel : nat) (v : Z) : string :=
  match fuel with
  | O => ""
  | S k => (if (v <? 10)%Z then "" else dec_steps k (v / 10)) ++ String (decdigit (v mod 10)) ""
  end.
Definition dec_nat (v : Z) : string := dec_steps (S (Z.to_nat (Z.log2 v))) v.
(** ... and of any integer: "{}" in definition/layer/network/address_table.py
    160-168 and association_table.py 44-46. *)
Definition dec (v : Z) : string := if (v <? 0)%Z then "-" ++ dec_nat (- v) else dec_nat v.

(** msg.py 111-112, 159-160, 204-205: Octect, Short, Long. *)
Definition octect_text (v : Z) : string := "0x" ++ hexpad 2 v.
Definition short_text (v : Z) : string := "0x" ++ hexpad 4 v.
Definition long_text (v : Z) : string := "0x" ++ hexpad 8 v.

(** address.py 35-36 Address.__repr__. *)
Definition individual_text (v : Z) : string := "0x" ++ hexpad 4 v.
(** address.py 82-90 GroupAddress.__repr__. *)
Definition group_text (v : Z) : string :=
  "(0x" ++ hexpad 4 v ++ " " ++ dec (two_main v) ++ "/" ++ dec (two_sub v) ++ " "
  ++ dec (three_main v) ++ "/" ++ dec (three_middle v) ++ "/" ++ dec (three_sub v) ++ ")".
(** An address object is an Address or a GroupAddress; [is_group] tells which,
    by the identity of the object. address.py 35-36 and 82-90. *)
Definition addr_text (is_group : N -> bool) (a : address) : string :=
  if is_group (a_ref a) then group_text (a_val a) else individual_text (a_val a).

(** The line ends of definition/layer/network/address_table.py 160-168. *)
Definition newline : string := String (ascii_of_N 10) "".

(** address_table.py 159-170 AddressTable.__repr__. *)
Fixpoint at_rows (is_group : N -> bool) (tsap : Z) (l : list address) : string :=
  match l with
  | [] => ""
  | a :: r => "    " ++ dec tsap ++ " -> " ++ addr_text is_group a ++ newline ++ at_rows is_group (tsap + 1) r
  end.
Definition at_text (is_group : N -> bool) (t : address_table) : string :=
  "AddressTable: individual address: " ++ addr_text is_group (at_ia t) ++ ", max_size=" ++ dec (at_max t) ++ newline ++ newline
  ++ "    tsap -> individual address" ++ newline
  ++ "    0 -> " ++ addr_text is_group (at_ia t) ++ newline
  ++ "    tsap -> group address (hex_free_style two_level_style three_level_style)" ++ newline
  ++ at_rows is_group 1 (at_addrs t).

(** association_table.py 42-47 ASAP.__repr__: an empty name counts as none. *)
Definition asap_text (a : asap) : string :=
  match asap_name a with
  | None | Some "" => dec (asap_value a)
  | Some n => dec (asap_value a) ++ " (" ++ n ++ ")"
  end.
(** The text of a list of addresses.
    definition/layer/transport/association_table.py 209-214. *)
Fixpoint joined (is_group : N -> bool) (l : list address) : string :=
  match l with
  | [] => ""
  | [a] => addr_text is_group a
  | a :: r => addr_text is_group a ++ ", " ++ joined is_group r
  end.
(** definition/layer/transport/association_table.py 209-214. *)
Definition list_text (is_group : N -> bool) (l : list address) : string := "[" ++ joined is_group l ++ "]".
(** association_table.py 209-214 AssociationTable.__repr__. *)
Fixpoint as_rows (is_group : N -> bool) (d : list (asap * list address)) : string :=
  match d with
  | [] => ""
  | (a, l) :: r => "    " ++ asap_text a ++ " -> " ++ list_text is_group l ++ newline ++ as_rows is_group r
  end.
Definition as_text (is_group : N -> bool) (s : assoc_table) : string :=
  "AssociationTable: asap -> addresses" ++ newline ++ as_rows is_group (as_addresses s) ++ at_text is_group (as_table s).
(** groupobject_table.py 41-45 GroupObjectTable.__repr__. *)
Fixpoint go_rows (g : gobj_table) : string :=
  match g with
  | [] => ""
  | (a, c) :: r => "    " ++ asap_text a ++ " -> " ++ class_name c ++ newline ++ go_rows r
  end.
Definition go_text (g : gobj_table) : string := "GroupObjectTable: ASAP -> datapointtype" ++ newline ++ go_rows g.
