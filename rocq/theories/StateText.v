(** Text forms of State and L_Data objects. *)
From Coq Require Import String Ascii ZArith List Bool NArith.
From Verif Require Import Py Address Dpt Tables LData State Text.
Import ListNotations.
Open Scope Z_scope.
Local Open Scope string_scope.

(** ["%s"] of an AddressType (definition/layer/link/ldata.py 32-34): an IntEnum is
    shown by its name before Python 3.11 ([named]), by its number from then on. *)
Definition address_type_text (named : bool) (v : Z) : string :=
  if named then (if v =? AT_individual then "AddressType.individual" else "AddressType.group")%Z else dec v.
(** definition/layer/link/ldata.py 371-379 L_Data.__repr__. *)
Definition ld_text (named : bool) (l : ldata) : string :=
  "source: " ++ dec (ld_source l) ++ " (0x" ++ hexpad 4 (ld_source l) ++ "), destination: " ++ dec (ld_destination l)
  ++ " (0x" ++ hexpad 4 (ld_destination l) ++ "), address_type: " ++ address_type_text named (ld_address_type l).

(** ["%s"] of a Medium, an Enum (state.py 21-24). *)
Definition medium_text (m : medium) : string :=
  match m with Tp => "Medium.tp" | Usb_hid => "Medium.usb_hid" | Knxnet_ip => "Medium.knxnet_ip" end.
(** ["%s"] of an attribute that may be None: state.py 75-93. *)
Definition or_none {A} (f : A -> string) (o : option A) : string := match o with Some x => f x | None => "None" end.
(** Two line ends and the indentation of the text in state.py 76-82: one line end
    is written as such, one is in the source. *)
Definition gap : string := newline ++ newline ++ "        ".
(** state.py 75-93 State.__repr__; knxnet_ip.State (definition/knxnet_ip/state.py
    4-16) inherits it. *)
Definition state_text (is_group : N -> bool) (named : bool) (s : state) : string :=
  " State for " ++ medium_text (st_medium s)
  ++ gap ++ or_none (as_text is_group) (st_assoc s)
  ++ gap ++ or_none go_text (st_gobj s)
  ++ gap ++ "LData structure (for decode functions): " ++ or_none (ld_text named) (st_ldata s)
  ++ gap ++ "ASAP: " ++ or_none asap_text (st_asap s) ++ ", APCI: " ++ or_none dec (st_apci s)
         ++ ", Address Type: " ++ or_none (address_type_text named) (st_address_type s)
  ++ gap ++ "Sequence Counter (remote): " ++ dec (st_remote s)
  ++ gap ++ "Sequence Counter (local): " ++ dec (st_local s) ++ newline.
