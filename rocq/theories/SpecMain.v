(** What the programs of knx_stack/client/ should put on the bus (C88). *)
From Coq Require Import String Ascii ZArith List.
Import ListNotations.
Open Scope Z_scope.

(** A_GroupValue_Write to group address 0F81h (1/7/129) of a 1-bit value, sent by
    L_Data.req. *)
Definition light (on : bool) : list Z :=
  [0x11; 0x00; 0x96; 0xE0; 0x00; 0x00; 0x0F; 0x81; 0x01; 0x00; if on then 0x81 else 0x80].
(** The same as a line to the USB daemon: HID report header and transfer protocol
    header before it. *)
Definition light_line (on : bool) : string :=
  String.append (if on then "0113130008000B01030000110096E000000F81010081"
                       else "0113130008000B01030000110096E000000F81010080")
    (String (ascii_of_nat 10) EmptyString).
(** Not a decimal digit. *)
Definition no_digit (c : ascii) : Prop := (nat_of_ascii c < 48 \/ 57 < nat_of_ascii c)%nat.
