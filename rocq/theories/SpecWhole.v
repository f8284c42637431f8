(** Specification vocabulary for C90: from a tunnelling client to a USB client. *)
From Coq Require Import String ZArith List Bool.
From Verif Require Import Py Msg Address Dpt Tables State Encode Decode.
From Verif Require Import SpecMsg SpecTables SpecWire SpecDecode SpecClient SpecAcross.
Import ListNotations.
Open Scope Z_scope.

(** What a USB interface makes of a frame that another device has put on the
    bus: a report that carries the indication, and anything behind it. *)
Definition picked_up (frame report : list Z) : Prop :=
  exists indication pad, carried frame indication /\ report = usb_report indication ++ pad.
(** The device can hear it and display the value for every group object that the
    address reaches. *)
Definition shown tb l h (s : assoc_table) (go : gobj_table) (w : Z * option Z) : Prop :=
  audible tb l h s go w /\ forallb displayable (heard tb l h s go w) = true.
(** What a message of one device is to another. *)
Definition to_other s1 go1 tb l h (s2 : assoc_table) (go2 : gobj_table) (m : message) : list message :=
  match said s1 go1 m with Some w => heard tb l h s2 go2 w | None => [] end.
