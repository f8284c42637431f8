(** Specification vocabulary for C92: an L_Data object as a handful of numbers. *)
From Coq Require Import ZArith List Bool.
From Verif Require Import Py Msg LData LDataObj.
Import ListNotations.
Open Scope Z_scope.

(** What an object holds: address type, transport control and numbered flags,
    sequence number, the ten APCI bits, addresses, and what no assignment
    reaches (first control octet, hop count and frame format, length). *)
Record view := mkview {
  w_type : Z; w_control : Z; w_numbered : Z; w_sequence : Z; w_apci : Z;
  w_source : Z; w_destination : Z; w_cntrl1 : Z; w_hops : Z; w_length : Z
}.
(** The octets as numbers in these ranges. *)
Definition ranges (v : view) : Prop :=
  0 <= w_type v < 2 /\ 0 <= w_control v < 2 /\ 0 <= w_numbered v < 2 /\ 0 <= w_sequence v < 16 /\ 0 <= w_apci v < 1024 /\ 0 <= w_hops v < 128.
Definition octets_of (v : view) : ldata :=
  mkld (w_apci v mod 256) (128 * w_control v + 64 * w_numbered v + 4 * w_sequence v + w_apci v / 256) (w_length v)
    (w_destination v) (w_source v) (128 * w_type v + w_hops v) (w_cntrl1 v).
(** The kinds of PDU set the flags; connect, disconnect, ack and nack take the
    upper two bits of the APCI as well. *)
Definition with_kind (v : view) (control numbered : Z) (sequence upper : option Z) : view :=
  mkview (w_type v) control numbered (match sequence with Some n => n | None => w_sequence v end)
    (match upper with Some n => 256 * n + w_apci v mod 256 | None => w_apci v end)
    (w_source v) (w_destination v) (w_cntrl1 v) (w_hops v) (w_length v).
Definition assigned (v : view) (a : assignment) : view :=
  let 'mkview t c n s a10 src dst c1 h len := v in
  match a with
  | Set_source x => mkview t c n s a10 (x mod 65536) dst c1 h len
  | Set_destination x => mkview t c n s a10 src (x mod 65536) c1 h len
  | Set_address_type x => mkview (x mod 2) c n s a10 src dst c1 h len
  | Set_connected b => mkview t (if b then 1 else 0) n s a10 src dst c1 h len
  | Set_apci x => mkview t c n s (x mod 1024) src dst c1 h len
  | Set_data x => mkview t c n s (64 * (a10 / 64) + x mod 64) src dst c1 h len
  | Set_nsdu p =>
      match p with
      | T_Data_Broadcast_PDU | T_Data_Group_PDU | T_Data_Individual_PDU => with_kind v 0 0 (Some 0) None
      | T_Data_Tag_Group_PDU => with_kind v 0 0 (Some 1) None
      | T_Data_Connected_PDU => with_kind v 0 1 None None
      | T_Connect_PDU => with_kind v 1 0 None (Some 0)
      | T_Disconnect_PDU => with_kind v 1 0 None (Some 1)
      | T_ACK_PDU => with_kind v 1 1 None (Some 2)
      | T_NACK_PDU => with_kind v 1 1 None (Some 3)
      end
  end.
