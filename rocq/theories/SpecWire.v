(** Specification vocabulary for frames on the wire (C13-C23): the bytes, written
    out, without reference to the encoder. *)
From Coq Require Import String ZArith List Bool DecimalString.
From Verif Require Import Py Dpt State.
Import ListNotations.
Open Scope Z_scope.

(** The [n] octets of a number, most significant first (modulo 256^n). *)
Fixpoint be (n : nat) (v : Z) : list Z :=
  match n with O => [] | S k => be k (v / 256) ++ [v mod 256] end.

(** ** USB *)

(** Report id, packet info, number of octets that follow, protocol version,
    header length, body length, protocol id, EMI id, manufacturer code, body. *)
Definition usb_report (cemi : list Z) : list Z :=
  [0x01; 0x13; (8 + zlen cemi) mod 256] ++ [0x00; 0x08] ++ be 2 (zlen cemi)
  ++ [0x01; 0x03; 0x00; 0x00] ++ cemi.

(** ** KNXnet/IP *)

Definition tunnelling_request (channel counter : Z) (cemi : list Z) : list Z :=
  [0x06; 0x10; 0x04; 0x20] ++ be 2 (10 + zlen cemi)
  ++ [0x04; channel mod 256; counter mod 256; 0x00] ++ cemi.
Definition tunnelling_ack (channel counter status : Z) : list Z :=
  [0x06; 0x10; 0x04; 0x21; 0x00; 0x0A; 0x04; channel mod 256; counter mod 256; status mod 256].
(** An endpoint block. *)
Definition endpoint (ip : list Z) (port : Z) : list Z := [0x08; 0x01] ++ ip ++ be 2 port.
(** Dotted-quad text. *)
Definition decimal (n : Z) : string := NilEmpty.string_of_uint (N.to_uint (Z.to_N n)).
Definition dotted (ip : list Z) : string := String.concat "." (map decimal ip).
Definition ipv4 (ip : list Z) : Prop := length ip = 4%nat /\ Forall (fun o => 0 <= o < 256) ip.

(** ** cEMI *)

(** Message code, no additional info, control octets, source 0, destination,
    number of octets after the TPCI octet, TPCI, APCI and data. *)
Definition cemi_frame (code cntrl2 dest : Z) (tpdu : list Z) : list Z :=
  [code; 0x00; 0x96; cntrl2; 0x00; 0x00] ++ be 2 dest ++ [(zlen tpdu - 1) mod 256] ++ tpdu.
Definition group_frame (code dest : Z) (tpdu : list Z) : list Z := cemi_frame code 0xE0 dest tpdu.
Definition individual_frame (code dest : Z) (tpdu : list Z) : list Z := cemi_frame code 0x60 dest tpdu.
Definition data_req : Z := 0x11.
Definition data_ind : Z := 0x29.
Definition data_con : Z := 0x2E.

(** Octets a datapoint type has on the wire after the APCI octet; 0 for the
    types that travel in the low six bits of the APCI octet. *)
Definition wire_octets (c : dpt_class) : nat :=
  match c with
  | Switch | Alarm | UpDown | Start | Info_Switch => 0
  | VimarScene | SceneControl | Control_Dimming | Brightness => 1
  | Float_16 | Value_Wsp | Value_Temp | Value_Lux => 2
  | SetupClima | InfoClimaReport | Float_32 | Value_Power => 4
  end.
Definition write_tpdu (c : dpt_class) (v : Z) : list Z :=
  match wire_octets c with
  | O => [0x00; 0x80 + v mod 64]
  | n => [0x00; 0x80] ++ be n v
  end.
Definition read_tpdu : list Z := [0x00; 0x00].
(** Object index 8, property id 8, number of elements 4, start index 12 bits. *)
Definition property_word (oi pid ne si : Z) : list Z :=
  be 1 oi ++ be 1 pid ++ be 2 (4096 * (ne mod 16) + si mod 4096).
Definition property_read_tpdu (oi pid ne si : Z) : list Z := [0x03; 0xD5] ++ property_word oi pid ne si.
Definition property_write_tpdu (oi pid ne si : Z) (data : list Z) : list Z :=
  [0x03; 0xD7] ++ property_word oi pid ne si ++ data.

(** What a cEMI frame becomes on the medium of a state; a plain State without
    channel id cannot send on KNXnet/IP. *)
Definition wire (st : state) (cemi : list Z) : res (list Z) :=
  match st_medium st with
  | Usb_hid => Ok (usb_report cemi)
  | Knxnet_ip =>
      match st_channel st with
      | Some ch => Ok (tunnelling_request ch (st_local st) cemi)
      | None => Err AttributeError
      end
  | Tp => Ok cemi
  end.

(** ** States *)

(** What calls of the API may not touch. *)
Definition same_tables (s s' : state) : Prop :=
  st_medium s' = st_medium s /\ st_assoc s' = st_assoc s /\ st_gobj s' = st_gobj s.
(** The parts of a state that the next call depends on. *)
Definition agree (s s' : state) : Prop :=
  same_tables s s' /\ st_remote s' = st_remote s /\ st_local s' = st_local s /\
  st_channel s' = st_channel s.

(** The same state on another medium. *)
Definition on_medium (md : medium) (s : state) : state :=
  mkstate md (st_assoc s) (st_gobj s) (st_ldata s) (st_asap s) (st_apci s)
          (st_address_type s) (st_remote s) (st_local s) (st_channel s).
(** The messages that become link-layer requests. *)
Definition link_request (m : message) : bool :=
  match m with
  | MGroupValueReadReq _ | MGroupValueWriteReq _ _
  | MPropertyValueReadReq _ _ _ _ _ | MPropertyValueWriteReq _ _ _ _ _ _ => true
  | _ => false
  end.
(** The message classes that can be sent. *)
Definition sendable (m : message) : bool :=
  link_request m ||
  match m with
  | MConnectReq _ _ _ _ | MConnectionstateReq _ _ | MDisconnectReq _ _ | MSearchReq _ _
  | MTunnelingAck _ _ | MGroupValueWriteInd _ _ => true
  | _ => false
  end.
