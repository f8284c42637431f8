(** Specification vocabulary for received frames (C21-C34, C59, C60): how the
    telegram inside a report or datagram is found, and what it means.  Written
    from the frame formats, without reference to the decoder's functions. *)
From Coq Require Import String ZArith List Bool.
From Verif Require Import Py Dpt Tables State Encode Decode SpecMsg SpecWire.
Import ListNotations.
Open Scope Z_scope.

(** ** Finding the telegram *)

(** The cEMI frame carried by a USB report: report id 1, packet type 3 (low
    nibble), number of octets that follow, version 0, header length 8, body
    length, protocol 1, EMI 3, manufacturer 0, body. *)
Definition usb_cemi (m : list Z) : option (list Z) :=
  match m with
  | id :: info :: plen :: r =>
      if (id =? 1) && (info mod 16 =? 3) then
        match ztake plen r with
        | version :: hlen :: hi :: lo :: r2 =>
            if (version =? 0) && (hlen =? 8) then
              match ztake (256 * hi + lo + 4) r2 with
              | protocol :: emi :: mf1 :: mf2 :: cemi =>
                  if (protocol =? 1) && (emi =? 3) && (mf1 =? 0) && (mf2 =? 0) then Some cemi else None
              | _ => None
              end
            else None
        | _ => None
        end
      else None
  | _ => None
  end.
(** Counter and cEMI frame of a tunnelling request: header 06 10 04 20, total
    length, size, channel, counter, status, body. *)
Definition tunnelled (m : list Z) : option (Z * list Z) :=
  match m with
  | h :: v :: s1 :: s2 :: _ :: _ :: _ :: _ :: counter :: _ :: cemi =>
      if (h =? 0x06) && (v =? 0x10) && (s1 =? 0x04) && (s2 =? 0x20) then Some (counter, cemi) else None
  | _ => None
  end.

(** A link-layer telegram. *)
Record telegram := mktg {
  t_c1 : Z;           (** control octet 1; its lowest bit is the confirm flag *)
  t_c2 : Z;           (** control octet 2; its highest bit is the address type *)
  t_src : Z;
  t_dst : Z;
  t_len : Z;
  t_tpci : Z;
  t_apci : Z;
  t_data : list Z
}.
(** Message code, additional information (skipped), telegram. *)
Definition cemi_telegram (cemi : list Z) : option (dir * telegram) :=
  match cemi with
  | code :: info :: r =>
      match zdrop info r with
      | c1 :: c2 :: s1 :: s2 :: d1 :: d2 :: len :: tpci :: apci :: data =>
          let t := mktg c1 c2 (256 * s1 + s2) (256 * d1 + d2) len tpci apci data in
          if code =? data_ind then Some (Ind, t)
          else if code =? data_con then Some (Con, t)
          else None
      | _ => None
      end
  | _ => None
  end.
(** The telegram a state finds in the received bytes; on KNXnet/IP only when the
    counter is the expected one. *)
Definition on_bus (st : state) (m : list Z) : option (dir * telegram) :=
  match st_medium st with
  | Usb_hid => match usb_cemi m with Some cemi => cemi_telegram cemi | None => None end
  | Knxnet_ip =>
      match tunnelled m with
      | Some (counter, cemi) => if counter =? st_remote st then cemi_telegram cemi else None
      | None => None
      end
  | Tp => None
  end.
(** How results are reported: on KNXnet/IP behind the tunnelling request itself. *)
Definition reported (st : state) (l : list message) : dres :=
  match st_medium st with
  | Knxnet_ip => RList (MTunnelingReq (st_remote st) 0 :: l)
  | _ => RList l
  end.
(** KNXnet/IP data is given to decode_msg as a knxnet_ip.Msg; on USB the class
    of the message object plays no role. *)
Definition proper_class (st : state) (c : msg_class) : Prop := st_medium st = Usb_hid \/ c = CNetIP.

(** ** What a telegram means *)

Definition group_addressed (t : telegram) : bool := 128 <=? t_c2 t.
(** No numbering, no control: plain data. *)
Definition plain (t : telegram) : bool := t_tpci t <? 4.
Definition status (t : telegram) : Z := t_c1 t mod 2.
(** The ten APCI bits. *)
Definition apci10 (t : telegram) : Z := 256 * (t_tpci t mod 4) + t_apci t.

Inductive service := Read | Response | Write.
Definition group_service (t : telegram) : option service :=
  if apci10 t =? 0 then Some Read
  else if (0x40 <=? apci10 t) && (apci10 t <=? 0x7F) then Some Response
  else if (0x80 <=? apci10 t) && (apci10 t <=? 0xBF) then Some Write
  else None.
Definition property_service (t : telegram) : option service :=
  if apci10 t =? 0x3D5 then Some Read
  else if apci10 t =? 0x3D6 then Some Response
  else if apci10 t =? 0x3D7 then Some Write
  else None.

(** The octets of the value: those after the APCI octet, or that octet itself. *)
Definition payload (t : telegram) : list Z :=
  match t_data t with [] => [t_apci t] | d => d end.
Definition value_octets (c : dpt_class) : Z :=
  match wire_octets c with O => 1 | n => Z.of_nat n end.
(** The raw value a receiving type gets. *)
Definition raw (c : dpt_class) (t : telegram) : Z := big_endian (payload t) mod 256 ^ value_octets c.

(** A clima value whose operation code has no name cannot be displayed. *)
Definition undisplayable (c : dpt_class) (v : Z) : bool :=
  match c with
  | SetupClima | InfoClimaReport =>
      let mode := v / 16777216 mod 16 in
      ((9 <=? mode) && (mode <=? 13)) || (mode =? 15)
  | _ => false
  end.

Definition group_message (k : dir) (s : service) (t : telegram) (a : asap) (d : dpt) : message :=
  match k, s with
  | Ind, Read => MGroupValueReadInd a d
  | Ind, Response => MGroupValueResponseInd a d
  | Ind, Write => MGroupValueWriteInd a d
  | Con, Read => MGroupValueReadCon a d (status t)
  | Con, Response => MGroupValueResponseCon a d (status t)
  | Con, Write => MGroupValueWriteCon a d (status t)
  end.
(** One message per receiving entry of the group object table. *)
Definition group_messages (k : dir) (s : service) (t : telegram) (l : list (asap * dpt_class)) : list message :=
  map (fun p => group_message k s t (fst p) (mkdpt (snd p) (raw (snd p) t))) l.

(** A property telegram: one 32-bit word, then data. *)
Definition property_message (k : dir) (s : service) (t : telegram) : message :=
  let w := big_endian (firstn 4 (t_data t)) in
  let data := skipn 4 (t_data t) in
  let oi := w / 16777216 in
  let pid := w / 65536 mod 256 in
  let ne := w / 4096 mod 16 in
  let si := w mod 4096 in
  let a := mkasap 0 None in
  match k, s with
  | Ind, Read => MPropertyValueReadInd a oi pid ne si
  | Ind, Response => MPropertyValueResponseInd a oi pid ne si data
  | Ind, Write => MPropertyValueWriteInd a oi pid ne si data
  | Con, Read => MPropertyValueReadCon a oi pid ne si (status t)
  | Con, Response => MPropertyValueResponseCon a oi pid ne si data (status t)
  | Con, Write => MPropertyValueWriteCon a oi pid ne si data (status t)
  end.

(** Transport PDU kinds (C59). *)
Inductive pdu := Broadcast | GroupData | TagGroup | IndividualData | Connected | Ack | Nack | Other.
Definition pdu_kind (t : telegram) : pdu :=
  let control := 128 <=? t_tpci t in
  let numbered := (t_tpci t / 64) mod 2 =? 1 in
  let sequence := (t_tpci t / 4) mod 16 in
  if group_addressed t then
    if control || numbered then Other
    else if sequence =? 0 then (if t_dst t =? 0 then Broadcast else GroupData)
    else if sequence =? 1 then TagGroup else Other
  else
    if control then
      if numbered then
        (if t_tpci t mod 4 =? 2 then Ack else if t_tpci t mod 4 =? 3 then Nack else Other)
      else Connected
    else if numbered then Connected
    else if sequence =? 0 then IndividualData else Other.

(** ** KNXnet/IP services *)

(** Service number and the octets behind it (total length first) of a datagram
    with header size 6 and version 1.0. *)
Definition ip_service (m : list Z) : option (Z * list Z) :=
  match m with
  | h :: v :: s1 :: s2 :: r => if (h =? 0x06) && (v =? 0x10) then Some (256 * s1 + s2, r) else None
  | _ => None
  end.
(** The services with an implementation behind them. *)
Definition known_service (n : Z) : bool :=
  existsb (Z.eqb n) [0x0202; 0x0206; 0x0208; 0x020A; 0x0420; 0x0421].
(** A status octet without a name in the enumeration of its service. *)
Definition unknown_status (m : list Z) : bool :=
  match ip_service m with
  | Some (service, r) =>
      let bad (o : option Z) l := match o with Some x => negb (existsb (Z.eqb x) l) | None => false end in
      if service =? 0x0206 then bad (nth_error r 3) [0x00; 0x22; 0x23; 0x24]
      else if service =? 0x0208 then bad (nth_error r 3) [0x00; 0x21; 0x26; 0x27]
      else if service =? 0x0421 then bad (nth_error r 5) [0x00; 0x01; 0x02; 0x03]
      else false
  | None => false
  end.
(** The local counter after a datagram: advanced by a tunnelling acknowledgement
    (length, size, channel, counter, status) that carries exactly it. *)
Definition local_after (m : list Z) (local : Z) : Z :=
  match ip_service m with
  | Some (service, _ :: _ :: _ :: _ :: counter :: _ :: _) =>
      if (service =? 0x0421) && (counter =? local) then (local + 1) mod 256 else local
  | _ => local
  end.
(** The channel id after a datagram: given by a connect response with status 0,
    an endpoint block (8 octets) and a data block (4 octets), made 0 by a
    disconnect response with status 0. *)
Definition channel_after (m : list Z) (channel : option Z) : option Z :=
  match ip_service m with
  | Some (service, _ :: _ :: ch :: sta :: r) =>
      if (service =? 0x0206) && (sta =? 0) && (12 <=? zlen r) then Some ch
      else if (service =? 0x020A) && (sta =? 0) then Some 0
      else channel
  | _ => channel
  end.

(** ** Bus access server features *)
Definition feature_report (service mf1 mf2 feature value : Z) : list message :=
  if ((service =? 2) || (service =? 4)) && (mf1 =? 0) && (mf2 =? 0) then
    if feature =? 3 then
      if value =? 0 then [MConnectionStatus "Disconnected"]
      else if value =? 1 then [MConnectionStatus "Connected"]
      else []
    else if feature =? 5 then
      if value =? 1 then [MEMIType "emi1"]
      else if value =? 2 then [MEMIType "emi2"]
      else if value =? 3 then [MEMIType "cEMI"]
      else []
    else []
  else [].

(** ** Histories of calls of the API *)
Inductive api_call := Encode_msg (m : message) | Decode_msg (c : msg_class) (m : list Z).
Inductive api_result := Encoded (r : res (list Z)) | Decoded (r : res dres).
Definition api_do (s : state) (x : api_call) : api_result * state :=
  match x with
  | Encode_msg m => (Encoded (fst (encode_msg m s)), snd (encode_msg m s))
  | Decode_msg c m => (Decoded (fst (decode_msg c m s)), snd (decode_msg c m s))
  end.
Fixpoint api_run (s : state) (h : list api_call) : list api_result * state :=
  match h with
  | [] => ([], s)
  | x :: r =>
      let '(o, s1) := api_do s x in
      let '(os, s2) := api_run s1 r in
      (o :: os, s2)
  end.
(** A state that has seen no message: the same tables, counters, medium and
    channel, nothing else. *)
Definition fresh (s : state) : state :=
  mkstate (st_medium s) (st_assoc s) (st_gobj s) None None None None (st_remote s) (st_local s) (st_channel s).

(** ** Frames coming back (C21-C23) *)

(** The confirmation of a request frame: the message code becomes that of a
    confirmation, the lowest bit of control octet 1 the confirm flag. *)
Definition confirmation (flag : Z) (cemi : list Z) : list Z :=
  match cemi with
  | _ :: info :: c1 :: r => data_con :: info :: (c1 - c1 mod 2 + flag) :: r
  | _ => cemi
  end.
(** A frame as the interface delivers it: a padded report, or a tunnelling
    request of any channel with the counter that is due. *)
Definition delivered (st : state) (channel : Z) (pad cemi : list Z) : list Z :=
  match st_medium st with
  | Knxnet_ip => tunnelling_request channel (st_remote st) cemi
  | _ => usb_report cemi ++ pad
  end.
(** The number a value of class [c] is on the wire: the APCI octet, or the
    octets after it. *)
Definition sent (c : dpt_class) (v : Z) : Z :=
  match wire_octets c with O => 128 + v mod 64 | n => v mod 256 ^ Z.of_nat n end.
(** The same as read into another class. *)
Definition as_class (c : dpt_class) (n : Z) : dpt := mkdpt c (n mod 256 ^ value_octets c).
