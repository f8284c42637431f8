(** Model of knx_stack/encode/ and of encode_msg. *)
From Coq Require Import String ZArith List Bool.
From Verif Require Import Py Msg Address Dpt Tables LData Inet State.
Import ListNotations.
Open Scope Z_scope.

(** Short names for the monad over the State object. The State object is the
    first argument of every encoder, __init__.py 34. *)
Definition E A := M state A.

(** ** USB HID framing: encode/usb_hid/ *)

(** encode/usb_hid/report_header/report_identifier.py 5-8. *)
Definition e_report_identifier (m : msg) : msg := Octect 1 :: m.
(** encode/usb_hid/report_header/packet_info.py 6-13: sequence number 1, allInOnePacket 3. *)
Definition e_packet_info (m : msg) : msg :=
  e_report_identifier ([octect_of_nibbles 1 3; Octect (zlen m)] ++ m).
(** encode/usb_hid/report_body/usb_protocol_header/protocol_version.py 5-9. *)
Definition e_protocol_version (m : msg) : msg := e_packet_info (Octect 0 :: m).
(** encode/usb_hid/report_body/usb_protocol_header/header_length.py 6-10. *)
Definition e_header_length (m : msg) : msg := e_protocol_version (Octect 8 :: m).
(** encode/usb_hid/report_body/usb_protocol_header/body_length.py 5-10. *)
Definition e_body_length (m : msg) : msg :=
  let body_length := Short (zlen m - 4) in
  e_header_length ([short_MSB body_length; short_LSB body_length] ++ m).
(** encode/usb_hid/report_body/usb_protocol_header/protocol_id.py 6-10: KNXTunnel 1. *)
Definition e_protocol_id (m : msg) : msg := e_body_length (Octect 1 :: m).
(** encode/usb_hid/emi_id.py 7-13: commonEmi 3. *)
Definition e_emi_id (m : msg) : msg := e_protocol_id ([Octect 3; Octect 0; Octect 0] ++ m).

(** ** KNXnet/IP framing: encode/knxnet_ip/ *)

(** definition/knxnet_ip/definitions.py: service codes. *)
Definition SEARCH_REQUEST : Z := 0x0201.
Definition SEARCH_RESPONSE : Z := 0x0202.
Definition CONNECT_REQUEST : Z := 0x0205.
Definition CONNECT_RESPONSE : Z := 0x0206.
Definition CONNECTIONSTATE_REQUEST : Z := 0x0207.
Definition CONNECTIONSTATE_RESPONSE : Z := 0x0208.
Definition DISCONNECT_REQUEST : Z := 0x0209.
Definition DISCONNECT_RESPONSE : Z := 0x020A.
Definition TUNNELING_REQUEST : Z := 0x0420.
Definition TUNNELING_ACK : Z := 0x0421.
Definition HEADER_SIZE_10 : Z := 6.
Definition KNXNETIP_VERSION_10 : Z := 0x10.

(** encode/knxnet_ip/header.py 5-9. *)
Definition e_ip_header (m : msg) : msg := [Octect HEADER_SIZE_10; Octect KNXNETIP_VERSION_10] ++ m.
(** encode/knxnet_ip/core/hpai.py 4-11. *)
Definition HPAI_LENGTH : Z := 8.
Definition e_hpai (ip : list Z) (port : Z) : msg :=
  [Octect HPAI_LENGTH; Octect 1] ++ map Octect ip ++ short_octects (Short port).
(** Reading state.communication_channel_id; AttributeError when absent.
    definition/knxnet_ip/state.py 9-11; absent from state.py 57-73. *)
Definition channel_id : E Z :=
  act s <- mget; mlift (need (st_channel s)).
(** encode/knxnet_ip/tunneling/connection_header.py 4-16. *)
Definition CONNECTION_HEADER_LEN : Z := 4.
Definition e_connection_header (status seq : Z) : E msg :=
  act c <- channel_id;
  mret [Octect CONNECTION_HEADER_LEN; Octect c; Octect seq; Octect status].

(** encode/knxnet_ip/core/connect/req.py 14-44. *)
Definition e_connect_req (caddr : string) (cport : Z) (daddr : string) (dport : Z) : E msg :=
  act ipc <- mlift (inet_aton caddr);
  act ipd <- mlift (inet_aton daddr);
  let cri_len := 4 in
  let cri := [Octect cri_len] ++ [Octect 4] ++ [Octect 2] ++ [Octect 0] in
  mret (e_ip_header
    (short_octects (Short CONNECT_REQUEST)
     ++ short_octects (Short (cri_len + HPAI_LENGTH * 2 + HEADER_SIZE_10))
     ++ e_hpai ipc cport ++ e_hpai ipd dport ++ cri)).
(** encode/knxnet_ip/core/connectionstate/req.py 9-28 and core/disconnect/req.py 9-28, which
    differ in the service code only. *)
Definition e_channel_req (service : Z) (caddr : string) (cport : Z) : E msg :=
  act ipc <- mlift (inet_aton caddr);
  act c <- channel_id;
  mret (e_ip_header
    (short_octects (Short service)
     ++ short_octects (Short (2 + HPAI_LENGTH + HEADER_SIZE_10))
     ++ [Octect c; Octect 0]
     ++ e_hpai ipc cport)).
Definition e_connectionstate_req := e_channel_req CONNECTIONSTATE_REQUEST.
Definition e_disconnect_req := e_channel_req DISCONNECT_REQUEST.
(** encode/knxnet_ip/core/search/req.py 9-26. *)
Definition e_search_req (addr : string) (port : Z) : E msg :=
  act ip <- mlift (inet_aton addr);
  mret (e_ip_header
    (short_octects (Short SEARCH_REQUEST)
     ++ short_octects (Short (HPAI_LENGTH + HEADER_SIZE_10))
     ++ e_hpai ip port)).
(** encode/knxnet_ip/tunneling/ack.py 8-35. *)
Definition e_tunneling_ack (seq status : Z) : E msg :=
  act s <- mget;
  act h <- e_connection_header status (st_remote s);
  act _ <- (if seq =? st_remote s then mmodify (st_set_remote (st_remote s + 1))
            else mret tt);
  mret (e_ip_header
    (short_octects (Short TUNNELING_ACK)
     ++ short_octects (Short (CONNECTION_HEADER_LEN + HEADER_SIZE_10)) ++ h)).
(** encode/knxnet_ip/tunneling/req.py 8-35. *)
Definition e_tunneling_req (m : msg) : E msg :=
  act s <- mget;
  act h <- e_connection_header 0 (st_local s);
  mret (e_ip_header
    (short_octects (Short TUNNELING_REQUEST)
     ++ short_octects (Short (CONNECTION_HEADER_LEN + HEADER_SIZE_10 + zlen m)) ++ h ++ m)).

(** ** cEMI: encode/cemi/ldata/ *)

(** encode/cemi/ldata/req.py 7-17. *)
Definition e_cemi_req (m : msg) : E msg :=
  let new_msg := [Octect 0x11; Octect 0] ++ m in
  act s <- mget;
  match st_medium s with
  | Usb_hid => mret (e_emi_id new_msg)
  | Knxnet_ip => e_tunneling_req new_msg
  | Tp => mret new_msg
  end.
(** encode/cemi/ldata/ind.py 6-11: always USB framing, whatever the medium. *)
Definition e_cemi_ind (m : msg) : E msg := mret (e_emi_id ([Octect 0x29; Octect 0] ++ m)).

(** ** Link layer: encode/layer/link/l_data/ *)

(** encode/layer/link/l_data/encode.py 5-12 ll_encode; an address type of None is TypeError. *)
Definition ll_encode (m : msg) : E msg :=
  act s <- mget;
  match st_address_type s with
  | None => mraise TypeError
  | Some v =>
      let l := ld_set_address_type ld_new v in
      let source := Short 0 in
      mret ([Octect (ld_cntrl1 l); Octect (ld_cntrl2 l); short_MSB source; short_LSB source] ++ m)
  end.
(** encode/layer/link/l_data/req.py 5-8 and ind.py 5-8. *)
Definition e_ldata_req (m : msg) : E msg := act x <- ll_encode m; e_cemi_req x.
Definition e_ldata_ind (m : msg) : E msg := act x <- ll_encode m; e_cemi_ind x.

(** ** Network layer: encode/layer/network/ *)

(** encode/layer/network/n_data_group/encode.py 4-11 nl_encode. *)
Definition nl_encode (m : msg) : E msg :=
  act s <- mget;
  act addrs <- mlift (st_get_addresses s);
  match addrs with
  | [] => mret m
  | a :: _ =>
      let npdu_length := Octect (zlen m - 1) in
      let destination := Short (a_val a) in
      mret ([short_MSB destination; short_LSB destination; npdu_length] ++ m)
  end.
(** encode/layer/network/n_data_group/req.py 5-8, ind.py 5-8. *)
Definition e_ndata_group_req (m : msg) : E msg := act x <- nl_encode m; e_ldata_req x.
Definition e_ndata_group_ind (m : msg) : E msg := act x <- nl_encode m; e_ldata_ind x.
(** encode/layer/network/n_data_individual/req.py 5-10. *)
Definition e_ndata_individual_req (m : msg) : E msg :=
  let npdu_length := Octect (zlen m - 1) in
  act s <- mget;
  act ia <- mlift (st_individual_address s);
  let destination := Short (a_val ia) in
  e_ldata_req ([short_MSB destination; short_LSB destination; npdu_length] ++ m).

(** ** Transport layer: encode/layer/transport/ *)

(** encode/layer/transport/t_data_group/encode.py 5-12 tl_encode; an APCI of None is TypeError. *)
Definition tl_encode (m : msg) : E msg :=
  act s <- mget;
  act tsaps <- mlift (st_get_tsaps s);
  match tsaps with
  | [] => mret m
  | _ =>
      match st_apci s with
      | None => mraise TypeError
      | Some v => mret (Octect (ld_tpci (ld_set_apci (ld_set_nsdu ld_new T_Data_Group_PDU) v)) :: m)
      end
  end.
(** encode/layer/transport/t_data_group/req.py 5-8, ind.py 5-8. *)
Definition e_tdata_group_req (m : msg) : E msg := act x <- tl_encode m; e_ndata_group_req x.
Definition e_tdata_group_ind (m : msg) : E msg := act x <- tl_encode m; e_ndata_group_ind x.
(** encode/layer/transport/t_data_individual/req.py 6-14. *)
Definition e_tdata_individual_req (m : msg) : E msg :=
  act s <- mget;
  if match st_address_type s with Some v => v =? AT_individual | None => false end then
    match st_apci s with
    | None => mraise TypeError
    | Some v =>
        e_ndata_individual_req
          (Octect (ld_tpci (ld_set_apci (ld_set_nsdu ld_new T_Data_Individual_PDU) v)) :: m)
    end
  else mret m.
(** encode/layer/transport/t_connect/req.py 7-24 (called directly, not through encode_msg; its message
    argument is ignored). *)
Definition e_t_connect : E msg :=
  act _ <- mmodify (st_set_address_type AT_individual);
  let l := ld_set_connected (ld_set_nsdu ld_new T_Data_Individual_PDU) true in
  e_ndata_individual_req [Octect (ld_tpci l)].
(** encode/layer/transport/t_disconnect/req.py 7-24 (likewise). *)
Definition e_t_disconnect : E msg :=
  act _ <- mmodify (st_set_address_type AT_individual);
  let l := ld_set_apci (ld_set_connected (ld_set_nsdu ld_new T_Data_Individual_PDU) true) 0x100 in
  e_ndata_individual_req [Octect (ld_tpci l)].

(** ** Application layer: encode/layer/application/ *)

(** encode/layer/application/a_group_value_read/req.py 6-31. *)
Definition e_group_value_read (a : asap) : E msg :=
  act _ <- mmodify (st_set_apci 0);
  act _ <- mmodify (st_set_asap a);
  act _ <- mmodify (st_set_address_type AT_group);
  let l := ld_set_apci ld_new 0 in
  e_tdata_group_req [Octect (ld_apci l)].

(** encode/layer/application/a_group_value_write/encode.py 7-38 al_encode. *)
Definition al_encode (a : asap) (d : dpt) : E msg :=
  let apci := 0x80 in
  act _ <- mmodify (st_set_asap a);
  act _ <- mmodify (st_set_apci apci);
  act _ <- mmodify (st_set_address_type AT_group);
  act s <- mget;
  act c <- mlift (st_get_dpt s);
  if dpt_small c then
    let l := ld_set_data (ld_set_apci ld_new apci) (d_value d) in
    mret [Octect (ld_full_apci l)]
  else
    let l := ld_set_data (ld_set_apci ld_new apci) 0 in
    if dpt_size c =? 1 then mret [Octect (ld_full_apci l); Octect (d_value d)]
    else if dpt_size c =? 2 then
      let v := Short (d_value d) in
      mret [Octect (ld_full_apci l); short_MSB v; short_LSB v]
    else if dpt_size c =? 4 then
      let v := Long (d_value d) in
      mret [Octect (ld_full_apci l); long_B4 v; long_B3 v; long_B2 v; long_B1 v]
    else mret [].
(** encode/layer/application/a_group_value_write/req.py 5-26 and ind.py 5-26. *)
Definition e_group_value_write_req (a : asap) (d : dpt) : E msg :=
  act m <- al_encode a d; e_tdata_group_req m.
Definition e_group_value_write_ind (a : asap) (d : dpt) : E msg :=
  act m <- al_encode a d; e_tdata_group_ind m.

(** encode/layer/application/a_property_value_read/req.py 6-37. *)
Definition e_property_value_read (a : asap) (oi pid ne si : Z) : E msg :=
  let apci := 0x3D5 in
  act _ <- mmodify (st_set_asap a);
  act _ <- mmodify (st_set_apci apci);
  act _ <- mmodify (st_set_address_type AT_individual);
  let l := ld_set_apci ld_new apci in
  let along := Long (ph_make oi pid ne si) in
  e_tdata_individual_req (Octect (ld_full_apci l) :: long_octects along).
(** encode/layer/application/a_property_value_write/req.py 6-41. *)
Definition e_property_value_write (a : asap) (oi pid ne si : Z) (data : string) : E msg :=
  let apci := 0x3D7 in
  act _ <- mmodify (st_set_asap a);
  act _ <- mmodify (st_set_apci apci);
  act _ <- mmodify (st_set_address_type AT_individual);
  let l := ld_set_apci ld_new apci in
  let along := Long (ph_make oi pid ne si) in
  act bytes <- mlift (stringtooctects data);
  e_tdata_individual_req (Octect (ld_full_apci l) :: long_octects along ++ bytes).

(** knx_stack/__init__.py 19-34 encode_msg: KeyError for a class that is not in
    the mapping. *)
Definition encode_msg (m : message) : E msg :=
  match m with
  | MConnectReq ca cp da dp => e_connect_req ca cp da dp
  | MDisconnectReq ca cp => e_disconnect_req ca cp
  | MConnectionstateReq ca cp => e_connectionstate_req ca cp
  | MSearchReq a p => e_search_req a p
  | MTunnelingAck seq st => e_tunneling_ack seq st
  | MGroupValueReadReq a => e_group_value_read a
  | MGroupValueWriteReq a d => e_group_value_write_req a d
  | MGroupValueWriteInd a d => e_group_value_write_ind a d
  | MPropertyValueReadReq a oi pid ne si => e_property_value_read a oi pid ne si
  | MPropertyValueWriteReq a oi pid ne si data => e_property_value_write a oi pid ne si data
  | _ => mraise KeyError
  end.
