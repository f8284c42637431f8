(** Model of knx_stack/decode/ and of decode_msg. *)
From Coq Require Import String ZArith List Bool.
From Verif Require Import Py Msg Address Dpt Tables LData Inet State Encode.
Import ListNotations.
Open Scope Z_scope.

(** What a decoder returns: a list of messages, None (a function that falls off
    its end), or - for a tunnelling acknowledgement - a pair of a list and the
    state. What __init__.py 39 and 41 return. *)
Inductive dres := RList (l : list message) | RNone | RAck (l : list message).

(** The State object is the first argument of every decoder, __init__.py 39 and
    41. *)
Definition D := M state dres.

(** ** Application layer: decode/layer/application/ *)

(** decode/layer/application/a_group_value.py 14-20: the payload loop over a message with first octet
    [head] and rest [body]. *)
Fixpoint payload_loop (value head : Z) (body : msg) : Z :=
  match body with
  | [] => Z.shiftl value 8 + head
  | h :: b => payload_loop (Z.shiftl value 8 + head) h b
  end.
(** decode/layer/application/a_group_value.py 11-22: one iteration per (ASAP, class). *)
Fixpoint group_values (m : msg) (l : list (asap * dpt_class)) : res (list (asap * dpt)) :=
  match l with
  | [] => Ok []
  | (a, c) :: r =>
      do (head, body) <- octect m;
      let d := dpt_set_value (dpt_new c) (payload_loop 0 head body) in
      do vs <- group_values m r;
      Ok ((a, d) :: vs)
  end.
(** decode/layer/application/a_group_value.py 9-23 decode. *)
Definition d_group_value (m : msg) : M state (list (asap * dpt)) :=
  act s <- mget;
  act l <- mlift (st_get_asaps_and_dpts s);
  mlift (group_values m l).

(** state.ldata.status. definition/layer/link/ldata.py 192-194. *)
Definition cur_ldata : M state ldata := act s <- mget; mlift (need (st_ldata s)).

(** Indication or confirmation. decode/layer/application/*/ind.py and */con.py,
    such as decode/layer/application/a_group_value_write/con.py. *)
Inductive dir := Ind | Con.

(** decode/layer/application/a_group_value_{read,response,write}/{ind,con}.py: one message per group
    value; confirmations carry the status. *)
Definition d_group (mk : asap -> dpt -> message) (mkc : asap -> dpt -> Z -> message)
    (k : dir) (m : msg) : M state (list message) :=
  act vs <- d_group_value m;
  match k with
  | Ind => mret (map (fun p => mk (fst p) (snd p)) vs)
  | Con =>
      (* state.ldata is read inside the comprehension only *)
      act l <- cur_ldata;
      mret (map (fun p => mkc (fst p) (snd p) (ld_status l)) vs)
  end.
(** decode/layer/application/a_group_value_read/ind.py 6-23, con.py 6-24. *)
Definition d_group_value_read := d_group MGroupValueReadInd MGroupValueReadCon.
(** decode/layer/application/a_group_value_response/ind.py 6-11, con.py 6-12. *)
Definition d_group_value_response := d_group MGroupValueResponseInd MGroupValueResponseCon.
(** decode/layer/application/a_group_value_write/ind.py 6-24, con.py 6-24. *)
Definition d_group_value_write := d_group MGroupValueWriteInd MGroupValueWriteCon.

(** decode/layer/application/a_property_value.py 15-31 and a_property_value_{read,response,write}/
    {ind,con}.py: always exactly one message, for ASAP(0). *)
Definition asap0 : asap := mkasap 0 None.
Definition d_property (mk : Z -> Z -> Z -> Z -> msg -> message)
    (mkc : Z -> Z -> Z -> Z -> msg -> Z -> message) (k : dir) (m : msg)
    : M state (list message) :=
  act (h, data) <- mlift (long m);
  let h := cuint 32 h in
  let oi := ph_object_index h in
  let pid := ph_property_id h in
  let ne := ph_number_of_elements h in
  let si := ph_start_index h in
  match k with
  | Ind => mret [mk oi pid ne si data]
  | Con => act l <- cur_ldata; mret [mkc oi pid ne si data (ld_status l)]
  end.
(** decode/layer/application/a_property_value_read/ind.py 6-28, con.py 6-29 (they drop the data). *)
Definition d_property_value_read :=
  d_property (fun oi pid ne si _ => MPropertyValueReadInd asap0 oi pid ne si)
             (fun oi pid ne si _ st => MPropertyValueReadCon asap0 oi pid ne si st).
(** decode/layer/application/a_property_value_response/ind.py 6-19, con.py 6-20. *)
Definition d_property_value_response :=
  d_property (MPropertyValueResponseInd asap0) (MPropertyValueResponseCon asap0).
(** decode/layer/application/a_property_value_write/ind.py 6-29, con.py 6-30. *)
Definition d_property_value_write :=
  d_property (MPropertyValueWriteInd asap0) (MPropertyValueWriteCon asap0).

(** ** Transport layer: decode/layer/transport/ *)

(** The debug output of t_data_group/{ind,con}.py 18-23 and
    t_data_individual/{ind,con}.py: formats result[0].dpt; an empty result
    (IndexError) or a message without dpt (AttributeError) is caught and the
    result formatted instead. *)
Definition debug_first (l : list message) : res unit :=
  match l with
  | [] => Ok tt
  | m :: _ =>
      match message_repr m with
      | Err AttributeError | Err IndexError => Ok tt
      | r => r
      end
  end.

(** decode/layer/transport/t_data_group/ind.py 6-26 and con.py 6-26. *)
Definition d_tdata_group (k : dir) (m : msg) : M state (list message) :=
  act s <- mget;
  act tsap <- mlift (st_get_tsap s);
  act l <- cur_ldata;
  if match tsap with Some n => negb (n =? 0) | None => false end then
    act result <-
      (if ld_full_apci l =? 0 then d_group_value_read k m
       else if ld_full_apci l - ld_data l =? 0x40 then d_group_value_response k m
       else if ld_full_apci l - ld_data l =? 0x80 then d_group_value_write k m
       else mret []);
    act _ <- mlift (debug_first result);
    mret result
  else mret [].

(** The property dispatch shared by t_data_individual/ind.py 10-22 and
    con.py 11-23. *)
Definition d_property_dispatch (k : dir) (m : msg) : M state (list message) :=
  act l <- cur_ldata;
  act result <-
    (if ld_full_apci l =? 0x3D5 then d_property_value_read k m
     else if ld_full_apci l =? 0x3D6 then d_property_value_response k m
     else if ld_full_apci l =? 0x3D7 then d_property_value_write k m
     else mret []);
  act _ <- mlift (debug_first result);
  mret result.
(** decode/layer/transport/t_data_individual/con.py 6-26. *)
Definition d_tdata_individual_con (m : msg) : M state (list message) :=
  act s <- mget;
  act tsap <- mlift (st_get_tsap s);
  if match tsap with Some n => n =? 0 | None => false end then d_property_dispatch Con m
  else mret [].
(** decode/layer/transport/t_data_individual/ind.py 6-25: accepts by source address. *)
Definition d_tdata_individual_ind (m : msg) : M state (list message) :=
  act l <- cur_ldata;
  act s <- mget;
  act ia <- mlift (st_individual_address s);
  if ld_source l =? a_val ia then d_property_dispatch Ind m
  else mret [].
Definition d_tdata_individual (k : dir) : msg -> M state (list message) :=
  match k with Ind => d_tdata_individual_ind | Con => d_tdata_individual_con end.
(** t_connect, t_disconnect, t_data_connected, t_data_broadcast
    {ind,con}.py 4-5: not implemented, empty result. *)
Definition d_todo (m : msg) : M state (list message) := mret [].

(** ** Network layer: decode/layer/network/ *)

(** decode/layer/network/n_data_group/{ind,con}.py 6-8: None when the PDU is not plain group data. *)
Definition d_ndata_group (k : dir) (m : msg) : D :=
  act l <- cur_ldata;
  match ld_nsdu l with
  | Some T_Data_Group_PDU => act r <- d_tdata_group k m; mret (RList r)
  | _ => mret RNone
  end.
(** decode/layer/network/n_data_individual/{ind,con}.py 6-18. *)
Definition d_ndata_individual (k : dir) (m : msg) : D :=
  act l <- cur_ldata;
  act r <-
    match ld_nsdu l with
    | Some T_Data_Individual_PDU => d_tdata_individual k m
    | Some T_Data_Tag_Group_PDU => mret []
    | Some T_Connect_PDU => d_todo m
    | Some T_Disconnect_PDU => d_todo m
    | Some T_Data_Connected_PDU => d_todo m
    | _ => mret []
    end;
  mret (RList r).
(** decode/layer/network/n_data_broadcast/{ind,con}.py 5-6. *)
Definition d_ndata_broadcast (m : msg) : D := act r <- d_todo m; mret (RList r).

(** ** Link layer: decode/layer/link/l_data/{ind,con}.py 6-14 *)
Definition d_ldata (k : dir) (m : msg) : D :=
  act l <- cur_ldata;
  if ld_address_type l =? AT_individual then d_ndata_individual k m
  else if (ld_address_type l =? AT_group) && negb (ld_destination l =? 0) then d_ndata_group k m
  else if (ld_address_type l =? AT_group) && (ld_destination l =? 0) then d_ndata_broadcast m
  else mret (RList []).

(** ** cEMI: decode/cemi/ *)

(** decode/cemi/ldata/{ind,con}.py 6-9. *)
Definition d_cemi_ldata (k : dir) (m : msg) : D :=
  act (data, body) <- mlift (ld_make_from m);
  act _ <- mmodify (st_set_ldata data);
  d_ldata k body.
(** decode/cemi/msg_code.py 7-18. *)
Definition d_msg_code (m : msg) : D :=
  act (code, body) <- mlift (octect m);
  act (info_length, body) <- mlift (octect body);
  let body := zdrop info_length body in
  if code =? 0x29 then d_cemi_ldata Ind body
  else if code =? 0x2E then d_cemi_ldata Con body
  else mret (RList []).
(** decode/cemi/emi_id.py 6-13. *)
Definition d_emi_id (m : msg) : D :=
  act (head, m) <- mlift (octect m);
  if head =? 3 then
    act (head, body) <- mlift (short m);
    if head =? 0 then d_msg_code body else mret (RList [])
  else mret (RList []).

(** ** USB HID: decode/usb_hid/ *)

(** decode/usb_hid/report_body/usb_protocol_header/bus_access_server_feature/
    device_feature_info/feature_identifier.py 14-31. *)
Definition d_feature_identifier (m : msg) : D :=
  act (head, body) <- mlift (octect m);
  if head =? 3 then
    act (v, _) <- mlift (octect body);
    if v =? 0 then mret (RList [MConnectionStatus "Disconnected"])
    else if v =? 1 then mret (RList [MConnectionStatus "Connected"])
    else mret (RList [])
  else if head =? 5 then
    act (v, _) <- mlift (octect body);
    if v =? 3 then mret (RList [MEMIType "cEMI"])
    else if v =? 1 then mret (RList [MEMIType "emi1"])
    else if v =? 2 then mret (RList [MEMIType "emi2"])
    else mret (RList [])
  else mret (RList []).
(** decode/usb_hid/report_body/usb_protocol_header/bus_access_server_feature/service_identifier.py 8-19.  The variable [head]
    is overwritten by the manufacturer code inside the first branch and tested
    again by the second [if]. *)
Definition d_service_identifier (m : msg) : D :=
  act (head, m) <- mlift (octect m);
  act (head, result) <-
    (if head =? 4 then
       act (h2, body) <- mlift (short m);
       if h2 =? 0 then act r <- d_feature_identifier body; mret (h2, r)
       else mret (h2, RList [])
     else mret (head, RList []));
  if head =? 2 then
    act (h2, body) <- mlift (short m);
    if h2 =? 0 then d_feature_identifier body else mret result
  else mret result.
(** decode/usb_hid/report_body/usb_protocol_header/protocol_id.py 9-16. *)
Definition d_protocol_id (m : msg) : D :=
  act (head, body) <- mlift (octect m);
  if head =? 1 then d_emi_id body
  else if head =? 0x0F then d_service_identifier body
  else mret (RList []).
(** decode/usb_hid/report_body/usb_protocol_header/body_length.py 6-12. *)
Definition d_body_length (m : msg) : D :=
  act (head, body) <- mlift (short m);
  d_protocol_id (ztake (head + 4) body).
(** decode/usb_hid/report_body/usb_protocol_header/header_length.py 6-11. *)
Definition d_header_length (m : msg) : D :=
  act (head, body) <- mlift (octect m);
  if head =? 8 then d_body_length body else mret (RList []).
(** decode/usb_hid/report_body/usb_protocol_header/protocol_version.py 6-11. *)
Definition d_protocol_version (m : msg) : D :=
  act (head, body) <- mlift (octect m);
  if head =? 0 then d_header_length body else mret (RList []).
(** decode/usb_hid/report_header/packet_info.py 7-18. *)
Definition d_packet_info (m : msg) : D :=
  act (info, body) <- mlift (octect m);
  if nibble_low info =? 3 then
    act (data_length, body) <- mlift (octect body);
    d_protocol_version (ztake data_length body)
  else mret (RList []).
(** decode/usb_hid/report_header/report_identifier.py 6-23. *)
Definition d_report_identifier (m : msg) : D :=
  act (head, body) <- mlift (octect m);
  if head =? 1 then d_packet_info body else mret (RList []).

(** ** KNXnet/IP: decode/knxnet_ip/ *)

(** The class of the message object given to decode_msg: knx_stack.Msg,
    knx_stack.knxnet_ip.Msg or knx_stack.usb_hid.Msg.  octect/short/long keep
    the class (msg.py 56, 67, 80). *)
Inductive msg_class := CPlain | CNetIP | CUsbHid.

(** definition/knxnet_ip/msg.py 9-20 and definition/usb_hid/msg.py 8-16 HPAI;
    knx_stack.Msg has no such method. *)
Definition hpai_fields (m : msg) : res (string * Z * msg) :=
  do (_, body) <- octect m;
  do (_, body) <- octect body;
  do (ip, body) <- long body;
  do (port, body) <- short body;
  Ok (inet_ntoa (get ip 24 8) (get ip 16 8) (get ip 8 8) (get ip 0 8), port, body).
Definition HPAI (c : msg_class) (m : msg) : res (string * Z * msg) :=
  match c with
  | CPlain => Err AttributeError
  | CNetIP => if zlen m >=? 8 then hpai_fields m else Err TypeError
  | CUsbHid => hpai_fields m
  end.
(** definition/knxnet_ip/msg.py 22-30 CRI (no decoder uses it). *)
Definition CRI (m : msg) : res (Z * Z * msg) :=
  do (_, body) <- octect m;
  do (tunnel, body) <- octect body;
  do (knx_layer, body) <- octect body;
  do (_, body) <- octect body;
  Ok (tunnel, knx_layer, body).
(** definition/knxnet_ip/msg.py 32-39 and definition/usb_hid/msg.py 28-35 CRD
    (the latter returns a Short instead of an Address: same number). *)
Definition CRD (c : msg_class) (m : msg) : res (Z * Z * msg) :=
  match c with
  | CPlain => Err AttributeError
  | _ =>
      do (_, body) <- octect m;
      do (tunnel, body) <- octect body;
      do (ia, body) <- short body;
      Ok (tunnel, ia, body)
  end.
(** definition/knxnet_ip/msg.py 41-54 header; the variant of
    definition/usb_hid/msg.py 37-45 returns three values, which the decoders
    fail to unpack (ValueError). *)
Definition ip_conn_header (c : msg_class) (m : msg) : res (Z * Z * Z * msg) :=
  match c with
  | CPlain => Err AttributeError
  | _ =>
      do (_, body) <- octect m;
      do (channel, body) <- octect body;
      do (seq, body) <- octect body;
      do (status, body) <- octect body;
      match c with
      | CUsbHid => Err ValueError
      | _ => Ok (channel, seq, status, body)
      end
  end.

(** [Enum(code)] for the status enumerations; ValueError for other codes.
    decode/knxnet_ip/tunneling/ack.py 26,
    decode/knxnet_ip/core/connectionstate/res.py 20,
    decode/knxnet_ip/core/connect/res.py 31 and
    decode/knxnet_ip/core/disconnect/res.py 25. *)
Definition enum_check (codes : list Z) (z : Z) : res Z :=
  if existsb (Z.eqb z) codes then Ok z else Err ValueError.
(** definition/knxnet_ip/core/connect/res.py 5-9. *)
Definition connect_codes : list Z := [0; 0x22; 0x23; 0x24].
(** definition/knxnet_ip/core/connectionstate/res.py Status. *)
Definition connectionstate_codes : list Z := [0; 0x21; 0x26; 0x27].
(** definition/knxnet_ip/definitions.py ErrorCodes. *)
Definition error_codes : list Z := [0; 1; 2; 3].

(** decode/knxnet_ip/core/search/res.py 18-34. *)
Definition d_search_res (m : msg) : D :=
  act (_, body) <- mlift (short m);
  act (_, body) <- mlift (octect body);
  act (_, body) <- mlift (octect body);
  act (ip, body) <- mlift (long body);
  act (port, body) <- mlift (short body);
  act (_, body) <- mlift (octect body);
  act (_, body) <- mlift (octect body);
  act (ia, _) <- mlift (short body);
  mret (RList [MSearchRes
    (inet_ntoa (get ip 24 8) (get ip 16 8) (get ip 8 8) (get ip 0 8)) port ia]).
(** decode/knxnet_ip/core/disconnect/res.py 16-28. *)
Definition d_disconnect_res (m : msg) : D :=
  act (_, body) <- mlift (short m);
  act (channel, body) <- mlift (octect body);
  act (status, _) <- mlift (octect body);
  if status =? 0 then
    act _ <- mmodify (st_set_channel 0);
    act st <- mlift (enum_check error_codes status);
    mret (RList [MDisconnectRes channel st])
  else mret (RList []).
(** decode/knxnet_ip/core/connect/res.py 16-34. *)
Definition d_connect_res (c : msg_class) (m : msg) : D :=
  act (_, body) <- mlift (short m);
  act (channel, body) <- mlift (octect body);
  act (status, body) <- mlift (octect body);
  act (ip, port, body) <- mlift (HPAI c body);
  act ia <-
    (if status =? 0 then
       act (_, ia, _) <- mlift (CRD c body);
       act _ <- mmodify (st_set_channel channel);
       mret (Some ia)
     else mret None);
  act st <- mlift (enum_check connect_codes status);
  mret (RList [MConnectRes ip port ia st]).
(** decode/knxnet_ip/core/connectionstate/res.py 16-21. *)
Definition d_connectionstate_res (m : msg) : D :=
  act (_, body) <- mlift (short m);
  act (_, body) <- mlift (octect body);
  act (status, _) <- mlift (octect body);
  act st <- mlift (enum_check connectionstate_codes status);
  mret (RList [MConnectionstateRes st]).
(** decode/knxnet_ip/tunneling/req.py 23-49.  The cEMI decoder gets the rest of the datagram,
    whose class plays no role there. *)
Definition d_tunneling_req (c : msg_class) (m : msg) : D :=
  act (_, body) <- mlift (short m);
  act (_, seq, _, body) <- mlift (ip_conn_header c body);
  act s <- mget;
  if st_remote s =? seq then
    act r <- d_msg_code body;
    mret (RList (MTunnelingReq seq 0 ::
                 match r with RList l => l | RNone => [] | RAck l => l end))
  else if st_remote s =? seq + 1 then mret (RList [MTunnelingReq seq 0])
  else mret (RList [MTunnelingReq seq 3]).
(** decode/knxnet_ip/tunneling/ack.py 18-27. *)
Definition d_tunneling_ack (c : msg_class) (m : msg) : D :=
  act (_, body) <- mlift (short m);
  act (_, seq, status, _) <- mlift (ip_conn_header c body);
  act s <- mget;
  act _ <- (if st_local s =? seq then mmodify (st_set_local (st_local s + 1)) else mret tt);
  act s <- mget;
  act st <- mlift (enum_check error_codes status);
  mret (RAck [MTunnelingAck (st_local s) st]).
(** decode/knxnet_ip/header.py 24-45. *)
Definition d_ip_header (c : msg_class) (m : msg) : D :=
  act (header, body) <- mlift (octect m);
  act (version, body) <- mlift (octect body);
  act (service, body) <- mlift (short body);
  if (header =? HEADER_SIZE_10) && (version =? KNXNETIP_VERSION_10) then
    if service =? SEARCH_RESPONSE then d_search_res body
    else if service =? DISCONNECT_RESPONSE then d_disconnect_res body
    else if service =? CONNECT_RESPONSE then d_connect_res c body
    else if service =? CONNECTIONSTATE_RESPONSE then d_connectionstate_res body
    else if service =? TUNNELING_REQUEST then d_tunneling_req c body
    else if service =? TUNNELING_ACK then d_tunneling_ack c body
    else mret (RList [])
  else mret (RList []).

(** knx_stack/__init__.py 37-43 decode_msg. *)
Definition decode_msg (c : msg_class) (m : msg) : D :=
  act s <- mget;
  match st_medium s with
  | Usb_hid => d_report_identifier m
  | Knxnet_ip => d_ip_header c m
  | Tp => mraise PyException
  end.
