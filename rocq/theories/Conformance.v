(** Tests, not proofs: every expectation of the unit tests and doctests of the
    repository that still applies to its code, computed in the model.  They
    check the model against values that were written down with the code.  Left
    out are doctests of code that has since changed (the tuple results of
    decode/knxnet_ip/tunneling/ack.py 9-15, encode/.../a_group_value_write/ind.py
    and t_disconnect/req.py, which the test suite does not run or which name
    functions that no longer exist). *)
From Coq Require Import String ZArith NArith List Bool.
From Verif Require Import Py Msg Address Float Dpt Tables LData State Encode Decode Text SpecText.
Import ListNotations.
Open Scope Z_scope.
Local Open Scope string_scope.

(** The double nearest to n / d, for literals such as 36.1. *)
Definition lit (n d : Z) : float := fdiv (f_of_Z n) (f_of_Z d).
(** Building blocks: tables and states as the tests construct them.  Address
    objects are numbered in the order of their creation. *)
Definition table (ia : Z) (l : list (asap * address)) : option assoc_table :=
  match assoc_new (at_new (mkaddr 1 ia) [] 255) l with Ok s => Some s | Err _ => None end.
Definition one (a : asap) (g : Z) : list (asap * address) := [(a, mkaddr 2 g)].
Definition decodes (c : msg_class) (text : string) (st : state) : res dres :=
  match make_from_str text with Ok m => fst (decode_msg c m st) | Err e => Err e end.
Definition decodes_by (d : msg -> D) (text : string) (st : state) : res dres :=
  match make_from_str text with Ok m => fst (d m st) | Err e => Err e end.
Definition encodes (m : message) (st : state) : res string :=
  match fst (encode_msg m st) with Ok x => Ok (msg_str x) | Err e => Err e end.
Definition encodes_by (e : E msg) (st : state) : res string :=
  match fst (e st) with Ok x => Ok (msg_str x) | Err e => Err e end.
Definition a1 : asap := mkasap 1 None.
Definition switch_state (m : medium) (ia g : Z) (a : asap) : state :=
  state_new m (table ia (one a g)) (Some [(a, Switch)]).

(** ** tests/ *)

(** tests/test_emi_type.py, tests/test_bus_connection.py. *)
Example t_device :
  let st := state_new Usb_hid None None in
  decodes CPlain "01130A000800020F0200000503" st = Ok (RList [MEMIType "cEMI"]) /\
  decodes CPlain "01130A000800020F0200000502" st = Ok (RList [MEMIType "emi2"]) /\
  decodes CPlain "01130A000800020F0400000300" st = Ok (RList [MConnectionStatus "Disconnected"]) /\
  decodes CPlain "01130A000800020F0400000301" st = Ok (RList [MConnectionStatus "Connected"]).
Proof. vm_compute. auto. Qed.

(** tests/test_a_property_value.py. *)
Example t_property :
  let st := state_new Usb_hid (table 0x102C []) (Some []) in
  encodes (MPropertyValueWriteReq (mkasap 0 None) 0 0x7B 1 0x1F "02") st =
    Ok "0113180008001001030000110096600000102C0603D7007B101F02" /\
  decodes CPlain "011319000800110103000029009660102C00000603D7007B101F02" st =
    Ok (RList [MPropertyValueWriteInd (mkasap 0 None) 0 0x7B 1 0x1F [2]]).
Proof. vm_compute. auto. Qed.

(** tests/test_l_data_con.py. *)
Definition con_text := "0113130008000B010300002E00BDE0AAAA0002010000".
Example t_con :
  decodes CPlain con_text (state_new Usb_hid (table 1 (one a1 2)) (Some [])) = Ok (RList []) /\
  decodes CPlain con_text (state_new Usb_hid (table 1 []) (Some [])) = Ok (RList []) /\
  exists d, decodes CPlain con_text (switch_state Usb_hid 1 2 a1) = Ok (RList [MGroupValueReadCon a1 d 1]) /\
    prop_get d "action" = Ok (VName "off").
Proof. split; [vm_compute; reflexivity|]. split; [vm_compute; reflexivity|]. eexists. split; [vm_compute; reflexivity|vm_compute; reflexivity]. Qed.

(** tests/test_l_data_req.py. *)
Example t_req :
  let st := switch_state Usb_hid 1 2 a1 in
  encodes (MGroupValueWriteReq a1 (bits_set (dpt_new Switch) "action" 1)) st =
    Ok "0113130008000B01030000110096E000000002010081" /\
  exists d, decodes CPlain "0113130008000B01030000290096E000000002010081" st = Ok (RList [MGroupValueWriteInd a1 d]) /\
    prop_get d "action" = Ok (VName "on").
Proof. split; [vm_compute; reflexivity|]. eexists. split; [vm_compute; reflexivity|vm_compute; reflexivity]. Qed.

(** tests/test_l_data_ind.py. *)
Definition prova : asap := mkasap 1 (Some "prova").
Definition ind_text := "0113130008000B010300002900BCE000010002010080".
Example t_ind :
  decodes CPlain ind_text (state_new Usb_hid (table 1 (one prova 2)) (Some [])) = Ok (RList []) /\
  (exists s, table 1 (one prova 2) = Some s /\ exists s', disassociate prova [mkaddr 9 2] s = (Ok tt, s') /\
     decodes CPlain ind_text (state_new Usb_hid (Some s') (Some [])) = Ok (RList [])) /\
  (exists d, decodes CPlain ind_text (switch_state Usb_hid 1 2 prova) = Ok (RList [MGroupValueWriteInd prova d]) /\
     prop_get d "action" = Ok (VName "off")) /\
  exists d, decodes CPlain "0113140008000C010300002900B4E00001000202008005"
      (state_new Usb_hid (table 1 (one prova 2)) (Some [(prova, VimarScene)])) = Ok (RList [MGroupValueWriteInd prova d]) /\
    prop_get d "index" = Ok (VInt 5).
Proof.
  split; [vm_compute; reflexivity|].
  split; [eexists; split; [vm_compute; reflexivity|]; eexists; (split; [vm_compute; reflexivity|vm_compute; reflexivity])|].
  split; (eexists; split; [vm_compute; reflexivity|vm_compute; reflexivity]).
Qed.
Example t_ind_temperature :
  let st := state_new Usb_hid (table 1 (one prova 0x0A02)) (Some [(prova, Value_Temp)]) in
  (exists d, decodes CPlain "0113150008000d010300002900bcd011fd0a0203008087ce0000000000000000000000000000000000000000000000000" st
     = Ok (RList [MGroupValueWriteInd prova d]) /\ dpt_decode d = Ok (lit (-5) 10)) /\
  exists d, decodes CPlain "0113150008000d010300002900bcd011fd0a0203008087d80000000000000000000000000000000000000000000000000000000000000000" st
     = Ok (RList [MGroupValueWriteInd prova d]) /\ dpt_decode d = Ok (lit (-4) 10).
Proof. split; (eexists; split; [vm_compute; reflexivity|vm_compute; reflexivity]). Qed.

(** ** Doctests: decoding *)

(** decode/knxnet_ip/core/*/res.py, decode/knxnet_ip/tunneling/req.py,
    decode/knxnet_ip/header.py. *)
Example d_ip :
  let st := state_new Knxnet_ip (table 0xAA []) (Some []) in
  decodes_by (d_connect_res CNetIP) "00144a000801ac1f0afa0e570404ffff" st =
    Ok (RList [MConnectRes "172.31.10.250" 3671 (Some 0xFFFF) 0]) /\
  decodes_by d_connectionstate_res "00087000" st = Ok (RList [MConnectionstateRes 0]) /\
  decodes_by d_disconnect_res "00080500" (netip_state_new Knxnet_ip None None) = Ok (RList [MDisconnectRes 5 0]) /\
  decodes_by d_search_res "004c0801ac1f0afa0e5736010200ffff00000001001e9a2e00000000000e8c000a8a495020496e74657266616365204e313438000000000000000000000000000802020103010401" st =
    Ok (RList [MSearchRes "172.31.10.250" 3671 0x0200]).
Proof. vm_compute. auto. Qed.
Example d_tunneling :
  (exists d, decodes_by (d_tunneling_req CNetIP) "0019047401002900b4e011010c82050080589f8037"
      (st_set_remote 1 (netip_state_new Knxnet_ip (table 1 (one a1 0x0C82)) (Some [(a1, Switch)]))) =
      Ok (RList [MTunnelingReq 1 0; MGroupValueWriteInd a1 d]) /\ describe d = Ok ("DPT_Switch", [("action", VName "on")])) /\
  let a := mkasap 1 (Some "an application service access point to 0xABCD") in
  exists d, decodes CNetIP "061004200015047401002900BCE00001ABCD010080" (st_set_remote 1 (switch_state Knxnet_ip 1 0xABCD a)) =
      Ok (RList [MTunnelingReq 1 0; MGroupValueWriteInd a d]) /\ describe d = Ok ("DPT_Switch", [("action", VName "off")]).
Proof. split; (eexists; split; [vm_compute; reflexivity|vm_compute; reflexivity]). Qed.

(** decode/layer/application/a_group_value_*/*.py. *)
Definition example_asap : asap := mkasap 1 (Some "example asap").
Example d_group_values :
  let off := Ok ("DPT_Switch", [("action", VName "off")]) in
  let on := Ok ("DPT_Switch", [("action", VName "on")]) in
  (exists d, decodes CUsbHid "0113130008000B010300002E0096E000000002010000" (switch_state Usb_hid 1 2 a1) =
     Ok (RList [MGroupValueReadCon a1 d 0]) /\ describe d = off) /\
  (exists d, decodes CUsbHid "0113130008000B01030000290096E000000002010000" (switch_state Usb_hid 1 2 a1) =
     Ok (RList [MGroupValueReadInd a1 d]) /\ describe d = off) /\
  (exists d, decodes CUsbHid "0113130008000B010300002E0096E000000002010081" (switch_state Usb_hid 1 2 example_asap) =
     Ok (RList [MGroupValueWriteCon example_asap d 0]) /\ describe d = on) /\
  (exists d, decodes CUsbHid "0113130008000B01030000290096E000000002010081" (switch_state Usb_hid 1 2 example_asap) =
     Ok (RList [MGroupValueWriteInd example_asap d]) /\ describe d = on).
Proof. repeat split; (eexists; split; [vm_compute; reflexivity|vm_compute; reflexivity]). Qed.

(** decode/layer/application/a_property_value_*/*.py and
    decode/usb_hid/report_header/report_identifier.py. *)
Example d_properties :
  let st := state_new Usb_hid (table 0x102C []) (Some []) in
  let a0 := mkasap 0 None in
  decodes CUsbHid "0113170008000F010300002E0096600000102C0503D5007B1021" st = Ok (RList [MPropertyValueReadCon a0 0 123 1 33 0]) /\
  decodes CUsbHid "0113170008000F0103000029009660102C00000503D5007B1021" st = Ok (RList [MPropertyValueReadInd a0 0 123 1 33]) /\
  decodes CUsbHid "01131800080010010300002E0096600000102C0603D7007B1021FF" st = Ok (RList [MPropertyValueWriteCon a0 0 123 1 33 [0xFF] 0]) /\
  decodes CUsbHid "011318000800100103000029009660102C00000603D7007B1021FF" st = Ok (RList [MPropertyValueWriteInd a0 0 123 1 33 [0xFF]]) /\
  decodes CPlain "0113130008000B010300002900BCE00001ABCC010081" (state_new Usb_hid (table 1 []) (Some [])) = Ok (RList []).
Proof. vm_compute. auto 10. Qed.

(** ** Doctests: encoding *)

(** encode/knxnet_ip/**. *)
Example e_ip :
  let st := netip_state_new Knxnet_ip None None in
  encodes (MConnectReq "127.0.0.1" 1234 "192.168.0.1" 1234) (state_new Knxnet_ip None None) =
    Ok "06100205001A08017F00000104D20801C0A8000104D204040200" /\
  encodes (MConnectionstateReq "127.0.0.1" 1234) st = Ok "061002070010000008017F00000104D2" /\
  encodes (MDisconnectReq "127.0.0.1" 1234) st = Ok "061002090010000008017F00000104D2" /\
  encodes (MSearchReq "127.0.0.1" 1234) (state_new Knxnet_ip None None) = Ok "06100201000E08017F00000104D2" /\
  encodes (MTunnelingAck 1 0) st = Ok "06100421000A04000000" /\
  encodes_by (mbind e_t_connect e_tunneling_req) (netip_state_new Knxnet_ip (table 0x1001 []) None) =
    Ok "06100420001E040000000610042000140400000011009660000010010080".
Proof. vm_compute. auto 10. Qed.

(** encode/layer/**. *)
Example e_layer :
  let st := state_new Usb_hid (table 0x102C []) (Some []) in
  let a0 := mkasap 0 None in
  encodes (MGroupValueReadReq a1) (switch_state Usb_hid 1 2 a1) = Ok "0113130008000B01030000110096E000000002010000" /\
  encodes (MGroupValueWriteReq a1 (bits_set (dpt_new Switch) "action" 1)) (switch_state Usb_hid 1 2 a1) =
    Ok "0113130008000B01030000110096E000000002010081" /\
  encodes (MPropertyValueReadReq a0 0 0x7B 1 0x21) st = Ok "0113170008000F01030000110096600000102C0503D5007B1021" /\
  encodes (MPropertyValueWriteReq a0 0 0x7B 1 0x21 "FF") st = Ok "0113180008001001030000110096600000102C0603D7007B1021FF" /\
  encodes_by e_t_connect (state_new Usb_hid (table 0x1001 []) None) = Ok "0113120008000A0103000011009660000010010080".
Proof. vm_compute. auto 10. Qed.

(** ** Doctests: definitions *)

(** address.py 49-72. *)
Example x_address :
  free_style 0x1202 = 0x1202 /\ two_main 0x1202 = 2 /\ three_middle 0x1202 = 2 /\
  group_text (free_style 0x1202) = "(0x1202 2/514 2/2/2)" /\ group_text (three_level 1 1 1) = "(0x0901 1/257 1/1/1)".
Proof. vm_compute. auto. Qed.

(** msg.py 10-26, 97-106, 124-136, 170-179. *)
Example x_msg :
  (do m <- make_from_str "112203AA0B0C0D";
   do h <- octect m; do s <- short (snd h); do l <- long (snd s);
   Ok [octect_text (fst h); msg_str (snd h); short_text (fst s); msg_str (snd s); long_text (fst l); msg_str (snd l)]) =
    Ok ["0x11"; "2203AA0B0C0D"; "0x2203"; "AA0B0C0D"; "0xAA0B0C0D"; ""] /\
  (let o := octect_of_nibbles 1 0 in (octect_text o, nibble_high o, nibble_low o, o) = ("0x10", 1, 0, 16)) /\
  (short_text 4097, short_MSB 4097, short_LSB 4097) = ("0x1001", 16, 1) /\
  map octect_text [long_B1 0x91000008; long_B2 0x91000008; long_B3 0x91000008; long_B4 0x91000008] = ["0x08"; "0x00"; "0x00"; "0x91"].
Proof. vm_compute. auto. Qed.

(** definition/layer/network/address_table.py 27-73. *)
Definition kind1 (r : N) : bool := negb (N.eqb r 1).
Definition doc_table : address_table := at_set_ia (at_new (mkaddr 1 4097) [mkaddr 2 0xBB; mkaddr 3 0xAA; mkaddr 4 0xCC] 255) (mkaddr 1 4098).
Example x_address_table :
  addr_text kind1 (at_ia (at_new (mkaddr 1 4097) [] 255)) = "0x1001" /\ addr_text kind1 (at_ia doc_table) = "0x1002" /\ at_max doc_table = 255 /\
  list_text kind1 (at_addrs doc_table) = "[(0x00AA 0/170 0/0/170), (0x00BB 0/187 0/0/187), (0x00CC 0/204 0/0/204)]" /\
  at_get_address doc_table (Some 0) = Ok (mkaddr 1 4098) /\ at_get_address doc_table (Some 2) = Ok (mkaddr 2 0xBB) /\
  at_get_address doc_table (Some 4) = Err IndexError /\
  at_get_tsap doc_table (mkaddr 9 0xCC) = Some 3 /\ at_get_tsap doc_table (mkaddr 9 0xDD) = None /\
  (let '(o, t) := at_add (mkaddr 10 205) doc_table in o = Ok tt /\
     list_text kind1 (at_addrs t) = "[(0x00AA 0/170 0/0/170), (0x00BB 0/187 0/0/187), (0x00CC 0/204 0/0/204), (0x00CD 0/205 0/0/205)]" /\
     at_remove (mkaddr 11 205) t = (Ok tt, doc_table)) /\
  lines (at_text kind1 doc_table) =
    ["AddressTable: individual address: 0x1002, max_size=255"; ""; "    tsap -> individual address"; "    0 -> 0x1002";
     "    tsap -> group address (hex_free_style two_level_style three_level_style)";
     "    1 -> (0x00AA 0/170 0/0/170)"; "    2 -> (0x00BB 0/187 0/0/187)"; "    3 -> (0x00CC 0/204 0/0/204)"; ""].
Proof. vm_compute. auto 20. Qed.

(** definition/layer/transport/association_table.py 17-27, 79-115. *)
Example x_association_table :
  let pippo := mkasap 1 (Some "one") in let pluto := mkasap 2 (Some "two") in
  exists s0, assoc_new (at_new (mkaddr 1 4097) [] 255) [(pippo, mkaddr 2 111)] = Ok s0 /\
  exists s1, associate pippo [mkaddr 3 112] s0 = (Ok tt, s1) /\
  exists s2, associate pippo [mkaddr 4 110] s1 = (Ok tt, s2) /\
  exists s3, associate pluto [mkaddr 5 109] s2 = (Ok tt, s3) /\
  as_get_tsap s3 (mkaddr 9 111) = Some 3 /\
  as_get_addresses s3 [Some 3; Some 4; Some 2] = Ok [mkaddr 2 111; mkaddr 3 112; mkaddr 4 110] /\
  map asap_text (as_asaps s3) = ["0 (individual address)"; "1 (one)"; "2 (two)"] /\
  exists s4, disassociate pippo [mkaddr 10 112] s3 = (Ok tt, s4) /\
  as_get_addresses s4 [Some 3; Some 2] = Ok [mkaddr 2 111; mkaddr 4 110] /\
  as_get_tsaps s4 pippo = Ok [Some 3; Some 2] /\ as_get_tsap s4 (mkaddr 9 110) = Some 2 /\
  lines (as_text kind1 s4) =
    ["AssociationTable: asap -> addresses"; "    0 (individual address) -> [0x1001]";
     "    1 (one) -> [(0x006F 0/111 0/0/111), (0x006E 0/110 0/0/110)]"; "    2 (two) -> [(0x006D 0/109 0/0/109)]";
     "AddressTable: individual address: 0x1001, max_size=255"; ""; "    tsap -> individual address"; "    0 -> 0x1001";
     "    tsap -> group address (hex_free_style two_level_style three_level_style)";
     "    1 -> (0x006D 0/109 0/0/109)"; "    2 -> (0x006E 0/110 0/0/110)"; "    3 -> (0x006F 0/111 0/0/111)"; ""] /\
  asap_text a1 = "1" /\ asap_eqb a1 pippo = true.
Proof.
  cbn zeta. do 4 (eexists; split; [vm_compute; reflexivity|]). do 3 (split; [vm_compute; reflexivity|]).
  eexists. split; [vm_compute; reflexivity|]. do 4 (split; [vm_compute; reflexivity|]). split; [vm_compute; reflexivity|vm_compute; reflexivity].
Qed.

(** definition/layer/application/groupobject_table.py 8-20. *)
Example x_group_objects :
  let t := go_associate (mkasap 2 None) Switch [(a1, UpDown)] in
  lines (go_text t) = ["GroupObjectTable: ASAP -> datapointtype"; "    1 -> DPT_UpDown"; "    2 -> DPT_Switch"; ""] /\
  zlen t = 2 /\ let '(o, t') := go_disassociate a1 t in o = Ok tt /\ zlen t' = 1.
Proof. vm_compute. auto. Qed.

(** definition/layer/application/a_property_value.py 16-26,
    definition/layer/link/ldata.py 114-128, state.py 29-54. *)
Example x_property_header :
  let h := 0x0079101F in (ph_object_index h, ph_property_id h, ph_number_of_elements h, ph_start_index h) = (0, 121, 1, 31).
Proof. vm_compute. reflexivity. Qed.
Example x_ldata : exists m l r, make_from_str "BCE000010002010080" = Ok m /\ ld_make_from m = Ok (l, r) /\
  ld_source l = 1 /\ ld_destination l = 2 /\ ld_address_type l = AT_group /\ ld_nsdu l = Some T_Data_Group_PDU /\ ld_full_apci l = 128.
Proof. do 3 eexists. split; [vm_compute; reflexivity|]. split; [vm_compute; reflexivity|]. vm_compute. auto 10. Qed.
Example x_state : exists s m l r,
  assoc_new (at_new (mkaddr 1 4097) [mkaddr 2 2] 255) [(a1, mkaddr 3 2)] = Ok s /\
  make_from_str "BCE000010002010080" = Ok m /\ ld_make_from m = Ok (l, r) /\
  let st := st_set_ldata l (state_new Tp (Some s) (Some [(a1, Switch)])) in
  st_get_tsap st = Ok (Some 1) /\ st_get_asaps st = Ok [a1] /\ st_get_asaps_and_dpts st = Ok [(a1, Switch)] /\
  let st := st_set_apci 2 (st_set_asap a1 st) in
  st_get_tsaps st = Ok [Some 1] /\ st_get_addresses st = Ok [mkaddr 2 2] /\ st_get_dpt st = Ok Switch.
Proof. do 4 eexists. do 3 (split; [vm_compute; reflexivity|]). vm_compute. auto 10. Qed.

(** ** Doctests: datapointtypes.py *)

Definition with_value (c : dpt_class) (v : Z) : dpt := dpt_set_value (dpt_new c) v.
(** 114-124, 147-157, 176-186, 214-224, 256-265, 304-313, 347-356, 385-389. *)
Example p_bits :
  prop_get (with_value Switch 0x80) "action" = Ok (VName "off") /\ prop_get (with_value Switch 0x81) "action" = Ok (VName "on") /\
  (do d <- prop_set (with_value Switch 0x81) "action" (VName "off"); bits_get d "action") = Ok 0 /\
  prop_get (with_value Alarm 0x80) "action" = Ok (VName "no_alarm") /\ prop_get (with_value Alarm 0x81) "action" = Ok (VName "alarm") /\
  (do d <- prop_set (with_value Alarm 0x81) "action" (VName "no_alarm"); bits_get d "action") = Ok 0 /\
  prop_get (with_value UpDown 0x80) "direction" = Ok (VName "up") /\ prop_get (with_value UpDown 0x81) "direction" = Ok (VName "down") /\
  (do d <- prop_set (with_value UpDown 0x81) "direction" (VName "up"); bits_get d "direction") = Ok 0 /\
  prop_get (with_value Start 0x80) "action" = Ok (VName "stop") /\ prop_get (with_value Start 0x81) "action" = Ok (VName "start") /\
  (do d <- prop_set (with_value Start 0x81) "action" (VName "stop"); bits_get d "action") = Ok 0 /\
  prop_get (with_value VimarScene 1) "command" = Ok (VName "attiva") /\ prop_get (with_value VimarScene 1) "index" = Ok (VInt 1) /\
  (do d <- prop_set (with_value VimarScene 1) "command" (VName "identifica"); bits_get d "command") = Ok 3 /\
  prop_get (with_value SceneControl 1) "command" = Ok (VName "activate") /\ prop_get (with_value SceneControl 1) "number" = Ok (VInt 1) /\
  (do d <- prop_set (with_value SceneControl 1) "command" (VName "learn"); bits_get d "command") = Ok 1 /\
  prop_get (with_value Control_Dimming 0x0F) "step" = Ok (VInt 7) /\ bits_get (with_value Control_Dimming 0x0F) "direction" = Ok 1 /\
  (do d <- prop_set (with_value Control_Dimming 0x0F) "direction" (VName "down"); Ok (d_value d)) = Ok 7 /\
  d_value (with_value Brightness 0x32) = 50.
Proof. vm_compute. auto 30. Qed.
(** 413-422, 541-549. *)
Example p_clima :
  prop_get (with_value SetupClima 0) "funzionamento" = Ok (VName "off") /\ prop_get (with_value SetupClima 0) "stagione" = Ok (VName "inverno") /\
  (do d <- prop_set (with_value SetupClima 0) "setpoint" (VInt 200); bits_get d "setpoint") = Ok 200 /\
  prop_get (with_value InfoClimaReport 0x00E3E369) "temperatura" = Ok (VFloat (lit 361 10)) /\
  prop_get (with_value InfoClimaReport 0x00E3E369) "funzionamento" = Ok (VName "off") /\
  prop_get (with_value InfoClimaReport 0x00E3E369) "stagione" = Ok (VName "inverno").
Proof. vm_compute. auto 10. Qed.
(** 628-654, 707-714, 720-727, 733-746. *)
Example p_float16 :
  map (fun v => dpt_decode (with_value Float_16 v)) [1000; 2000; 100; 34806; 34316; 0x8760] =
    map Ok [lit 10 1; lit 20 1; lit 1 1; lit (-1) 10; lit (-5) 1; lit (-16) 10] /\
  (do d <- dpt_encode (with_value Float_16 14180) (lit 5 10); dpt_decode d) = Ok (lit 5 10) /\
  (do d <- dpt_encode (with_value Float_16 14180) (lit 19 1); Ok (d_value d)) = Ok 1900 /\
  dpt_decode (with_value Value_Wsp 1000) = Ok (lit 10 1) /\ dpt_decode (with_value Value_Wsp 600) = Ok (lit 6 1) /\
  dpt_decode (with_value Value_Temp 1000) = Ok (lit 10 1) /\ dpt_decode (with_value Value_Temp 1900) = Ok (lit 19 1) /\
  dpt_decode (with_value Value_Lux 1000) = Ok (lit 10 1) /\
  map (fun v => do d <- dpt_encode (dpt_new Value_Lux) (f_of_Z v); Ok (d_value d)) [30000; 25000; 800] = map Ok [23992; 23748; 13538].
Proof. vm_compute. auto 10. Qed.
(** 752-762. *)
Example p_float32 :
  map (fun v => dpt_decode (with_value Float_32 v)) [0x45C80000; 0x3F800000; 0x43FF8000] = map Ok [lit 6400 1; lit 1 1; lit 511 1].
Proof. vm_compute. reflexivity. Qed.
(** 18-29, 55-65. *)
Example p_factory :
  (do d <- factory_make "DPT_Control_Dimming" [("step", VInt 7); ("direction", VName "up")];
   do s <- prop_get d "step"; do r <- prop_get d "direction"; Ok [s; r]) = Ok [VInt 7; VName "up"] /\
  (do d <- factory_make "DPT_Value_Temp" [("decoded_value", VFloat (lit (-1) 1))]; dpt_decode d) = Ok (lit (-1) 1) /\
  describe (dpt_new Switch) = Ok ("DPT_Switch", [("action", VName "off")]) /\
  (do d <- dpt_encode (dpt_new Value_Lux) (f_of_Z 10000); describe d) = Ok ("DPT_Value_Lux", [("decoded_value", VFloat (lit 999936 100))]).
Proof. vm_compute. auto. Qed.

(** ** README.md 17-137 (also docs/source/intro.rst) *)

Definition light := mkasap 1 (Some "on/off light").
Definition info := mkasap 2 (Some "info on/off light").
Definition sensors := mkasap 3 (Some "two temperature sensors (together)").
Definition readme_table : option assoc_table :=
  match assoc_new (at_new (mkaddr 1 1) [] 255) [] with
  | Ok s0 =>
      let s1 := snd (associate light [mkaddr 2 0xABCD] s0) in
      let s2 := snd (associate info [mkaddr 2 0xABCD] s1) in
      Some (snd (associate sensors [mkaddr 3 (three_level 21 3 206); mkaddr 4 (two_level 21 975)] s2))
  | Err _ => None
  end.
Definition readme_objects : gobj_table := [(light, Switch); (info, Switch); (sensors, Value_Temp)].
Definition readme_usb : state := state_new Usb_hid readme_table (Some readme_objects).
Definition readme_ip : state := netip_state_new Knxnet_ip readme_table (Some readme_objects).
Definition off : dpt := with_value Switch 0x80.
Definition warm : res dpt := dpt_encode (dpt_new Value_Temp) (lit 5 100).
Example readme_text :
  option_map (fun s => lines (as_text kind1 s)) readme_table = Some
    ["AssociationTable: asap -> addresses"; "    0 (individual address) -> [0x0001]";
     "    1 (on/off light) -> [(0xABCD 21/973 21/3/205)]"; "    2 (info on/off light) -> [(0xABCD 21/973 21/3/205)]";
     "    3 (two temperature sensors (together)) -> [(0xABCE 21/974 21/3/206), (0xABCF 21/975 21/3/207)]";
     "AddressTable: individual address: 0x0001, max_size=255"; ""; "    tsap -> individual address"; "    0 -> 0x0001";
     "    tsap -> group address (hex_free_style two_level_style three_level_style)";
     "    1 -> (0xABCD 21/973 21/3/205)"; "    2 -> (0xABCE 21/974 21/3/206)"; "    3 -> (0xABCF 21/975 21/3/207)"; ""] /\
  lines (go_text readme_objects) =
    ["GroupObjectTable: ASAP -> datapointtype"; "    1 (on/off light) -> DPT_Switch"; "    2 (info on/off light) -> DPT_Switch";
     "    3 (two temperature sensors (together)) -> DPT_Value_Temp"; ""].
Proof. vm_compute. auto. Qed.
Example readme_usb_hid :
  decodes CPlain "0113130008000B010300002900BCE00001ABCD010080" readme_usb =
    Ok (RList [MGroupValueWriteInd light off; MGroupValueWriteInd info off]) /\
  decodes CPlain "0113130008000B010300002900BCE00001ABCC010081" readme_usb = Ok (RList []) /\
  (exists d, decodes CPlain "0113140008000C010300002900B4E00001ABCE02008005" readme_usb = Ok (RList [MGroupValueWriteInd sensors d]) /\
     dpt_decode d = Ok (lit 5 100)) /\
  encodes (MGroupValueReadReq sensors) readme_usb = Ok "0113130008000B01030000110096E00000ABCE010000" /\
  (do d <- warm; encodes (MGroupValueWriteReq sensors d) readme_usb) = Ok "0113150008000D01030000110096E00000ABCE0300800005" /\
  (do d <- factory_make "DPT_Switch" [("action", VName "off")]; encodes (MGroupValueWriteReq light d) readme_usb) =
    Ok "0113130008000B01030000110096E00000ABCD010080" /\
  decodes CNetIP "0113130008000B01030000290096E00000ABCD010080" readme_usb =
    Ok (RList [MGroupValueWriteInd light off; MGroupValueWriteInd info off]) /\
  describe off = Ok ("DPT_Switch", [("action", VName "off")]).
Proof.
  do 2 (split; [vm_compute; reflexivity|]). split; [eexists; (split; [vm_compute; reflexivity|vm_compute; reflexivity])|].
  vm_compute. auto 10.
Qed.
Example readme_knxnet_ip : exists m1 m2 st1 st2 d,
  make_from_str "061004200015047401002900BCE00001ABCD010080" = Ok m1 /\
  make_from_str "061004200016047401002900B4E00001ABCE02008005" = Ok m2 /\
  decode_msg CNetIP m1 (st_set_remote 1 readme_ip) =
    (Ok (RList [MTunnelingReq 1 0; MGroupValueWriteInd light off; MGroupValueWriteInd info off]), st1) /\
  decode_msg CNetIP m2 st1 = (Ok (RList [MTunnelingReq 1 0; MGroupValueWriteInd sensors d]), st2) /\ dpt_decode d = Ok (lit 5 100) /\
  encodes (MGroupValueReadReq sensors) (netip_state_new Knxnet_ip readme_table (Some readme_objects)) =
    Ok "06100420001504000000110096E00000ABCE010000" /\
  (do d <- warm; encodes (MGroupValueWriteReq sensors d) readme_ip) = Ok "06100420001704000000110096E00000ABCE0300800005".
Proof. do 5 eexists. do 6 (split; [vm_compute; reflexivity|]). vm_compute. reflexivity. Qed.
