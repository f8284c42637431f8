(** C61, C62: everything sent is octets; connect and disconnect requests. *)
From Coq Require Import String ZArith NArith List Bool Lia ZifyBool.
From Verif Require Import Py Base Msg Address Dpt Tables LData Inet State Encode Decode.
From Verif Require Import SpecMsg SpecTables SpecWire SpecDecode.
From Verif Require Import MsgProofs TablesProofs AssocProofs EncodeProofs OctetsProofs Props_Tables Props_Encode Props_Msg.
Import ListNotations.
Open Scope Z_scope.

(** ** C61 *)

(** Whatever message is encoded in whatever state: if there is a frame, all its
    elements are octets, its text has two digits for each, and reading the text
    gives the frame back. *)
Theorem C61_octets : forall m st b, fst (encode_msg m st) = Ok b ->
  octets b /\ msg_str b = text_of b /\ make_from_str (msg_str b) = Ok b.
Proof.
  intros m st b H. pose proof (encoded_octets m st b H) as O. split; [exact O|].
  split; [apply C01_text_of_message; exact O|apply C01_message_round_trip; exact O].
Qed.
Print Assumptions C61_octets.
(** Values and parameters far outside their ranges. *)
Example C61_ex :
  fst (encode_msg (MPropertyValueReadReq (mkasap 1 None) 300 (-1) 99 70000) (ex_state Usb_hid)) =
    Ok [0x01; 0x13; 0x17; 0x00; 0x08; 0x00; 0x0F; 0x01; 0x03; 0x00; 0x00; 0x11; 0x00; 0x96; 0x60; 0x00; 0x00; 0x10; 0x01; 0x05;
        0x03; 0xD5; 0x2C; 0xFF; 0x31; 0x70] /\
  match fst (encode_msg (MPropertyValueReadReq (mkasap 1 None) 300 (-1) 99 70000) (ex_state Usb_hid)) with
  | Ok b => make_from_str (msg_str b) = Ok b | Err _ => False end.
Proof. split; vm_compute; reflexivity. Qed.

(** ** C62 *)

(** The frames of the two connection requests. *)
Definition connect_tpdu : list Z := [0x80].
Definition disconnect_tpdu : list Z := [0x81].

Lemma individual_one st s t : st_assoc st = Some s -> st_address_type st = Some 0 ->
  e_ndata_individual_req [t] st = (wire st (individual_frame data_req (a_val (as_individual_address s)) [t]), st).
Proof.
  intros H1 H2. unfold e_ndata_individual_req. unfold mbind at 1, mget at 1. unfold mbind at 1, mlift at 1.
  unfold st_individual_address. rewrite H1. cbn [need rbind].
  unfold e_ldata_req. unfold mbind. rewrite ll_encode_individual by assumption.
  rewrite cemi_req_wire. unfold individual_frame, cemi_frame. rewrite <- be2, Octect_mod. reflexivity.
Qed.
Theorem C62_connect : forall st s, st_assoc st = Some s ->
  fst (e_t_connect st) = wire st (individual_frame data_req (a_val (at_ia (as_table s))) connect_tpdu) /\
  snd (e_t_connect st) = st_set_address_type AT_individual st.
Proof.
  intros st s H. unfold e_t_connect. unfold mbind, mmodify. cbv zeta.
  replace (Octect (ld_tpci (ld_set_connected (ld_set_nsdu ld_new T_Data_Individual_PDU) true))) with 0x80 by (vm_compute; reflexivity).
  rewrite (individual_one (st_set_address_type AT_individual st) s 0x80); [split; reflexivity|exact H|reflexivity].
Qed.
Print Assumptions C62_connect.
Theorem C62_disconnect : forall st s, st_assoc st = Some s ->
  fst (e_t_disconnect st) = wire st (individual_frame data_req (a_val (at_ia (as_table s))) disconnect_tpdu) /\
  snd (e_t_disconnect st) = st_set_address_type AT_individual st.
Proof.
  intros st s H. unfold e_t_disconnect. unfold mbind, mmodify. cbv zeta.
  replace (Octect (ld_tpci (ld_set_apci (ld_set_connected (ld_set_nsdu ld_new T_Data_Individual_PDU) true) 0x100))) with 0x81 by (vm_compute; reflexivity).
  rewrite (individual_one (st_set_address_type AT_individual st) s 0x81); [split; reflexivity|exact H|reflexivity].
Qed.
Print Assumptions C62_disconnect.
(** Without an association table both raise and leave only the address type. *)
Theorem C62_no_table : forall st, st_assoc st = None ->
  e_t_connect st = (Err AttributeError, st_set_address_type AT_individual st) /\
  e_t_disconnect st = (Err AttributeError, st_set_address_type AT_individual st).
Proof.
  intros st H. unfold e_t_connect, e_t_disconnect, mbind, mmodify, e_ndata_individual_req, mbind, mget, mlift, st_individual_address.
  cbv zeta. cbn [st_set_address_type st_assoc]. rewrite H. split; reflexivity.
Qed.
Print Assumptions C62_no_table.
(** The frame of the docstring of t_connect/req.py. *)
Example C62_ex : fst (e_t_connect (ex_state Usb_hid)) =
  Ok [0x01; 0x13; 0x12; 0x00; 0x08; 0x00; 0x0A; 0x01; 0x03; 0x00; 0x00; 0x11; 0x00; 0x96; 0x60; 0x00; 0x00; 0x10; 0x01; 0x00; 0x80] /\
  fst (e_t_disconnect (ex_state Knxnet_ip)) =
  Ok [0x06; 0x10; 0x04; 0x20; 0x00; 0x14; 0x04; 0x07; 0xFF; 0x00; 0x11; 0x00; 0x96; 0x60; 0x00; 0x00; 0x10; 0x01; 0x00; 0x81].
Proof. split; vm_compute; reflexivity. Qed.
