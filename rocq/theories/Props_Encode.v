(** C13-C20 (and the encoding half of C09): encoded frames, byte for byte. *)
From Coq Require Import String ZArith NArith List Bool Lia ZifyBool.
From Verif Require Import Py Base Msg Address Dpt Tables LData State Encode.
From Verif Require Import SpecMsg SpecTables SpecWire AssocProofs EncodeProofs Props_Tables.
Import ListNotations.
Open Scope Z_scope.

(** A state used by the examples: the tables of Props_Tables, ASAP 1 a switch,
    ASAP 2 a temperature, ASAP 3 without type. *)
Definition ex_assoc : assoc_table :=
  match assoc_new ex_table [] with Ok s => snd (as_run s ex_calls) | Err _ => mkassoc ex_table [] [] end.
Definition ex_gobj : gobj_table := [(mkasap 1 None, Switch); (mkasap 2 None, Value_Temp)].
Definition ex_state (m : medium) : state :=
  st_set_local 255 (st_set_channel 7 (state_new m (Some ex_assoc) (Some ex_gobj))).

(** ** C13 *)

Theorem C13_group_write_usb : forall st s g a d c x rest,
  st_medium st = Usb_hid -> st_assoc st = Some s -> st_gobj st = Some g ->
  type_of g (asap_value a) = Some c -> sends_to s a = Ok (x :: rest) ->
  fst (encode_msg (MGroupValueWriteReq a d) st) =
  Ok (usb_report (group_frame data_req (a_val x) (write_tpdu c (d_value d)))).
Proof.
  intros st s g a d c x rest Hm Ha Hg Hc Hs. rewrite (write_frame st s g a d c Ha Hg Hc), Hs.
  cbn [fst]. unfold wire. rewrite Hm. reflexivity.
Qed.
Print Assumptions C13_group_write_usb.

(** The write indication is encoded with USB framing on every medium. *)
Theorem C13_group_write_ind : forall st s g a d c x rest,
  st_assoc st = Some s -> st_gobj st = Some g ->
  type_of g (asap_value a) = Some c -> sends_to s a = Ok (x :: rest) ->
  fst (encode_msg (MGroupValueWriteInd a d) st) =
  Ok (usb_report (group_frame data_ind (a_val x) (write_tpdu c (d_value d)))).
Proof.
  intros st s g a d c x rest Ha Hg Hc Hs. rewrite (write_ind_frame st s g a d c Ha Hg Hc), Hs. reflexivity.
Qed.
Print Assumptions C13_group_write_ind.

Example C13_example : exists s g,
  st_medium (ex_state Usb_hid) = Usb_hid /\ st_assoc (ex_state Usb_hid) = Some s /\
  st_gobj (ex_state Usb_hid) = Some g /\
  type_of g 2 = Some Value_Temp /\ (exists x r, sends_to s (mkasap 2 None) = Ok (x :: r)) /\
  fst (encode_msg (MGroupValueWriteReq (mkasap 2 None) (mkdpt Value_Temp 0x0C1A)) (ex_state Usb_hid)) =
  Ok [0x01; 0x13; 0x15; 0x00; 0x08; 0x00; 0x0D; 0x01; 0x03; 0x00; 0x00;
      0x11; 0x00; 0x96; 0xE0; 0x00; 0x00; 0x01; 0x00; 0x03; 0x00; 0x80; 0x0C; 0x1A].
Proof.
  do 2 eexists. split; [reflexivity|]. split; [reflexivity|]. split; [reflexivity|]. split; [reflexivity|].
  split; [do 2 eexists; vm_compute; reflexivity|]. vm_compute. reflexivity.
Qed.

(** ** C14 *)

Theorem C14_group_read : forall st s a x rest,
  st_assoc st = Some s -> sends_to s a = Ok (x :: rest) ->
  fst (encode_msg (MGroupValueReadReq a) st) = wire st (group_frame data_req (a_val x) read_tpdu).
Proof. intros st s a x rest Ha Hs. rewrite (read_frame st s a Ha), Hs. reflexivity. Qed.
Print Assumptions C14_group_read.

Example C14_example : exists s,
  st_assoc (ex_state Knxnet_ip) = Some s /\ (exists x r, sends_to s (mkasap 2 None) = Ok (x :: r)) /\
  fst (encode_msg (MGroupValueReadReq (mkasap 2 None)) (ex_state Knxnet_ip)) =
  Ok [0x06; 0x10; 0x04; 0x20; 0x00; 0x15; 0x04; 0x07; 0xFF; 0x00;
      0x11; 0x00; 0x96; 0xE0; 0x00; 0x00; 0x01; 0x00; 0x01; 0x00; 0x00].
Proof.
  eexists. split; [reflexivity|]. split; [do 2 eexists; vm_compute; reflexivity|]. vm_compute. reflexivity.
Qed.

(** ** C15 *)

Theorem C15_property_read : forall st s a oi pid ne si,
  st_assoc st = Some s ->
  fst (encode_msg (MPropertyValueReadReq a oi pid ne si) st) =
  wire st (individual_frame data_req (a_val (at_ia (as_table s))) (property_read_tpdu oi pid ne si)).
Proof. intros st s a oi pid ne si Ha. rewrite (property_read_frame st s a oi pid ne si Ha). reflexivity. Qed.
Print Assumptions C15_property_read.

(** [data] are the octets the text denotes (C01-C03 say which they are). *)
Theorem C15_property_write : forall st s a oi pid ne si text data,
  st_assoc st = Some s -> stringtooctects text = Ok data ->
  fst (encode_msg (MPropertyValueWriteReq a oi pid ne si text) st) =
  wire st (individual_frame data_req (a_val (at_ia (as_table s))) (property_write_tpdu oi pid ne si data)).
Proof.
  intros st s a oi pid ne si text data Ha Hd.
  rewrite (property_write_frame st s a oi pid ne si text data Ha Hd). reflexivity.
Qed.
Print Assumptions C15_property_write.

Example C15_example :
  stringtooctects "0A1b" = Ok [0x0A; 0x1B] /\
  fst (encode_msg (MPropertyValueWriteReq (mkasap 99 None) 3 (256 + 5) 17 4097 "0A1b") (ex_state Usb_hid)) =
  Ok [0x01; 0x13; 0x19; 0x00; 0x08; 0x00; 0x11; 0x01; 0x03; 0x00; 0x00;
      0x11; 0x00; 0x96; 0x60; 0x00; 0x00; 0x10; 0x01; 0x07; 0x03; 0xD7; 0x03; 0x05; 0x10; 0x01; 0x0A; 0x1B].
Proof. split; vm_compute; reflexivity. Qed.

(** ** C16 *)

Theorem C16_same_frame : forall m st, link_request m = true ->
  match fst (encode_msg m (on_medium Usb_hid st)) with
  | Err e => fst (encode_msg m (on_medium Knxnet_ip st)) = Err e
  | Ok report => exists cemi, report = usb_report cemi /\
      fst (encode_msg m (on_medium Knxnet_ip st)) =
      match st_channel st with
      | Some ch => Ok (tunnelling_request ch (st_local st) cemi)
      | None => Err AttributeError
      end
  end.
Proof. exact same_cemi. Qed.
Print Assumptions C16_same_frame.

(** The total length in the envelope is the number of bytes, and encoding moves
    neither counter. *)
Theorem C16_envelope : forall m st frame, link_request m = true ->
  fst (encode_msg m (on_medium Knxnet_ip st)) = Ok frame ->
  firstn 6 frame = [0x06; 0x10; 0x04; 0x20] ++ be 2 (zlen frame) /\
  st_remote (snd (encode_msg m (on_medium Knxnet_ip st))) = st_remote st /\
  st_local (snd (encode_msg m (on_medium Knxnet_ip st))) = st_local st.
Proof.
  intros m st frame L H. destruct (request_cemi m st L) as [r R]. rewrite R in H.
  destruct r as [c|e]; [|discriminate]. cbn [rbind] in H. unfold wire in H. cbn [on_medium st_medium st_channel st_local] in H.
  destruct (st_channel st) as [ch|]; [|discriminate]. injection H as <-.
  split; [rewrite zlen_tunnelling; reflexivity|].
  assert (K : core (snd (encode_msg m (on_medium Knxnet_ip st))) = core (on_medium Knxnet_ip st)).
  { apply encode_keeps. intros x y ->. discriminate. }
  unfold core in K. injection K. auto.
Qed.
Print Assumptions C16_envelope.

Example C16_example : link_request (MGroupValueReadReq (mkasap 1 None)) = true /\
  exists f, fst (encode_msg (MGroupValueReadReq (mkasap 1 None)) (on_medium Knxnet_ip (ex_state Usb_hid))) = Ok f.
Proof. split; [reflexivity|]. eexists. vm_compute. reflexivity. Qed.

(** ** C17 *)

Theorem C17_connect : forall ip1 p1 ip2 p2 st, ipv4 ip1 -> ipv4 ip2 ->
  encode_msg (MConnectReq (dotted ip1) p1 (dotted ip2) p2) st =
  (Ok ([0x06; 0x10; 0x02; 0x05; 0x00; 0x1A] ++ endpoint ip1 p1 ++ endpoint ip2 p2 ++ [0x04; 0x04; 0x02; 0x00]), st).
Proof. exact connect_frame. Qed.
Print Assumptions C17_connect.
Theorem C17_connectionstate : forall ip p st, ipv4 ip ->
  encode_msg (MConnectionstateReq (dotted ip) p) st =
  (match st_channel st with
   | Some ch => Ok ([0x06; 0x10; 0x02; 0x07; 0x00; 0x10; ch mod 256; 0x00] ++ endpoint ip p)
   | None => Err AttributeError
   end, st).
Proof. intros ip p st H. exact (channel_frame 0x207 ip p st H). Qed.
Print Assumptions C17_connectionstate.
Theorem C17_disconnect : forall ip p st, ipv4 ip ->
  encode_msg (MDisconnectReq (dotted ip) p) st =
  (match st_channel st with
   | Some ch => Ok ([0x06; 0x10; 0x02; 0x09; 0x00; 0x10; ch mod 256; 0x00] ++ endpoint ip p)
   | None => Err AttributeError
   end, st).
Proof. intros ip p st H. exact (channel_frame 0x209 ip p st H). Qed.
Print Assumptions C17_disconnect.
Theorem C17_search : forall ip p st, ipv4 ip ->
  encode_msg (MSearchReq (dotted ip) p) st =
  (Ok ([0x06; 0x10; 0x02; 0x01; 0x00; 0x0E] ++ endpoint ip p), st).
Proof. exact search_frame. Qed.
Print Assumptions C17_search.
(** The length octets of these frames are their lengths. *)
Theorem C17_lengths : forall ip1 p1 ip2 p2 ch, ipv4 ip1 -> ipv4 ip2 ->
  zlen ([0x06; 0x10; 0x02; 0x05; 0x00; 0x1A] ++ endpoint ip1 p1 ++ endpoint ip2 p2 ++ [0x04; 0x04; 0x02; 0x00]) = 0x1A /\
  zlen ([0x06; 0x10; 0x02; 0x07; 0x00; 0x10; ch mod 256; 0x00] ++ endpoint ip1 p1) = 0x10 /\
  zlen ([0x06; 0x10; 0x02; 0x01; 0x00; 0x0E] ++ endpoint ip1 p1) = 0x0E.
Proof.
  intros ip1 p1 ip2 p2 ch [H1 _] [H2 _]. unfold endpoint, zlen. rewrite !app_length, H1, H2.
  repeat split; reflexivity.
Qed.
Print Assumptions C17_lengths.

Example C17_example : ipv4 [192; 168; 0; 10] /\ dotted [192; 168; 0; 10] = "192.168.0.10"%string /\
  fst (encode_msg (MConnectReq "192.168.0.10" 3671 "10.0.0.255" (65536 + 2)) (ex_state Knxnet_ip)) =
  Ok [0x06; 0x10; 0x02; 0x05; 0x00; 0x1A; 0x08; 0x01; 192; 168; 0; 10; 0x0E; 0x57;
      0x08; 0x01; 10; 0; 0; 255; 0x00; 0x02; 0x04; 0x04; 0x02; 0x00].
Proof.
  split; [split; [reflexivity|repeat constructor; lia]|]. split; vm_compute; reflexivity.
Qed.

(** ** C18 *)

(** For a property write with k data octets: what the length fields say and when
    that is the truth.  Octet 2 of the report counts the octets after itself;
    octet 19 is the NPDU length, counting the octets after the TPCI octet 20. *)
Theorem C18_usb : forall st s a oi pid ne si text data report,
  st_medium st = Usb_hid -> st_assoc st = Some s -> stringtooctects text = Ok data ->
  fst (encode_msg (MPropertyValueWriteReq a oi pid ne si text) st) = Ok report ->
  exists packet npdu,
    znth 2 report = Some packet /\ packet = (zlen report - 3) mod 256 /\
    znth 19 report = Some npdu /\ npdu = (zlen report - 21) mod 256 /\
    (packet = zlen report - 3 <-> zlen data <= 232) /\
    (npdu = zlen report - 21 <-> zlen data <= 250).
Proof.
  intros st s a oi pid ne si text data report Hm Ha Hd H.
  rewrite (property_write_frame st s a oi pid ne si text data Ha Hd) in H. cbn [fst] in H.
  unfold wire in H. rewrite Hm in H. injection H as <-.
  pose proof (zlen_nonneg data) as Hk.
  set (cemi := individual_frame data_req (a_val (as_individual_address s)) (property_write_tpdu oi pid ne si data)).
  assert (L : zlen cemi = 15 + zlen data).
  { unfold cemi, individual_frame. rewrite zlen_cemi_frame, zlen_property_write. lia. }
  exists ((8 + zlen cemi) mod 256), ((zlen (property_write_tpdu oi pid ne si data) - 1) mod 256).
  rewrite zlen_usb, zlen_property_write, L.
  split; [unfold usb_report; rewrite L; reflexivity|]. split; [f_equal; lia|].
  split; [unfold cemi; unfold individual_frame, cemi_frame; rewrite <- (zlen_property_write oi pid ne si data); reflexivity|].
  split; [f_equal; lia|]. split; lia.
Qed.
Print Assumptions C18_usb.
Theorem C18_netip : forall st s a oi pid ne si text data ch,
  st_medium st = Knxnet_ip -> st_channel st = Some ch -> st_assoc st = Some s ->
  stringtooctects text = Ok data ->
  exists frame hi lo, fst (encode_msg (MPropertyValueWriteReq a oi pid ne si text) st) = Ok frame /\
    znth 4 frame = Some hi /\ znth 5 frame = Some lo /\
    256 * hi + lo = zlen frame mod 65536 /\
    (256 * hi + lo = zlen frame <-> zlen data <= 65510).
Proof.
  intros st s a oi pid ne si text data ch Hm Hc Ha Hd.
  set (cemi := individual_frame data_req (a_val (as_individual_address s)) (property_write_tpdu oi pid ne si data)).
  assert (L : zlen cemi = 15 + zlen data).
  { unfold cemi, individual_frame. rewrite zlen_cemi_frame, zlen_property_write. lia. }
  exists (tunnelling_request ch (st_local st) cemi), ((10 + zlen cemi) / 256 mod 256), ((10 + zlen cemi) mod 256).
  rewrite (property_write_frame st s a oi pid ne si text data Ha Hd). cbn [fst].
  pose proof (zlen_nonneg data) as Hk.
  split; [unfold wire; rewrite Hm, Hc; reflexivity|].
  split; [reflexivity|]. split; [reflexivity|]. rewrite zlen_tunnelling, L. lia.
Qed.
Print Assumptions C18_netip.

Example C18_example : exists s data report, st_assoc (ex_state Usb_hid) = Some s /\
  stringtooctects (msg_str (repeat 0x5A 233)) = Ok data /\ zlen data = 233 /\
  fst (encode_msg (MPropertyValueWriteReq (mkasap 0 None) 0 0 0 0 (msg_str (repeat 0x5A 233))) (ex_state Usb_hid)) = Ok report.
Proof.
  do 3 eexists. split; [reflexivity|]. split; [vm_compute; reflexivity|]. split; vm_compute; reflexivity.
Qed.

(** ** C19 *)

Theorem C19_no_type : forall st g a d,
  st_gobj st = Some g -> type_of g (asap_value a) = None ->
  fst (encode_msg (MGroupValueWriteReq a d) st) = Err KeyError /\
  fst (encode_msg (MGroupValueWriteInd a d) st) = Err KeyError.
Proof.
  intros st g a d Hg Ht. destruct (write_no_type st g a d Hg Ht) as [-> ->]. split; reflexivity.
Qed.
Print Assumptions C19_no_type.
Theorem C19_never_associated : forall t l h s st a, built t l h s -> st_assoc st = Some s ->
  introduced t l h (asap_value a) = false ->
  fst (encode_msg (MGroupValueReadReq a) st) = Err KeyError /\
  forall g d, st_gobj st = Some g ->
    fst (encode_msg (MGroupValueWriteReq a d) st) = Err KeyError /\
    fst (encode_msg (MGroupValueWriteInd a d) st) = Err KeyError.
Proof.
  intros t l h s st a B Ha Hi. pose proof (never_associated t l h s a B Hi) as Hs.
  split; [rewrite (read_frame st s a Ha), Hs; reflexivity|]. intros g d Hg.
  destruct (type_of g (asap_value a)) as [c|] eqn:Ht.
  - rewrite (write_frame st s g a d c Ha Hg Ht), (write_ind_frame st s g a d c Ha Hg Ht), Hs. split; reflexivity.
  - destruct (write_no_type st g a d Hg Ht) as [-> ->]. split; reflexivity.
Qed.
Print Assumptions C19_never_associated.
Theorem C19_no_encoder : forall m st, sendable m = false -> encode_msg m st = (Err KeyError, st).
Proof. intros m st H. destruct m; try discriminate H; reflexivity. Qed.
Print Assumptions C19_no_encoder.
(** After all its addresses were disassociated, a frame without destination,
    length and TPCI is produced. *)
Theorem C19_no_address_left : forall t l h s st a, built t l h s -> st_assoc st = Some s ->
  introduced t l h (asap_value a) = true ->
  (forall x, balance t l h (asap_value a) x = 0) ->
  fst (encode_msg (MGroupValueReadReq a) st) = wire st [0x11; 0x00; 0x96; 0xE0; 0x00; 0x00; 0x00] /\
  forall g d c, st_gobj st = Some g -> type_of g (asap_value a) = Some c ->
    fst (encode_msg (MGroupValueWriteReq a d) st) =
    wire st ([0x11; 0x00; 0x96; 0xE0; 0x00; 0x00] ++ tl (write_tpdu c (d_value d))).
Proof.
  intros t l h s st a B Ha Hi Hz. pose proof (no_address_left t l h s a B Hi Hz) as Hs.
  split; [rewrite (read_frame st s a Ha), Hs; reflexivity|]. intros g d c Hg Ht.
  rewrite (write_frame st s g a d c Ha Hg Ht), Hs. reflexivity.
Qed.
Print Assumptions C19_no_address_left.

Example C19_no_type_example : st_gobj (ex_state Tp) = Some ex_gobj /\ type_of ex_gobj 3 = None /\
  exists x r, sends_to ex_assoc (mkasap 3 None) = Ok (x :: r).
Proof. split; [reflexivity|]. split; [reflexivity|]. do 2 eexists. vm_compute. reflexivity. Qed.
Lemma ex_assoc_built : built ex_table [] ex_calls ex_assoc.
Proof.
  exists (match assoc_new ex_table [] with Ok s => s | Err _ => mkassoc ex_table [] [] end), [Ok tt; Ok tt; Ok tt; Ok tt].
  split; [vm_compute; reflexivity|]. split; [vm_compute; reflexivity|]. repeat constructor.
Qed.
Example C19_never_example : built ex_table [] ex_calls ex_assoc /\
  introduced ex_table [] ex_calls 9 = false /\
  type_of [(mkasap 9 None, Switch)] 9 = Some Switch.
Proof. split; [exact ex_assoc_built|]. split; reflexivity. Qed.
Definition ex_emptied : list as_call :=
  ex_calls ++ [Disassociate (mkasap 2 None) [mkaddr 9 0x0100]].
Example C19_emptied_example : exists s, built ex_table [] ex_emptied s /\
  introduced ex_table [] ex_emptied 2 = true /\
  (forall x, balance ex_table [] ex_emptied 2 x = 0).
Proof.
  eexists. split; [|split; [reflexivity|]].
  - eexists. exists [Ok tt; Ok tt; Ok tt; Ok tt; Ok tt].
    split; [vm_compute; reflexivity|]. split; [vm_compute; reflexivity|]. repeat constructor.
  - intros x. unfold balance. cbn -[Z.eqb occ].
    change (0 =? 2) with false. change (1 =? 2) with false. change (2 =? 2) with true. change (3 =? 2) with false.
    cbv iota. unfold occ. cbn [filter]. destruct (x =? 768), (x =? 256); reflexivity.
Qed.

(** ** C20 *)

Theorem C20_preserved : forall m st st', snd (encode_msg m st) = st' ->
  st_medium st' = st_medium st /\ st_assoc st' = st_assoc st /\ st_gobj st' = st_gobj st /\
  st_ldata st' = st_ldata st /\ st_local st' = st_local st /\ st_channel st' = st_channel st /\
  st_remote st' =
    match m with
    | MTunnelingAck seq _ =>
        if seq =? st_remote st
        then match st_channel st with Some _ => (st_remote st + 1) mod 256 | None => st_remote st end
        else st_remote st
    | _ => st_remote st
    end.
Proof.
  intros m st st' <-.
  assert (K : (exists seq status, m = MTunnelingAck seq status) \/ core (snd (encode_msg m st)) = core st).
  { destruct m; try (right; apply encode_keeps; intros ? ?; discriminate). left. eauto. }
  destruct K as [(seq & status & ->)|K].
  - rewrite ack_frame. destruct (st_channel st) as [ch|] eqn:E; cbn [snd]; [|destruct (seq =? st_remote st); auto 10].
    destruct (seq =? st_remote st); cbn; auto 10.
  - unfold core in K. injection K as K1 K2 K3 K4 K5 K6 K7.
    destruct m; auto 10.
    rewrite ack_frame. destruct (st_channel st) as [ch|] eqn:E; cbn [snd]; [|destruct (seq =? st_remote st); auto 10].
    destruct (seq =? st_remote st); cbn; auto 10.
Qed.
Print Assumptions C20_preserved.

Example C20_example :
  st_remote (snd (encode_msg (MTunnelingAck 255 0) (st_set_remote 255 (ex_state Knxnet_ip)))) = 0 /\
  st_remote (snd (encode_msg (MTunnelingAck 254 0) (st_set_remote 255 (ex_state Knxnet_ip)))) = 255.
Proof. split; reflexivity. Qed.

(** ** C09, the encoder *)

(** After a shared address was disassociated from [a], encoding for the other
    ASAP [b] raises TypeError in every state with these tables and a type for b. *)
Theorem C09_shared_encode : forall t l h s a b g,
  NoDup (vals (at_addrs t)) -> built t l h s ->
  In (a_val g) (vals (at_addrs (as_table s))) -> a_val g <> a_val (at_ia (as_table s)) ->
  asap_value a <> asap_value b ->
  0 < balance t l h (asap_value a) (a_val g) ->
  0 < balance t l h (asap_value b) (a_val g) ->
  exists s', disassociate a [g] s = (Ok tt, s') /\
    forall st, st_assoc st = Some s' ->
      fst (encode_msg (MGroupValueReadReq b) st) = Err TypeError /\
      forall go c d, st_gobj st = Some go -> type_of go (asap_value b) = Some c ->
        fst (encode_msg (MGroupValueWriteReq b d) st) = Err TypeError.
Proof.
  intros t l h s a b g H1 H2 H3 H4 H5 H6 H7.
  destruct (disassociate_shared t l h s a b g H1 H2 H3 H4 H5 H6 H7) as (s' & Hd & _ & Hs).
  exists s'. split; [exact Hd|]. intros st Ha. split.
  - rewrite (read_frame st s' b Ha), Hs. reflexivity.
  - intros go c d Hg Ht. rewrite (write_frame st s' go b d c Ha Hg Ht), Hs. reflexivity.
Qed.
Print Assumptions C09_shared_encode.
Example C09_shared_encode_example :
  built ex_table [] ex_calls ex_assoc /\ NoDup (vals (at_addrs ex_table)) /\
  In 0x0900 (vals (at_addrs (as_table ex_assoc))) /\ 0x0900 <> a_val (at_ia (as_table ex_assoc)) /\
  balance ex_table [] ex_calls 3 0x0900 = 1 /\ balance ex_table [] ex_calls 1 0x0900 = 1 /\
  type_of ex_gobj 1 = Some Switch.
Proof.
  split; [exact ex_assoc_built|]. split; [vm_compute; repeat constructor; cbn; intuition congruence|].
  vm_compute. intuition congruence.
Qed.
