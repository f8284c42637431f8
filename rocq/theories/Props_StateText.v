(** C105: the text of a State object, and of the link-layer data in it. *)
From Coq Require Import String Ascii ZArith List Bool NArith Lia.
From Verif Require Import Base Py Msg Address Dpt Tables LData State Decode Text StateText SpecMsg SpecText SpecStateText
  SimProofs DecodeProofs TextProofs StateTextProofs Props_Decode Props_Text.
Import ListNotations.
Open Scope Z_scope.

(** Two states have one text exactly when they agree in everything but the channel
    and what the texts of their parts leave out; this holds for both ways Python
    shows an address type. *)
Theorem C105_state : forall kind named s u, presentable s -> presentable u ->
  (state_text kind named s = state_text kind named u <-> shown_state kind s = shown_state kind u).
Proof. exact state_text_iff. Qed.
Print Assumptions C105_state.

(** The text of link-layer data tells source, destination and address type apart,
    for all values, and nothing else. *)
Theorem C105_ldata : forall named l m, ld_text named l = ld_text named m <-> shown_ldata l = shown_ldata m.
Proof. intros named l m. split; [apply ld_inj|apply ld_same]. Qed.
Print Assumptions C105_ldata.

(** The lines: one for the medium, the lines of the two tables, and four more, each
    followed by an empty one; a name of one line cannot add any. *)
Theorem C105_lines : forall kind named s, presentable s ->
  zlen (lines (state_text kind named s)) =
    12 + zlen (lines (or_none (as_text kind) (st_assoc s))) + zlen (lines (or_none go_text (st_gobj s))).
Proof.
  intros kind named s P. destruct (state_lines kind named s P) as (ha & ta & hg & tg & -> & -> & _ & _ & ->).
  repeat rewrite ?zlen_cons, ?zlen_app. change (zlen (@nil string)) with 0. lia.
Qed.
Print Assumptions C105_lines.

(** Decoding a USB report keeps a state presentable and can change its text only in
    the line of the link-layer data. *)
Theorem C105_decode : forall kind named c m st, st_medium st = Usb_hid -> presentable st ->
  let st' := snd (decode_msg c m st) in
  presentable st' /\
  (state_text kind named st' = state_text kind named st <-> option_map shown_ldata (st_ldata st') = option_map shown_ldata (st_ldata st)).
Proof.
  intros kind named c m st Hm P st'.
  assert (C : st' = st \/ exists l, st' = st_set_ldata l st).
  { subst st'. assert (E : decode_msg c m st = d_report_identifier m st).
    { unfold decode_msg. unfold mbind at 1, mget at 1. rewrite Hm. reflexivity. }
    rewrite E. exact (calm_usb m st). }
  destruct C as [-> |[l ->]]; [split; [exact P|tauto]|].
  assert (P' : presentable (st_set_ldata l st)) by exact P. split; [exact P'|].
  rewrite (C105_state kind named _ _ P' P). unfold shown_state, st_set_ldata. cbn [st_medium st_assoc st_gobj st_ldata st_asap st_apci st_address_type st_remote st_local].
  split; [congruence|]. intros ->. reflexivity.
Qed.
Print Assumptions C105_decode.

(** A new state, of either class, has used nothing yet: after medium and tables the
    text is the same for all of them, whatever they were made from. *)
Definition unused : string :=
  ("LData structure (for decode functions): None" ++ gap ++ "ASAP: None, APCI: None, Address Type: None" ++ gap
   ++ "Sequence Counter (remote): 0" ++ gap ++ "Sequence Counter (local): 0" ++ newline)%string.
Theorem C105_new : forall kind named md a g, exists front : string,
  state_text kind named (state_new md a g) = (front ++ unused)%string /\
  state_text kind named (netip_state_new md a g) = (front ++ unused)%string.
Proof.
  intros kind named md a g.
  exists (" State for " ++ medium_text md ++ gap ++ or_none (as_text kind) a ++ gap ++ or_none go_text g ++ gap)%string.
  unfold state_text, state_new, netip_state_new, unused.
  cbn [st_medium st_assoc st_gobj st_ldata st_asap st_apci st_address_type st_remote st_local or_none].
  change (dec 0) with "0"%string. split; rewrite !app_assoc_s; reflexivity.
Qed.
Print Assumptions C105_new.

(** A state with tables, an ASAP and decoded link-layer data, in full. *)
Definition sx_state : state :=
  mkstate Usb_hid (Some tx_assoc) (Some [(mkasap 1 (Some "one"%string), Switch)])
    (Some (mkld 0x80 0 1 0x0901 0x1001 0xE0 0xBC)) (Some (mkasap 1 (Some "a, APCI: 7"%string))) (Some 128) (Some 1) 0 255 None.
Example C105_example : presentable sx_state /\ presentable (st_set_remote 1 sx_state) /\
  lines (state_text tx_kind true sx_state) =
  [" State for Medium.usb_hid"; "";
   "        AssociationTable: asap -> addresses"; "    0 (individual address) -> [0x1001]"; "    1 (one) -> [(0x006F 0/111 0/0/111)]";
   "AddressTable: individual address: 0x1001, max_size=255"; ""; "    tsap -> individual address"; "    0 -> 0x1001";
   "    tsap -> group address (hex_free_style two_level_style three_level_style)"; "    1 -> (0x006F 0/111 0/0/111)"; ""; "";
   "        GroupObjectTable: ASAP -> datapointtype"; "    1 (one) -> DPT_Switch"; ""; "";
   "        LData structure (for decode functions): source: 4097 (0x1001), destination: 2305 (0x0901), address_type: AddressType.group"; "";
   "        ASAP: 1 (a, APCI: 7), APCI: 128, Address Type: AddressType.group"; "";
   "        Sequence Counter (remote): 0"; ""; "        Sequence Counter (local): 255"; ""]%string /\
  state_text tx_kind true (st_set_remote 1 sx_state) <> state_text tx_kind true sx_state /\
  state_text tx_kind true (st_set_channel 9 sx_state) = state_text tx_kind true sx_state.
Proof.
  assert (P : presentable sx_state).
  { split; [|split; [|split]]; unfold sx_state; cbn [st_assoc st_gobj st_asap st_address_type]; intros x E; injection E as <-.
    - split; [constructor; [|constructor; [|constructor]]; vm_compute; intuition discriminate|].
      unfold table_sixteen, sixteen_bits, tx_assoc, tx_table. cbn [as_table at_ia at_addrs a_val as_addresses].
      split; [split; [lia|constructor; [cbn [a_val]; lia|constructor]]|].
      constructor; [constructor; [cbn [a_val]; lia|constructor]|]. constructor; [constructor; [cbn [a_val]; lia|constructor]|constructor].
    - constructor; [|constructor]. vm_compute. intuition discriminate.
    - constructor; [|constructor]. vm_compute. intuition discriminate.
    - right. reflexivity. }
  split; [exact P|]. split; [exact P|]. split; [vm_compute; reflexivity|]. split; [vm_compute; discriminate|reflexivity].
Qed.
Example C105_bare : state_text tx_kind false (state_new Tp None None) =
  (" State for Medium.tp" ++ gap ++ "None" ++ gap ++ "None" ++ gap ++ "LData structure (for decode functions): None" ++ gap
   ++ "ASAP: None, APCI: None, Address Type: None" ++ gap ++ "Sequence Counter (remote): 0" ++ gap
   ++ "Sequence Counter (local): 0" ++ newline)%string /\
  (exists st', st' = snd (decode_msg CUsbHid (ex_usb ex_frame) (ex_st Usb_hid)) /\ option_map shown_ldata (st_ldata st') <> option_map shown_ldata (st_ldata (ex_st Usb_hid))).
Proof. split; [vm_compute; reflexivity|]. eexists. split; [reflexivity|]. vm_compute. discriminate. Qed.
