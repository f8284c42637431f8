(** C104: a conversation is the same on USB and through a KNXnet/IP tunnel. *)
From Coq Require Import String ZArith List Bool Lia.
From Verif Require Import Base Py Address Dpt Tables State Encode Decode SpecTables SpecMsg SpecWire SpecDecode SpecMedia MediaProofs
  Props_Encode Props_Decode.
Import ListNotations.
Open Scope Z_scope.

(** ** C104: whole conversations

    Any requests and any received frames in any order; the state on USB with any
    counters, the one on KNXnet/IP with any local counter. *)
Theorem C104_media : forall ts ch n u i, Forall ordinary ts ->
  st_medium u = Usb_hid -> st_medium i = Knxnet_ip ->
  st_assoc i = st_assoc u -> st_gobj i = st_gobj u -> st_assoc u <> None -> st_gobj u <> None ->
  st_channel i = Some ch -> st_remote i = n -> 0 <= n < 256 ->
  over_ip ch n i ts = over_usb u ts.
Proof.
  intros ts ch n u i F. intros. apply media_same; [exact F|]. constructor; assumption.
Qed.
Print Assumptions C104_media.

(** ** C104: one request, one frame *)
Theorem C104_request : forall m u i ch, link_request m = true ->
  st_medium u = Usb_hid -> st_medium i = Knxnet_ip -> st_assoc i = st_assoc u -> st_gobj i = st_gobj u ->
  st_channel i = Some ch ->
  (exists f, fst (encode_msg m u) = Ok (usb_report f) /\
             fst (encode_msg m i) = Ok (tunnelling_request ch (st_local i) f)) \/
  (exists e, fst (encode_msg m u) = Err e /\ fst (encode_msg m i) = Err e).
Proof.
  intros m u i ch L Mu Mi A G C. destruct (request_by_tables m u L) as [r R].
  rewrite (R u eq_refl eq_refl), (R i A G). destruct r as [f|e]; cbn [rbind]; [left; exists f|right; eauto].
  unfold wire. rewrite Mu, Mi, C. auto.
Qed.
Print Assumptions C104_request.

(** ** Cases *)

(** A write, its confirmation and a telegram for two ASAPs, a request for an ASAP
    without type, a numbered telegram, and one that cannot be displayed. *)
Definition md_turns : list turn :=
  [Speak (MGroupValueWriteReq (mkasap 1 None) (mkdpt Switch 1));
   Listen [0x2E; 0x00; 0x96; 0xE0; 0x00; 0x00; 0x09; 0x00; 0x01; 0x00; 0x81];
   Listen ex_frame;
   Speak (MGroupValueWriteReq (mkasap 9 None) (mkdpt Switch 1));
   Listen [0x29; 0x00; 0xBC; 0xE0; 0x11; 0x02; 0x09; 0x00; 0x05; 0x40; 0x80; 0x02; 0x00; 0x00; 0x81];
   Listen [0x29; 0x00; 0xBC; 0xE0; 0x11; 0x02; 0x09; 0x00; 0x05; 0x00; 0x80; 0x0F; 0x00; 0x00; 0x81];
   Speak (MGroupValueReadReq (mkasap 1 None))].
Example C104_example : Forall ordinary md_turns /\
  over_usb (ex_st Usb_hid) md_turns = over_ip 7 9 (ex_st Knxnet_ip) md_turns /\
  map (fun x => match x with Frame f => zlen f | Told l => 100 + zlen l | Raised _ => -1 end) (over_usb (ex_st Usb_hid) md_turns)
    = [11; 102; 102; -1; 100; -1].
Proof.
  assert (F : Forall ordinary md_turns).
  { unfold md_turns, ex_frame. repeat (apply Forall_cons; [first [reflexivity|split; [octets_tac|discriminate]]|]). apply Forall_nil. }
  split; [exact F|]. split.
  - symmetry. apply C104_media; try reflexivity; try discriminate; [exact F|lia].
  - vm_compute. reflexivity.
Qed.
