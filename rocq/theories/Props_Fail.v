(** C78: which received bytes make decoding fail, and with which exception. *)
From Coq Require Import String ZArith NArith List Bool Lia ZifyBool.
From Verif Require Import Py Base Msg Address Dpt Tables LData Inet State Encode Decode.
From Verif Require Import SpecMsg SpecTables SpecWire SpecDecode.
From Verif Require Import MsgProofs TablesProofs AssocProofs EncodeProofs DecodeProofs SimProofs IpProofs Props_Tables Props_Encode Props_Decode SpecFail FailProofs.
Import ListNotations.
Open Scope Z_scope.

(** Every exception has exactly the causes of [failure] (SpecFail.v); all bytes,
    all association histories, both media. *)
Theorem C78_failures : forall tb l h st s go c m e,
  built tb l h s -> st_assoc st = Some s -> st_gobj st = Some go -> octets m -> proper_class st c ->
  (fst (decode_msg c m st) = Err e <-> failure tb l h st s go m e).
Proof. exact decode_failure. Qed.
Print Assumptions C78_failures.
(** Decoding succeeds exactly when there is none of these causes ... *)
Theorem C78_success : forall tb l h st s go c m,
  built tb l h s -> st_assoc st = Some s -> st_gobj st = Some go -> octets m -> proper_class st c ->
  ((exists r, fst (decode_msg c m st) = Ok r) <-> forall e, ~ failure tb l h st s go m e).
Proof.
  intros tb l h st s go c m B Ha Hg O C. split.
  - intros [r E] e F. apply (decode_failure tb l h st s go c m e B Ha Hg O C) in F. congruence.
  - intros N. destruct (fst (decode_msg c m st)) as [r|e] eqn:E; [eauto|].
    apply (decode_failure tb l h st s go c m e B Ha Hg O C) in E. destruct (N e E).
Qed.
Print Assumptions C78_success.
(** ... and a report whose telegram is complete and for nobody here is never a
    failure: nothing a stranger sends to another device raises anything. *)
Theorem C78_strangers : forall st s go c m k t,
  received st s go c m k t -> ~ In (t_dst t) (vals (at_addrs (as_table s))) ->
  t_src t <> a_val (at_ia (as_table s)) -> t_dst t <> a_val (at_ia (as_table s)) ->
  exists r, fst (decode_msg c m st) = Ok r.
Proof.
  intros st s go c m k t R L S D. pose proof R as (Ha & Hg & O & C & X).
  destruct (group_addressed t) eqn:G.
  - destruct (decode_telegram c m st s go k t Ha Hg O C X) as [_ ->]. cbn [fst]. unfold telegram_outcome. rewrite G.
    destruct (t_dst t =? 0); [eauto|]. destruct (plain t); [|eauto].
    unfold group_outcome. destruct (listed s (t_dst t)) eqn:Q; [apply listed_In in Q; contradiction|]. cbn. eauto.
  - rewrite (individual_decode st s go c m k t R G). unfold individual_accepts.
    destruct (plain t); cbn [andb]; [|eauto].
    destruct k; [assert (t_src t =? a_val (at_ia (as_table s)) = false) as -> by lia|assert (t_dst t =? a_val (at_ia (as_table s)) = false) as -> by lia];
      cbn [andb]; eauto.
Qed.
Print Assumptions C78_strangers.

(** One report or datagram for every cause, on the tables of C24_example. *)
Definition ex_property : list Z :=
  [0x2E; 0x00; 0xBC; 0x60; 0x11; 0x02; 0x11; 0x01; 0x03; 0x03; 0xD5; 0x0B; 0x01].
Example C78_usb_example :
  let f m := failure ex_table [] ex_calls (ex_st Usb_hid) ex_assoc ex_go m in
  f [] IndexError /\ f [1] IndexError /\ f [1; 0x13] IndexError /\ f [1; 0x13; 0] IndexError /\
  f [1; 0x13; 1; 0; 8; 0; 4] IndexError /\
  f ([1; 0x13; 3; 0; 8; 0; 4]) IndexError /\
  f ([1; 0x13; 9; 0; 8; 0; 4; 1; 3; 0; 0; 0x29; 0]) IndexError /\
  f (firstn 20 (usb_report ex_frame)) IndexError /\
  f ([1; 0x13; 12; 0; 8; 0; 4; 0x0F; 4; 0; 0; 5]) IndexError /\
  (forall e, ~ f ([1; 0x13; 12; 0; 8; 0; 4; 0x0F; 4; 0; 0; 6]) e) /\
  (forall e, ~ f [2] e) /\ (forall e, ~ f [1; 0x14] e) /\
  (forall e, ~ f (ex_usb ex_frame) e).
Proof.
  cbv zeta.
  assert (F : forall m e, octets m -> fst (decode_msg CUsbHid m (ex_st Usb_hid)) = Err e ->
     failure ex_table [] ex_calls (ex_st Usb_hid) ex_assoc ex_go m e).
  { intros m e O E. apply (decode_failure ex_table [] ex_calls (ex_st Usb_hid) ex_assoc ex_go CUsbHid m e ex_assoc_built eq_refl eq_refl O (or_introl eq_refl)).
    exact E. }
  assert (G : forall m r, octets m -> fst (decode_msg CUsbHid m (ex_st Usb_hid)) = Ok r ->
     forall e, ~ failure ex_table [] ex_calls (ex_st Usb_hid) ex_assoc ex_go m e).
  { intros m r O E e N. apply (decode_failure ex_table [] ex_calls (ex_st Usb_hid) ex_assoc ex_go CUsbHid m e ex_assoc_built eq_refl eq_refl O (or_introl eq_refl)) in N.
    congruence. }
  repeat match goal with |- _ /\ _ => split end;
    first [apply F; [vm_compute; octets_tac|vm_compute; reflexivity]
          |eapply G; [vm_compute; octets_tac|vm_compute; reflexivity]].
Qed.
Example C78_netip_example :
  let f m := failure ex_table [] ex_calls (ex_st Knxnet_ip) ex_assoc ex_go m in
  f [6; 16; 4] IndexError /\
  f [6; 16; 2; 2; 0; 14; 8; 1; 192; 168; 1; 2] IndexError /\
  f [6; 16; 2; 6; 0; 8; 7] IndexError /\
  f [6; 16; 2; 6; 0; 8; 7; 0x24] TypeError /\
  f [6; 16; 2; 6; 0; 8; 7; 0x24; 8; 1; 192; 168; 1; 2] TypeError /\
  f [6; 16; 2; 6; 0; 8; 7; 0x25; 8; 1; 192; 168; 1; 2; 14; 87] ValueError /\
  f [6; 16; 2; 6; 0; 8; 7; 0; 8; 1; 192; 168; 1; 2; 14; 87; 4; 4; 17] IndexError /\
  (forall e, ~ f [6; 16; 2; 6; 0; 8; 7; 0; 8; 1; 192; 168; 1; 2; 14; 87; 4; 4; 17; 1] e) /\
  (forall e, ~ f [6; 16; 2; 6; 0; 8; 7; 0x24; 8; 1; 192; 168; 1; 2; 14; 87] e) /\
  f [6; 16; 2; 8; 0; 8; 7] IndexError /\ f [6; 16; 2; 8; 0; 8; 7; 0x22] ValueError /\
  f [6; 16; 2; 10; 0; 8; 7] IndexError /\ (forall e, ~ f [6; 16; 2; 10; 0; 8; 7; 0x99] e) /\
  f [6; 16; 4; 0x20; 0; 14; 4; 7; 9] IndexError /\
  f [6; 16; 4; 0x21; 0; 14; 4; 7; 9] IndexError /\ f [6; 16; 4; 0x21; 0; 14; 4; 7; 9; 4] ValueError /\
  (* a tunnelling request that is due, and the same one a second time *)
  f (firstn 20 (tunnelling_request 7 9 ex_frame)) IndexError /\
  (forall e, ~ f (firstn 20 (tunnelling_request 7 8 ex_frame)) e) /\
  (* a property confirmation with two octets of data instead of four *)
  f (tunnelling_request 7 9 (firstn 6 ex_property ++ [a_val (at_ia (as_table ex_assoc)) / 256; a_val (at_ia (as_table ex_assoc)) mod 256] ++ skipn 8 ex_property)) IndexError /\
  (* an operation code without a name *)
  f (tunnelling_request 7 9 [0x29; 0x00; 0xBC; 0xE0; 0x11; 0x02; 0x09; 0x00; 0x05; 0x00; 0x80; 0x09; 0x00; 0x00; 0x81]) ValueError /\
  (forall e, ~ f (tunnelling_request 7 9 ex_frame) e) /\
  (* other services and other headers *)
  (forall e, ~ f [6; 16; 5; 0x30] e) /\ (forall e, ~ f [6; 32; 2; 2] e).
Proof.
  cbv zeta.
  assert (F : forall m e, octets m -> fst (decode_msg CNetIP m (ex_st Knxnet_ip)) = Err e ->
     failure ex_table [] ex_calls (ex_st Knxnet_ip) ex_assoc ex_go m e).
  { intros m e O E. apply (decode_failure ex_table [] ex_calls (ex_st Knxnet_ip) ex_assoc ex_go CNetIP m e ex_assoc_built eq_refl eq_refl O (or_intror eq_refl)).
    exact E. }
  assert (G : forall m r, octets m -> fst (decode_msg CNetIP m (ex_st Knxnet_ip)) = Ok r ->
     forall e, ~ failure ex_table [] ex_calls (ex_st Knxnet_ip) ex_assoc ex_go m e).
  { intros m r O E e N. apply (decode_failure ex_table [] ex_calls (ex_st Knxnet_ip) ex_assoc ex_go CNetIP m e ex_assoc_built eq_refl eq_refl O (or_intror eq_refl)) in N.
    congruence. }
  repeat match goal with |- _ /\ _ => split end;
    first [apply F; [vm_compute; octets_tac|vm_compute; reflexivity]
          |eapply G; [vm_compute; octets_tac|vm_compute; reflexivity]].
Qed.
(** The same shown from the rules of the specification alone. *)
Example C78_spec_example :
  cut_report ex_assoc [1; 0x13; 9; 0; 8; 0; 4; 1; 3; 0; 0; 0x29; 0] /\
  cut_feature [4; 0; 0; 5] /\
  failure ex_table [] ex_calls (ex_st Knxnet_ip) ex_assoc ex_go [6; 16; 2; 6; 0; 8; 7; 0x24] TypeError /\
  cut_datagram (ex_st Knxnet_ip) ex_assoc [6; 16; 2; 8; 0; 8; 7].
Proof.
  split; [|split; [|split]].
  - apply cut_inside; [reflexivity|]. apply cut_content. change (cut_body ex_assoc [1; 3; 0; 0; 0x29]).
    apply cut_frame. apply cut_code. reflexivity.
  - apply cut_value; right; reflexivity.
  - eapply Fails_endpoint; [reflexivity|reflexivity|split; [discriminate|reflexivity]].
  - eapply cut_body_ip; reflexivity.
Qed.
(** A write to the address of C24_unassociated_example. *)
Example C78_unassociated_example :
  let frame := [0x29; 0x00; 0xBC; 0xE0; 0x11; 0x02; 0x03; 0x00; 0x01; 0x00; 0x81] in
  exists s, built ex_table [] [] s /\
    failure ex_table [] [] (state_new Usb_hid (Some s) (Some ex_go)) s ex_go (ex_usb frame) KeyError.
Proof.
  cbv zeta. destruct C24_unassociated_example as (s & B & L & V). exists s. split; [exact B|].
  apply Fails_unassociated with (k := Ind) (t := mktg 0xBC 0xE0 0x1102 0x0300 1 0 0x81 []) (svc := Write);
    [reflexivity|repeat split; discriminate || reflexivity|exact L|reflexivity|exact V].
Qed.
