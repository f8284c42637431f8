(** C101: what decoding returns, for all octets. *)
From Coq Require Import String ZArith NArith List Bool Lia.
From Verif Require Import Py Base Msg Address Dpt Tables LData Inet State Encode Decode.
From Verif Require Import SpecMsg SpecTables SpecWire SpecDecode.
From Verif Require Import MsgProofs TablesProofs AssocProofs EncodeProofs DecodeProofs SimProofs IpProofs Props_Tables Props_Encode Props_Decode.
From Verif Require Import SpecFail FailProofs SpecHeard HeardProofs.
Import ListNotations.
Open Scope Z_scope.

(** Every sequence of octets either fails for one of the reasons of C78, with
    that exception, or gives the result of the table. *)
Theorem C101_result : forall tb l h st s go c m,
  built tb l h s -> st_assoc st = Some s -> st_gobj st = Some go -> octets m -> proper_class st c ->
  match fst (decode_msg c m st) with
  | Ok r => r = returned tb l h s go st m /\ forall e, ~ failure tb l h st s go m e
  | Err e => failure tb l h st s go m e
  end.
Proof.
  intros tb l h st s go c m B Ha Hg O C. destruct (fst (decode_msg c m st)) as [r|e] eqn:E.
  - split; [exact (returned_ok tb l h st s go c m r B Ha Hg O C E)|]. intros e F.
    apply (decode_failure tb l h st s go c m e B Ha Hg O C) in F. congruence.
  - apply (decode_failure tb l h st s go c m e B Ha Hg O C). exact E.
Qed.
Print Assumptions C101_result.

(** So the result is decided by the tables, the medium, the two counters and the
    octets: exactly when nothing fails it is the one of the table. *)
Theorem C101_exactly : forall tb l h st s go c m r,
  built tb l h s -> st_assoc st = Some s -> st_gobj st = Some go -> octets m -> proper_class st c ->
  (fst (decode_msg c m st) = Ok r <->
   r = returned tb l h s go st m /\ forall e, ~ failure tb l h st s go m e).
Proof.
  intros tb l h st s go c m r B Ha Hg O C. pose proof (C101_result tb l h st s go c m B Ha Hg O C) as H.
  destruct (fst (decode_msg c m st)) as [r'|e].
  - destruct H as [-> N]. split; [intros [= <-]; auto|]. intros [-> _]. reflexivity.
  - split; [discriminate|]. intros [_ N]. destruct (N e H).
Qed.
Print Assumptions C101_exactly.

(** Octets received one after the other, failing or not: each result is that of
    the table, with the local counter and the channel that those before it left;
    nothing else of the past matters. *)
Theorem C101_run : forall tb l h st s go c before m after,
  built tb l h s -> st_assoc st = Some s -> st_gobj st = Some go ->
  Forall octets (before ++ m :: after) -> proper_class st c ->
  match nth_error (fst (hear c st (before ++ m :: after))) (length before) with
  | Some (Ok r) => r = returned tb l h s go (moved st before) m /\ forall e, ~ failure tb l h (moved st before) s go m e
  | Some (Err e) => failure tb l h (moved st before) s go m e
  | None => False
  end.
Proof.
  intros tb l h st s go c before m after B Ha Hg F C. apply Forall_app in F. destruct F as [F1 F2].
  inversion F2 as [|? ? Om _]. subst.
  rewrite hear_app, nth_error_app2 by (rewrite hear_length; lia). rewrite hear_length, Nat.sub_diag, hear_cons. cbn [nth_error].
  assert (A0 : agree (moved st []) st) by (rewrite moved_nil; repeat split).
  pose proof (hear_state c before st st A0 F1 C) as A.
  rewrite <- (proj1 (C30_decode c m _ _ A)).
  assert (M : st_medium (moved st before) = st_medium st /\ st_assoc (moved st before) = st_assoc st /\ st_gobj (moved st before) = st_gobj st).
  { unfold moved. destruct (st_medium st) eqn:Hm; cbn; auto. }
  destruct M as (M1 & M2 & M3).
  apply C101_result; try congruence. unfold proper_class in *. rewrite M1. exact C.
Qed.
Print Assumptions C101_run.

(** ** Examples *)

(** A connect response, a connect response with an unknown status, two
    acknowledgements, the telegram that is due and one that was due before. *)
Definition hd_run : list (list Z) :=
  [[0x06; 0x10; 0x02; 0x06; 0x00; 0x14; 0x15; 0x00; 0x08; 0x01; 192; 168; 0; 10; 0x0E; 0x57; 0x04; 0x04; 0x11; 0xFF];
   [0x06; 0x10; 0x02; 0x06; 0x00; 0x14; 0x15; 0x01; 0x08; 0x01; 192; 168; 0; 10; 0x0E; 0x57; 0x04; 0x04; 0x11; 0xFF];
   [0x06; 0x10; 0x04; 0x21; 0x00; 0x0A; 0x04; 0x15; 0x00; 0x00];
   [0x06; 0x10; 0x04; 0x21; 0x00; 0x0A; 0x04; 0x15; 0x00; 0x00];
   tunnelling_request 0x15 9 ex_frame; tunnelling_request 0x15 8 ex_frame].
Example C101_example :
  built ex_table [] ex_calls ex_assoc /\ Forall octets hd_run /\ proper_class (ex_st Knxnet_ip) CNetIP /\
  fst (hear CNetIP (ex_st Knxnet_ip) hd_run) =
    [Ok (RList [MConnectRes "192.168.0.10" 3671 (Some 0x11FF) 0]); Err ValueError;
     Ok (RAck [MTunnelingAck 1 0]); Ok (RAck [MTunnelingAck 1 0]);
     Ok (RList (MTunnelingReq 9 0 :: group_messages Ind Write ex_telegram
                  [(mkasap 3 None, InfoClimaReport); (mkasap 1 None, Switch)]));
     Ok (RList [MTunnelingReq 8 0])] /\
  st_channel (moved (ex_st Knxnet_ip) (firstn 1 hd_run)) = Some 0x15 /\
  st_local (moved (ex_st Knxnet_ip) (firstn 3 hd_run)) = 1 /\
  returned ex_table [] ex_calls ex_assoc ex_go (moved (ex_st Knxnet_ip) (firstn 3 hd_run)) (nth 3 hd_run []) = RAck [MTunnelingAck 1 0].
Proof.
  split; [exact ex_assoc_built|]. split; [vm_compute; repeat (apply Forall_cons; [octets_tac|]); apply Forall_nil|].
  split; [right; reflexivity|]. split; [vm_compute; reflexivity|]. repeat split; vm_compute; reflexivity.
Qed.
(** On USB: a feature, a report of another kind, a numbered group telegram, and
    the telegram of C24. *)
Example C101_usb_example :
  let ret := returned ex_table [] ex_calls ex_assoc ex_go (ex_st Usb_hid) in
  ret ([0x01; 0x13; 0x0A; 0x00; 0x08; 0x00; 0x02; 0x0F; 0x04; 0x00; 0x00; 0x05; 0x03] ++ repeat 0 51) = RList [MEMIType "cEMI"] /\
  ret (0x02 :: repeat 0 63) = RList [] /\
  ret (ex_usb [0x29; 0x00; 0xBC; 0xE0; 0x11; 0x02; 0x09; 0x00; 0x01; 0x44; 0x81]) = RNone /\
  ret (ex_usb ex_frame) = RList (group_messages Ind Write ex_telegram [(mkasap 3 None, InfoClimaReport); (mkasap 1 None, Switch)]) /\
  (forall e, ~ failure ex_table [] ex_calls (ex_st Usb_hid) ex_assoc ex_go (ex_usb ex_frame) e).
Proof.
  cbv zeta. split; [vm_compute; reflexivity|]. split; [vm_compute; reflexivity|]. split; [vm_compute; reflexivity|].
  split; [vm_compute; reflexivity|].
  refine (proj2 (proj1 (C101_exactly ex_table [] ex_calls (ex_st Usb_hid) ex_assoc ex_go CUsbHid (ex_usb ex_frame) _ ex_assoc_built eq_refl eq_refl _ (or_introl eq_refl)) _)).
  - vm_compute. octets_tac.
  - vm_compute. reflexivity.
Qed.
