(** Specification vocabulary for C78: received bytes that end too early, written
    from the frame formats, one rule for each place at which they can end. *)
From Coq Require Import ZArith List Bool.
From Verif Require Import Py Address Dpt Tables State Decode SpecTables SpecWire SpecDecode Props_Decode.
Import ListNotations.
Open Scope Z_scope.

(** A cEMI frame: message code and length of the additional information; for
    indications and confirmations of data nine octets behind that information;
    four octets of data in an accepted property telegram. *)
Inductive cut_cemi (s : assoc_table) : list Z -> Prop :=
| cut_code cemi : zlen cemi < 2 -> cut_cemi s cemi
| cut_telegram code info r : code = data_ind \/ code = data_con -> zlen (zdrop info r) < 9 ->
    cut_cemi s (code :: info :: r)
| cut_property cemi k t svc : cemi_telegram cemi = Some (k, t) -> accepted_individual s k t ->
    property_service t = Some svc -> zlen (t_data t) < 4 -> cut_cemi s cemi.
(** A report about a device feature: service, manufacturer code, feature, value. *)
Inductive cut_feature : list Z -> Prop :=
| cut_service : cut_feature []
| cut_maker service r : service = 2 \/ service = 4 -> zlen r < 2 -> cut_feature (service :: r)
| cut_number service : service = 2 \/ service = 4 -> cut_feature [service; 0; 0]
| cut_value service feature : service = 2 \/ service = 4 -> feature = 3 \/ feature = 5 ->
    cut_feature [service; 0; 0; feature].
(** The body of a report: protocol 1, EMI 3, manufacturer code 0 and a cEMI
    frame, or protocol 15 and a feature. *)
Inductive cut_body (s : assoc_table) : list Z -> Prop :=
| cut_protocol : cut_body s []
| cut_emi : cut_body s [1]
| cut_manufacturer r : zlen r < 2 -> cut_body s (1 :: 3 :: r)
| cut_frame cemi : cut_cemi s cemi -> cut_body s (1 :: 3 :: 0 :: 0 :: cemi)
| cut_features r : cut_feature r -> cut_body s (15 :: r).
(** A packet: version 0, header length 8, body length, and as much of the body as
    that length allows. *)
Inductive cut_packet (s : assoc_table) : list Z -> Prop :=
| cut_version : cut_packet s []
| cut_header : cut_packet s [0]
| cut_length r : zlen r < 2 -> cut_packet s (0 :: 8 :: r)
| cut_content hi lo r : cut_body s (ztake (256 * hi + lo + 4) r) -> cut_packet s (0 :: 8 :: hi :: lo :: r).
(** A USB report: report 1, packet type 3, packet length, and as much of the
    packet as that length allows. *)
Inductive cut_report (s : assoc_table) : list Z -> Prop :=
| cut_id : cut_report s []
| cut_info : cut_report s [1]
| cut_plen info : info mod 16 = 3 -> cut_report s [1; info]
| cut_inside info plen r : info mod 16 = 3 -> cut_packet s (ztake plen r) -> cut_report s (1 :: info :: plen :: r).

(** How many octets a KNXnet/IP service needs behind its service number. *)
Definition needs (service : Z) : Z :=
  if service =? 0x0202 then 14 else if service =? 0x0206 then 4 else if service =? 0x0208 then 4
  else if service =? 0x020A then 4 else if service =? 0x0420 then 6 else if service =? 0x0421 then 6 else 0.
(** A datagram: header, version and service number; what the service needs; the
    data block behind the endpoint of a successful connect response; the cEMI
    frame of the tunnelling request that is due. *)
Inductive cut_datagram (st : state) (s : assoc_table) : list Z -> Prop :=
| cut_ip m : zlen m < 4 -> cut_datagram st s m
| cut_body_ip m service r : ip_service m = Some (service, r) -> zlen r < needs service -> cut_datagram st s m
| cut_connect m l1 l2 channel r : ip_service m = Some (0x0206, l1 :: l2 :: channel :: 0 :: r) ->
    8 <= zlen r < 12 -> cut_datagram st s m
| cut_tunnelled m cemi : tunnelled m = Some (st_remote st, cemi) -> cut_cemi s cemi -> cut_datagram st s m.

(** Why decoding fails, and with which exception. *)
Inductive failure tb l h (st : state) (s : assoc_table) (go : gobj_table) (m : list Z) : exn -> Prop :=
| Fails_cut_usb : st_medium st = Usb_hid -> cut_report s m -> failure tb l h st s go m IndexError
| Fails_cut_ip : st_medium st = Knxnet_ip -> cut_datagram st s m -> failure tb l h st s go m IndexError
| Fails_unassociated k t svc : on_bus st m = Some (k, t) -> group_telegram t ->
    In (t_dst t) (vals (at_addrs (as_table s))) -> group_service t = Some svc ->
    (forall v, balance tb l h v (t_dst t) = 0) -> failure tb l h st s go m KeyError
| Fails_display k t svc p rest : on_bus st m = Some (k, t) -> group_telegram t ->
    In (t_dst t) (vals (at_addrs (as_table s))) -> group_service t = Some svc ->
    receivers tb l h (t_dst t) go = p :: rest -> undisplayable (snd p) (raw (snd p) t) = true ->
    failure tb l h st s go m ValueError
| Fails_status service r : st_medium st = Knxnet_ip -> ip_service m = Some (service, r) ->
    unknown_status m = true -> (service = 0x0206 -> 12 <= zlen r) -> failure tb l h st s go m ValueError
| Fails_endpoint r : st_medium st = Knxnet_ip -> ip_service m = Some (0x0206, r) -> 4 <= zlen r < 12 ->
    failure tb l h st s go m TypeError
| Fails_medium : st_medium st = Tp -> failure tb l h st s go m PyException.
