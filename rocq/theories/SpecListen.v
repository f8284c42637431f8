(** Specification vocabulary for C83: what a listener without tables makes of the
    datagrams that reach the discovery port. *)
From Coq Require Import String ZArith List Bool.
From Verif Require Import Py Address Inet State Decode Client SpecWire SpecDecode SpecFail.
Import ListNotations.
Open Scope Z_scope.

(** A telegram that somebody would have to be looked up for: plain data (no
    connection, no acknowledgement) for a group other than 0/0/0 or for a device. *)
Definition concerns (t : telegram) : Prop :=
  plain t = true /\ (group_addressed t = true -> t_dst t <> 0).

(** A cEMI frame that raises although nobody is listening for it: cut short, or
    with a telegram to be looked up in tables that are not there. *)
Inductive unheard_cemi : list Z -> exn -> Prop :=
| Uh_code cemi : zlen cemi < 2 -> unheard_cemi cemi IndexError
| Uh_telegram code info r : code = data_ind \/ code = data_con -> zlen (zdrop info r) < 9 ->
    unheard_cemi (code :: info :: r) IndexError
| Uh_table cemi k t : cemi_telegram cemi = Some (k, t) -> concerns t -> unheard_cemi cemi AttributeError.

(** Every exception a datagram can raise in the listener.  Tunnelling requests
    matter only with counter 0, because nothing here ever acknowledges one. *)
Inductive listen_failure (d : list Z) : exn -> Prop :=
| Lf_header : zlen d < 4 -> listen_failure d IndexError
| Lf_short service r : ip_service d = Some (service, r) -> zlen r < needs service -> listen_failure d IndexError
| Lf_connect l1 l2 channel r : ip_service d = Some (0x0206, l1 :: l2 :: channel :: 0 :: r) ->
    8 <= zlen r < 12 -> listen_failure d IndexError
| Lf_status service r : ip_service d = Some (service, r) -> unknown_status d = true ->
    (service = 0x0206 -> 12 <= zlen r) -> listen_failure d ValueError
| Lf_endpoint r : ip_service d = Some (0x0206, r) -> 4 <= zlen r < 12 -> listen_failure d TypeError
| Lf_tunnelled cemi e : tunnelled d = Some (0, cemi) -> unheard_cemi cemi e -> listen_failure d e.

(** A search response: header, length, endpoint (2 + 4 + 2 octets), and of the
    device block two octets and the two that are taken for the address. *)
Definition search_response (d : list Z) (a : string) (port ia : Z) : Prop :=
  exists l1 l2 s t i1 i2 i3 i4 p1 p2 dl dt x1 x2 r,
    d = [0x06; 0x10; 0x02; 0x02; l1; l2; s; t; i1; i2; i3; i4; p1; p2; dl; dt; x1; x2] ++ r /\
    a = dotted [i1; i2; i3; i4] /\ port = 256 * p1 + p2 /\ ia = 256 * x1 + x2.

(** The messages of the KNXnet/IP layer; all others carry bus telegrams or come
    from a USB interface. *)
Definition of_ip (m : message) : bool :=
  match m with
  | MSearchRes _ _ _ | MConnectRes _ _ _ _ | MConnectionstateRes _ | MDisconnectRes _ _
  | MTunnelingReq _ _ | MTunnelingAck _ _ => true
  | _ => false
  end.
Definition reported (r : dres) : list message := match r with RList l => l | RNone => [] | RAck l => l end.

(** The listener after datagrams, whether they were understood or raised. *)
Definition heard (ds : list (list Z)) : state := fold_left (fun st d => snd (listen_received d st)) ds discovery_state.
