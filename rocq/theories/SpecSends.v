(** Specification vocabulary for C85: what a tunnelling client sends for each
    event, without reference to the functions of the client. *)
From Coq Require Import ZArith List Bool.
From Verif Require Import Py State Client SpecMsg SpecWire SpecDecode SpecClient.
Import ListNotations.
Open Scope Z_scope.

(** The answer to datagram [d] of a client at [ip]:[port] with the tables of [s],
    when [ch] is its channel id and [k] requests have been taken since the last
    connect response. *)
Definition answer (s : state) (ip : list Z) (port ch k : Z) (d : list Z) : list (list Z) :=
  if connect_answer d then
    match channel_after d (Some ch) with Some ch' => [connectionstate_request ch' ip port] | None => [] end
  else
    match tunnelled d with
    | Some (n, cemi) =>
        if n =? k mod 256 then
          match meaning s cemi with Ok _ => [tunnelling_ack ch n 0] | Err _ => [] end
        else if n + 1 =? k mod 256 then [tunnelling_ack ch (n + 1) 0]
        else []
    | None => []
    end.

(** All datagrams sent in a history. *)
Definition sent (c : client) (es : list event) : list (list Z) := flat_map o_sent (observations c es).
(** Those of one service. *)
Definition of_service (service : Z) (d : list Z) : bool :=
  match ip_service d with Some (x, _) => x =? service | None => false end.
Definition of_services (services : list Z) (d : list Z) : bool := existsb (fun x => of_service x d) services.
Definition how_many {A} (f : A -> bool) (l : list A) : nat := length (filter f l).

Definition is_made (e : event) : bool := match e with EvMade => true | _ => false end.
Definition is_answer (e : event) : bool := match e with EvData d => connect_answer d | _ => false end.
(** The services a client listens to: search, connect, connection state and
    disconnect responses, tunnelling requests and acknowledgements. *)
Definition heard : list Z := [0x0202; 0x0206; 0x0208; 0x020A; 0x0420; 0x0421].
(** A disconnect request for [channel] as a gateway at [ip]:[port] sends it, and
    a disconnect response. *)
Definition disconnect_request (channel : Z) (ip : list Z) (port : Z) : list Z :=
  [0x06; 0x10; 0x02; 0x09; 0x00; 0x10; channel; 0x00] ++ endpoint ip port.
Definition disconnect_response (channel status : Z) : list Z :=
  [0x06; 0x10; 0x02; 0x0A; 0x00; 0x08; channel; status].
