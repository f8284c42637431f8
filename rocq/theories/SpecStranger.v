(** Specification vocabulary for C111: datagrams of somebody who knows neither the
    channel nor the counters of a tunnel. *)
From Coq Require Import ZArith List Bool.
From Verif Require Import Py Msg State Decode Client SpecMsg SpecWire SpecDecode SpecClient.
Import ListNotations.
Open Scope Z_scope.

(** The counters of requests and of messages and the channel after a history. *)
Definition expected (c : client) (es : list event) : Z := taken (st_remote (c_state c)) (trace c es) mod 256.
Definition next_local (c : client) (es : list event) : Z := fold_left local_step es (st_local (c_state c)).
Definition channel_now (c : client) (es : list event) : option Z := fold_left channel_step es (st_channel (c_state c)).

(** A datagram that can change something: a connect response that is accepted as
    such, a response that sets the channel, a request with the expected counter,
    an acknowledgement with the current one. *)
Definition matters (c : client) (es : list event) (d : list Z) : Prop :=
  connect_answer d = true \/ channel_after d (channel_now c es) <> channel_now c es \/
  local_after d (next_local c es) <> next_local c es \/
  exists cemi, tunnelled d = Some (expected c es, cemi).

(** The same telegram with the counters 0, 1, ..., n-1; acknowledgements with
    these counters. *)
Definition guesses (channel : Z) (cemi : list Z) (n : Z) : list event :=
  map (fun i => EvData (tunnelling_request channel i cemi)) (upto n).
Definition false_acks (channel : Z) (n : Z) : list event :=
  map (fun i => EvData (tunnelling_ack channel i 0)) (upto n).
(** No connect and no disconnect response. *)
Definition keeps_channel (e : event) : Prop :=
  match e with
  | EvData d => match ip_service d with Some (service, _) => service <> 0x0206 /\ service <> 0x020A | None => True end
  | _ => True
  end.
