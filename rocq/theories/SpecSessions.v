(** Specification vocabulary for C115: a client that connects again and again. *)
From Coq Require Import ZArith List Bool.
From Verif Require Import Py Base Msg State Client SpecMsg SpecWire SpecDecode SpecClient SpecSystem SpecLossy.
Import ListNotations.
Open Scope Z_scope.

(** A session: the connect response of the gateway, the channel it gives, the
    telegrams the gateway has for the client, and what happens until the
    connection is lost. *)
Record session := mkses {
  ss_answer : list Z;
  ss_channel : Z;
  ss_frame : Z -> list Z;
  ss_course : list happening
}.
(** The response accepts the client and gives it the channel. *)
Definition accepting (x : session) : Prop :=
  octets (ss_answer x) /\ connect_answer (ss_answer x) = true /\ channel_after (ss_answer x) None = Some (ss_channel x) /\
  0 <= ss_channel x < 256.
(** What client [c] and the gateway come to in a session. *)
Definition held (c : client) (x : session) : system :=
  sy_run (ss_frame x) (sy_start (after c [EvMade; EvData (ss_answer x)]) (ss_channel x)) (ss_course x).
(** Session after session: the connection is lost at the end of each; what is
    under way then is lost too, and the gateway begins anew. *)
Fixpoint life (c : client) (l : list session) : list system :=
  match l with
  | [] => []
  | x :: r => held c x :: life (after (sy_client (held c x)) [EvLost]) r
  end.
Definition counter_of (s : system) : Z := st_local (c_state (sy_client s)).

(** The messages that reach the bus in each of several sessions, from the fates
    and the messages of each and the client's counter at the beginning: the new
    gateway expects 0. *)
Fixpoint buses (counter : Z) (l : list (list fate * list (list Z))) : list (list (list Z)) :=
  match l with
  | [] => []
  | (fs, messages) :: r =>
      if (counter =? 0) || (counter =? 255)
      then arriving (counter =? 255) fs messages :: buses ((counter + count confirmed fs) mod 256) r
      else [] :: buses counter r
  end.
