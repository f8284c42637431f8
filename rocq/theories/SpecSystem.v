(** A tunnelling client at work (C64-C67): the client of Client.v, a gateway as
    the KNXnet/IP tunnelling specification describes it, and a network between
    them that loses and repeats datagrams but keeps their order. *)
From Coq Require Import ZArith List Bool.
From Verif Require Import Py Msg State Decode Client SpecMsg SpecWire SpecDecode SpecClient.
Import ListNotations.
Open Scope Z_scope.

(** ** The gateway *)

(** Its channel, the number of telegrams the client has acknowledged, the number
    of requests taken from the client, and the frames put on the bus. *)
Record gateway := mkgw {
  gw_channel : Z;
  gw_sent : Z;
  gw_taken : Z;
  gw_bus : list (list Z)
}.
(** What it does with a datagram, and what it answers.  An acknowledgement of the
    request that is waiting for one completes it.  A request with the expected
    counter is put on the bus and acknowledged, one with the counter before is
    acknowledged, others are discarded. *)
Definition gw_receive (g : gateway) (d : list Z) : gateway * list (list Z) :=
  match ip_service d with
  | Some (service, _ :: _ :: _ :: ch :: n :: sta :: cemi) =>
      if negb (ch =? gw_channel g) then (g, [])
      else if service =? 0x0421 then
        (if (n =? gw_sent g mod 256) && (sta =? 0)
         then mkgw (gw_channel g) (gw_sent g + 1) (gw_taken g) (gw_bus g) else g, [])
      else if service =? 0x0420 then
        if n =? gw_taken g mod 256 then
          (mkgw (gw_channel g) (gw_sent g) (gw_taken g + 1) (gw_bus g ++ [cemi]),
           [tunnelling_ack (gw_channel g) n 0])
        else if n =? (gw_taken g - 1) mod 256 then (g, [tunnelling_ack (gw_channel g) n 0])
        else (g, [])
      else (g, [])
  | _ => (g, [])
  end.

(** ** The system *)

(** Datagrams on their way to the client ([sy_down]) and to the gateway
    ([sy_up]), oldest first, and what has happened to the client so far. *)
Record system := mksys {
  sy_gw : gateway;
  sy_client : client;
  sy_down : list (list Z);
  sy_up : list (list Z);
  sy_log : list (event * observation)
}.
(** The gateway transmits the telegram that is waiting, for the first time or
    again; the oldest datagram of a direction arrives; the client's writer takes
    a turn; the network loses or repeats any datagram under way. *)
Inductive happening :=
| Transmit | Arrive_down | Arrive_up | Turn
| Lose_down (n : nat) | Lose_up (n : nat) | Repeat_down (n : nat) | Repeat_up (n : nat).

Definition lose {A} (n : nat) (l : list A) : list A := firstn n l ++ skipn (S n) l.
Definition again {A} (n : nat) (l : list A) : list A := firstn n l ++ firstn 1 (skipn n l) ++ skipn n l.

(** The client meets an event; what it sends goes up. *)
Definition sy_client_event (s : system) (down : list (list Z)) (e : event) : system :=
  let '(c, o) := client_step (sy_client s) e in
  mksys (sy_gw s) c down (sy_up s ++ o_sent o) (sy_log s ++ [(e, o)]).
(** [frame i] is the telegram number [i] that the gateway has for the client. *)
Definition sy_step (frame : Z -> list Z) (s : system) (h : happening) : system :=
  let with_down d := mksys (sy_gw s) (sy_client s) d (sy_up s) (sy_log s) in
  let with_up u := mksys (sy_gw s) (sy_client s) (sy_down s) u (sy_log s) in
  match h with
  | Transmit =>
      with_down (sy_down s ++
        [tunnelling_request (gw_channel (sy_gw s)) (gw_sent (sy_gw s)) (frame (gw_sent (sy_gw s)))])
  | Arrive_down =>
      match sy_down s with
      | [] => s
      | d :: r => sy_client_event s r (EvData d)
      end
  | Arrive_up =>
      match sy_up s with
      | [] => s
      | d :: r =>
          let '(g, answer) := gw_receive (sy_gw s) d in
          mksys g (sy_client s) (sy_down s ++ answer) r (sy_log s)
      end
  | Turn => sy_client_event s (sy_down s) EvWriter
  | Lose_down n => with_down (lose n (sy_down s))
  | Lose_up n => with_up (lose n (sy_up s))
  | Repeat_down n => with_down (again n (sy_down s))
  | Repeat_up n => with_up (again n (sy_up s))
  end.
Definition sy_run (frame : Z -> list Z) (s : system) (hs : list happening) : system :=
  fold_left (sy_step frame) hs s.

(** The client of [c0] after history [es0] has a transport and channel [ch], and
    expects request 0. *)
Definition linked (ip : list Z) (c0 : client) (msgs : list message) (es0 : list event) (ch : Z) : Prop :=
  well_made ip c0 msgs /\ orderly false es0 /\
  c_transport (after c0 es0) = true /\ st_channel (c_state (after c0 es0)) = Some ch /\ 0 <= ch < 256 /\
  st_remote (c_state (after c0 es0)) = 0.
(** The gateway has just accepted it. *)
Definition sy_start (c : client) (ch : Z) : system := mksys (mkgw ch 0 0 []) c [] [] [].

(** Messages the client has reported from the bus; requests it has taken; frames
    its writer has sent. *)
Definition reports (s : system) : list message := flat_map (fun x => deliveries (snd x)) (sy_log s).
Definition client_taken (s : system) : Z := taken 0 (sy_log s).
Definition written (s : system) : list (list Z) :=
  flat_map (fun d => match tunnelled d with Some (_, cemi) => [cemi] | None => [] end) (writer_sent (sy_log s)).
(** The meanings of the telegrams number 0 to n-1. *)
Definition meanings (s : state) (frame : Z -> list Z) (n : Z) : list message :=
  flat_map (fun i => match meaning s (frame i) with Ok m => m | Err _ => [] end) (upto n).
(** Telegrams are octets. *)
Definition sendable (frame : Z -> list Z) : Prop := forall i, octets (frame i).
(** All telegrams mean something to the client. *)
Definition meaningful (s : state) (frame : Z -> list Z) : Prop :=
  forall i, octets (frame i) /\ exists m, meaning s (frame i) = Ok m.

(** An acknowledgement with counter [n] among datagrams; a request with it. *)
Definition acks_with (n : Z) (l : list (list Z)) : Prop :=
  exists d x1 x2 x3 x4 r, In d l /\ ip_service d = Some (0x0421, x1 :: x2 :: x3 :: x4 :: n :: r).
Definition requests_with (n : Z) (l : list (list Z)) : Prop :=
  exists d cemi, In d l /\ tunnelled d = Some (n, cemi).

(** [a] is [b] with some elements left out. *)
Inductive part_of {A} : list A -> list A -> Prop :=
| part_nil l : part_of [] l
| part_skip x a b : part_of a b -> part_of a (x :: b)
| part_keep x a b : part_of a b -> part_of (x :: a) (x :: b).

(** The writer takes a turn only when everything written has been acknowledged:
    its counter, which began at [first], has advanced by the number of requests
    written. *)
Fixpoint paced (frame : Z -> list Z) (first : Z) (s : system) (hs : list happening) : Prop :=
  match hs with
  | [] => True
  | h :: r =>
      (h = Turn -> st_local (c_state (sy_client s)) = (first + zlen (written s)) mod 256) /\
      paced frame first (sy_step frame s h) r
  end.
