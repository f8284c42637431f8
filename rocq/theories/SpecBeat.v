(** The system of SpecTime.v with a gateway that expects to hear from its client
    (C94).  Times are in milliseconds. *)
From Coq Require Import ZArith List Bool.
From Verif Require Import Py Client SpecMsg SpecClient SpecSystem SpecTime SpecSends.
Import ListNotations.
Open Scope Z_scope.

(** KNXnet/IP, 3/8/2, 5.4: a client sends a connection state request every minute;
    the gateway closes the channel when it has not had one for two. *)
Definition silence_limit : Z := 120000.

(** The system, when the gateway has last heard the heartbeat, and whether the
    channel is open. *)
Record watched := mkwatched { wa_timed : timed; wa_beat : Z; wa_open : bool }.
(** Closing: a disconnect request goes to the client. *)
Definition closing (gip : list Z) (gport t : Z) (x : timed) : timed :=
  let s := ti_sys x in
  mktimed (mksys (sy_gw s) (sy_client s) (sy_down s ++ [disconnect_request (gw_channel (sy_gw s)) gip gport]) (sy_up s) (sy_log s))
    (ti_now x) (ti_wake x) (ti_up x) (ti_down x ++ [t]).
(** A gateway that has closed the channel transmits nothing and discards what
    arrives. *)
Definition closed_step (frame : Z -> list Z) (x : timed) (e : Z * happening) : timed :=
  let s := ti_sys x in
  match snd e with
  | Transmit => mktimed s (fst e) (ti_wake x) (ti_up x) (ti_down x)
  | Arrive_up => mktimed (mksys (sy_gw s) (sy_client s) (sy_down s) (tl (sy_up s)) (sy_log s)) (fst e) (ti_wake x) (tl (ti_up x)) (ti_down x)
  | _ => ti_step frame x e
  end.
Definition heartbeat (x : timed) (h : happening) : bool :=
  match h, sy_up (ti_sys x) with
  | Arrive_up, d :: _ => of_service 0x0207 d
  | _, _ => false
  end.
Definition wa_step (frame : Z -> list Z) (gip : list Z) (gport : Z) (x : watched) (e : Z * happening) : watched :=
  if wa_open x then
    if fst e <=? wa_beat x + silence_limit
    then mkwatched (ti_step frame (wa_timed x) e) (if heartbeat (wa_timed x) (snd e) then fst e else wa_beat x) true
    else mkwatched (closed_step frame (closing gip gport (fst e) (wa_timed x)) e) (wa_beat x) false
  else mkwatched (closed_step frame (wa_timed x) e) (wa_beat x) false.
Definition wa_run (frame : Z -> list Z) (gip : list Z) (gport : Z) (x : watched) (es : list (Z * happening)) : watched :=
  fold_left (wa_step frame gip gport) es x.
(** No datagram is lost or under way for longer than [d], and the writer sleeps
    as in SpecTime.v. *)
Fixpoint wa_timely (d : Z) (frame : Z -> list Z) (gip : list Z) (gport : Z) (x : watched) (es : list (Z * happening)) : Prop :=
  match es with
  | [] => True
  | e :: r => can_happen d (wa_timed x) e /\ wa_timely d frame gip gport (wa_step frame gip gport x e) r
  end.
(** The client has been accepted at [t0]; the connection state request it then
    sends arrives at [b]. *)
Definition wa_start (c : client) (ch t0 b : Z) : watched := mkwatched (ti_start c ch t0) b true.
Definition wa_sys (x : watched) : system := ti_sys (wa_timed x).
