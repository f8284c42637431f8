(** Model of knx_stack/client/.  asyncio is reduced to events: each callback,
    and each stretch of a coroutine between two suspension points, is one
    atomic step.  Timers fire at any time (the sleeps are not timed). *)
From Coq Require Import String Ascii ZArith List Bool.
From Verif Require Import Py Msg Address Dpt Tables LData Inet State Encode Decode.
Import ListNotations.
Open Scope Z_scope.

(** One lower-case hexadecimal digit and [bytes.hex()]. data.hex() in
    client/knxnet_ip.py 115. *)
Definition hexdigit_lower (n : Z) : ascii :=
  ascii_of_N (Z.to_N (if n <? 10 then 48 + n else 87 + n)).
Fixpoint bytes_hex (b : list Z) : string :=
  match b with
  | [] => EmptyString
  | o :: r => String (hexdigit_lower (o / 16)) (String (hexdigit_lower (o mod 16)) (bytes_hex r))
  end.
(** [bytearray.fromhex(text)], on texts without white space and of even length
    (the only ones it is applied to): pairs of digits. client/knxnet_ip.py 110. *)
Definition fromhex (s : string) : res (list Z) := stringtooctects s.

(** ** client/knxnet_ip.py Tunneling *)

(** The part of the writer coroutine (137-145) still to be executed. *)
Inductive writer :=
| WWait (msgs : list message)     (* in the loop of 138-139 *)
| WSend (msgs : list message)     (* in the loop of 140-144 *)
| WStopped                        (* 145 executed *)
| WDead (e : exn).                (* ended by an exception *)

(** client/knxnet_ip.py 77-86.  [c_out] collects the datagrams handed to the
    transport during one step; the remote endpoint is constant. *)
Record client := mkclient {
  c_laddr : string;
  c_lport : Z;
  c_state : state;
  c_transport : bool;
  c_connected : bool;
  c_writer : writer;
  c_out : list (list Z)
}.

Definition c_with_state (s : state) (c : client) : client :=
  mkclient (c_laddr c) (c_lport c) s (c_transport c) (c_connected c) (c_writer c) (c_out c).
Definition c_with_transport (b : bool) (c : client) : client :=
  mkclient (c_laddr c) (c_lport c) (c_state c) b (c_connected c) (c_writer c) (c_out c).
Definition c_with_connected (b : bool) (c : client) : client :=
  mkclient (c_laddr c) (c_lport c) (c_state c) (c_transport c) b (c_writer c) (c_out c).
Definition c_with_writer (w : writer) (c : client) : client :=
  mkclient (c_laddr c) (c_lport c) (c_state c) (c_transport c) (c_connected c) w (c_out c).
Definition c_with_out (o : list (list Z)) (c : client) : client :=
  mkclient (c_laddr c) (c_lport c) (c_state c) (c_transport c) (c_connected c) (c_writer c) o.

(** 68-86 __init__. *)
Definition client_new (laddr : string) (lport : Z) (s : state) (msgs : list message) : client :=
  mkclient laddr lport s false false (WWait msgs) [].

(** Run an operation of knx_stack on the client's State. As in
    client/knxnet_ip.py 98, 114, 124, 134 and 142. *)
Definition on_state {A} (m : M state A) : M client A :=
  fun c => let '(r, s) := m (c_state c) in (r, c_with_state s c).

(** 108-111 send; AttributeError when the transport is None. *)
Definition c_send (m : msg) : M client unit :=
  act c <- mget;
  if c_transport c then
    act b <- mlift (fromhex (msg_str m));
    mmodify (fun c => c_with_out (c_out c ++ [b]) c)
  else mraise AttributeError.

(** 88-99 connection_made. *)
Definition connection_made : M client unit :=
  act _ <- mmodify (c_with_transport true);
  act c <- mget;
  act m <- on_state (encode_msg (MConnectReq (c_laddr c) (c_lport c) (c_laddr c) (c_lport c)));
  c_send m.
(** 101-103 connection_lost. *)
Definition connection_lost : M client unit := mmodify (c_with_transport false).

(** 117-135: the body of the loop over the responses. *)
Definition handle_response (res : message) : M client unit :=
  match res with
  | MConnectRes _ _ _ _ =>
      act _ <- on_state (mmodify (st_set_remote 0));
      act c <- mget;
      act m <- on_state (encode_msg (MConnectionstateReq (c_laddr c) (c_lport c)));
      act _ <- c_send m;
      mmodify (c_with_connected true)
  | MTunnelingReq seq status =>
      if status =? 0 then
        act m <- on_state (encode_msg (MTunnelingAck seq status));
        c_send m
      else mret tt
  | _ => mret tt
  end.
Fixpoint handle_responses (l : list message) : M client unit :=
  match l with
  | [] => mret tt
  | r :: l' => act _ <- handle_response r; handle_responses l'
  end.
(** 113-135 datagram_received.  Iterating None is TypeError; iterating the pair
    returned for an acknowledgement visits a list and a State, neither of which
    is a message.  The decoded responses are returned for observation. *)
Definition datagram_received (data : list Z) : M client dres :=
  act m <- mlift (make_from_str (bytes_hex data));
  act r <- on_state (decode_msg CNetIP m);
  act _ <- match r with
           | RList l => handle_responses l
           | RNone => mraise TypeError
           | RAck _ => mret tt
           end;
  mret r.

(** 140-145: the next iteration of the sending loop. *)
Definition writer_send (msgs : list message) : M client unit :=
  match msgs with
  | [] => mmodify (c_with_writer WStopped)
  | m :: rest =>
      act _ <- mlift (message_repr m);
      act req <- on_state (encode_msg m);
      act _ <- c_send req;
      mmodify (c_with_writer (WSend rest))
  end.
(** 137-145 writer: one resumption; an exception ends the coroutine. *)
Definition writer_step : M client unit := fun c =>
  let run msgs :=
    match writer_send msgs c with
    | (Err e, c') => (Err e, c_with_writer (WDead e) c')
    | r => r
    end in
  match c_writer c with
  | WWait msgs => if c_connected c then run msgs else (Ok tt, c)
  | WSend msgs => run msgs
  | WStopped | WDead _ => (Ok tt, c)
  end.

(** Events of the tunnelling client. The callbacks of client/knxnet_ip.py 88,
    101, 105 and 113, and the writer of 137-145. *)
Inductive event := EvMade | EvLost | EvData (data : list Z) | EvWriter.
(** What one event shows to the outside: the datagrams sent, in order, and for
    a received datagram the outcome of the callback. client/knxnet_ip.py 109-111
    and 113-135. *)
Record observation := mkobs { o_sent : list (list Z); o_result : option (res dres) }.

(** client/knxnet_ip.py 88-145, one callback or one stretch of the writer. *)
Definition client_step (c : client) (e : event) : client * observation :=
  let finish {A} (f : res A -> option (res dres)) (p : res A * client) :=
    (c_with_out [] (snd p), mkobs (c_out (snd p)) (f (fst p))) in
  let c := c_with_out [] c in
  match e with
  | EvMade => finish (fun _ => None) (connection_made c)
  | EvLost => finish (fun _ => None) (connection_lost c)
  | EvData d => finish (fun r => Some r) (datagram_received d c)
  | EvWriter => finish (fun _ => None) (writer_step c)
  end.
(** client/knxnet_ip.py 88-145, one event after another. *)
Fixpoint client_run (c : client) (l : list event) : client * list observation :=
  match l with
  | [] => (c, [])
  | e :: r =>
      let '(c1, o) := client_step c e in
      let '(c2, os) := client_run c1 r in
      (c2, o :: os)
  end.

(** ** client/usbhid.py Client *)

(** The two tasks: the reader runs until an exception ends it. client/usbhid.py
    78-91. *)
Record usbclient := mkusb {
  u_state : state;
  u_reader : option exn;          (* None = still reading *)
  u_writer : writer
}.
(** client/usbhid.py 58-73. *)
Definition usb_new (s : state) (msgs : list message) : usbclient := mkusb s None (WSend msgs).

(** Formatting what decode_msg returned ("{}".format(data), line 91).  For the
    pair of an acknowledgement (impossible on USB) it is taken to succeed. *)
Fixpoint messages_repr (l : list message) : res unit :=
  match l with
  | [] => Ok tt
  | m :: r => do _ <- message_repr m; messages_repr r
  end.
Definition dres_repr (r : dres) : res unit :=
  match r with RList l => messages_repr l | _ => Ok tt end.

(** [msg.decode()[0:-1]] (96-98): all but the last character.  Bytes above 127
    are kept as such; they are no hexadecimal digits.  See Unicode.v for what
    they stand for. *)
Fixpoint butlast (s : string) : string :=
  match s with
  | EmptyString => EmptyString
  | String c EmptyString => EmptyString
  | String c r => String c (butlast r)
  end.

(** 86-91: one iteration of _knx_read on a line (newline included). *)
Definition usb_read (line : string) : M state dres :=
  act m <- mlift (make_from_str (butlast line));
  act data <- decode_msg CPlain m;
  act _ <- mlift (dres_repr data);
  mret data.
(** 78-84: one iteration of _knx_write; the text written, and what happened
    afterwards (the message is formatted after having been written). *)
Definition newline : string := String (ascii_of_nat 10) EmptyString.
Definition usb_write (m : message) : M state string :=
  act b <- encode_msg m; mret (String.append (msg_str b) newline).

Inductive usb_event := UvLine (line : string) | UvWriter.
Record usb_obs := mkuobs { uo_read : option (res dres); uo_written : list string }.

Definition usb_step (u : usbclient) (e : usb_event) : usbclient * usb_obs :=
  match e with
  | UvLine line =>
      match u_reader u with
      | Some _ => (u, mkuobs None [])
      | None =>
          let '(r, s) := usb_read line (u_state u) in
          (mkusb s (match r with Ok _ => None | Err x => Some x end) (u_writer u),
           mkuobs (Some r) [])
      end
  | UvWriter =>
      match u_writer u with
      | WWait l | WSend l =>
          match l with
          | [] => (mkusb (u_state u) (u_reader u) WStopped, mkuobs None [])
          | m :: rest =>
              let '(r, s) := usb_write m (u_state u) in
              match r with
              | Err x => (mkusb s (u_reader u) (WDead x), mkuobs None [])
              | Ok t =>
                  (mkusb s (u_reader u)
                         (match message_repr m with Ok _ => WSend rest | Err x => WDead x end),
                   mkuobs None [t])
              end
          end
      | _ => (u, mkuobs None [])
      end
  end.
Fixpoint usb_run (u : usbclient) (l : list usb_event) : usbclient * list usb_obs :=
  match l with
  | [] => (u, [])
  | e :: r =>
      let '(u1, o) := usb_step u e in
      let '(u2, os) := usb_run u1 r in
      (u2, o :: os)
  end.

(** ** client/knxnet_ip_discovery.py *)

(** 44-60 Request.connection_made: the datagram sent to 224.0.23.12:3671. *)
Definition discovery_made (laddr : string) (lport : Z) : M state (list Z) :=
  act m <- encode_msg (MSearchReq laddr lport);
  mlift (fromhex (msg_str m)).
(** 128-134 Listen.datagram_received: what is decoded (and only logged). *)
Definition listen_received (data : list Z) : M state dres :=
  act m <- mlift (make_from_str (bytes_hex data));
  decode_msg CNetIP m.
(** 40, 113: the state of both. *)
Definition discovery_state : state := netip_state_new Knxnet_ip None None.
