(** Specification vocabulary for the clients (C35-C42, C52-C54): datagrams and
    histories, without reference to the functions of the clients. *)
From Coq Require Import String Ascii ZArith List Bool.
From Verif Require Import Py Msg Dpt Tables State Encode Decode Client SpecMsg SpecWire SpecDecode.
Import ListNotations.
Open Scope Z_scope.

(** ** Datagrams *)

(** A connect response the client takes as such: service 0206h, total length,
    channel, status 0 with an endpoint block (8 octets) and a data block (4), or
    one of the known error codes with an endpoint block. *)
Definition connect_answer (d : list Z) : bool :=
  match ip_service d with
  | Some (service, _ :: _ :: _ :: sta :: r) =>
      (service =? 0x0206) &&
      (if sta =? 0 then 12 <=? zlen r
       else existsb (Z.eqb sta) [0x22; 0x23; 0x24] && (8 <=? zlen r))
  | _ => false
  end.
Definition connect_request (ip : list Z) (port : Z) : list Z :=
  [0x06; 0x10; 0x02; 0x05; 0x00; 0x1A] ++ endpoint ip port ++ endpoint ip port ++ [0x04; 0x04; 0x02; 0x00].
Definition connectionstate_request (channel : Z) (ip : list Z) (port : Z) : list Z :=
  [0x06; 0x10; 0x02; 0x07; 0x00; 0x10; channel mod 256; 0x00] ++ endpoint ip port.
(** A tunnelling acknowledgement. *)
Definition is_ack (d : list Z) : bool :=
  match ip_service d with Some (service, _) => service =? 0x0421 | None => false end.

(** Messages that come from the bus. *)
Definition bus_message (m : message) : bool :=
  match m with
  | MGroupValueReadInd _ _ | MGroupValueReadCon _ _ _
  | MGroupValueResponseInd _ _ | MGroupValueResponseCon _ _ _
  | MGroupValueWriteInd _ _ | MGroupValueWriteCon _ _ _
  | MPropertyValueReadInd _ _ _ _ _ | MPropertyValueReadCon _ _ _ _ _ _
  | MPropertyValueResponseInd _ _ _ _ _ _ | MPropertyValueResponseCon _ _ _ _ _ _ _
  | MPropertyValueWriteInd _ _ _ _ _ _ | MPropertyValueWriteCon _ _ _ _ _ _ _ => true
  | _ => false
  end.
Definition is_ack_message (m : message) : bool := match m with MTunnelingAck _ _ => true | _ => false end.

(** ** Histories of the tunnelling client *)

(** asyncio's order of events: datagrams (octets) only between connection_made
    and connection_lost. *)
Fixpoint orderly (up : bool) (es : list event) : Prop :=
  match es with
  | [] => True
  | EvMade :: r => orderly true r
  | EvLost :: r => orderly false r
  | EvData d :: r => up = true /\ octets d /\ orderly up r
  | EvWriter :: r => orderly up r
  end.
(** A client as its users make it: own IPv4 address, a KNXnet/IP state with
    tables and a channel id, counters in range, no acknowledgements among the
    messages to be sent. *)
Definition well_made (ip : list Z) (c : client) (msgs : list message) : Prop :=
  exists port st, c = client_new (dotted ip) port st msgs /\ ipv4 ip /\
  st_medium st = Knxnet_ip /\ st_assoc st <> None /\ st_gobj st <> None /\ st_channel st <> None /\
  0 <= st_remote st < 256 /\ 0 <= st_local st < 256 /\ Forall (fun m => is_ack_message m = false) msgs.

Definition after (c : client) (es : list event) : client := fst (client_run c es).
Definition observations (c : client) (es : list event) : list observation := snd (client_run c es).
(** What event [e] shows when it comes after [es]. *)
Definition shown (c : client) (es : list event) (e : event) : observation := snd (client_step (after c es) e).
Definition trace (c : client) (es : list event) : list (event * observation) := combine es (observations c es).

(** Messages delivered from the bus by an observation. *)
Definition deliveries (o : observation) : list message :=
  match o_result o with
  | Some (Ok (RList l)) => filter bus_message l
  | _ => []
  end.
(** An acknowledgement was sent. *)
Definition acked (o : observation) : bool := existsb is_ack (o_sent o).

(** The number of requests taken since the last connect response: one more for
    each request that carried this number modulo 256 and was acknowledged. *)
Definition taken_step (k : Z) (x : event * observation) : Z :=
  match x with
  | (EvData d, o) =>
      if connect_answer d then 0
      else match tunnelled d with
           | Some (n, _) => if (n =? k mod 256) && acked o then k + 1 else k
           | None => k
           end
  | _ => k
  end.
Definition taken (k : Z) (tr : list (event * observation)) : Z := fold_left taken_step tr k.

(** The outgoing counter: advanced by matching acknowledgements. *)
Definition local_step (l : Z) (e : event) : Z :=
  match e with EvData d => local_after d l | _ => l end.
(** The channel id. *)
Definition channel_step (ch : option Z) (e : event) : option Z :=
  match e with EvData d => channel_after d ch | _ => ch end.

(** The transport. *)
Definition up_step (up : bool) (e : event) : bool :=
  match e with EvMade => true | EvLost => false | _ => up end.

(** What a cEMI frame means to the tables of a state: the messages reported when
    it comes as the first request, numbered 0. *)
Definition meaning (s : state) (cemi : list Z) : res (list message) :=
  match fst (decode_msg CNetIP (tunnelling_request 0 0 cemi) (st_set_remote 0 s)) with
  | Ok (RList (_ :: l)) => Ok l
  | Ok _ => Ok []
  | Err e => Err e
  end.

(** Datagrams sent by the writer. *)
Definition writer_sent (tr : list (event * observation)) : list (list Z) :=
  flat_map (fun x => match fst x with EvWriter => o_sent (snd x) | _ => [] end) tr.
(** Message [m] was turned into [b] by some turn of the writer in the history. *)
Definition sent_as (c : client) (es : list event) (m : message) (b : list Z) : Prop :=
  exists es1 es2, es = es1 ++ EvWriter :: es2 /\ fst (encode_msg m (c_state (after c es1))) = Ok b.
Definition turns (es : list event) : nat :=
  length (filter (fun e => match e with EvWriter => true | _ => false end) es).
(** A connect response has come. *)
Definition answered (es : list event) : bool :=
  existsb (fun e => match e with EvData d => connect_answer d | _ => false end) es.

(** ** Arrivals (C35) *)

(** The gateway's requests are numbered 0, 1, 2, ... and arrive in any order, any
    number of times, mixed with other events; a request is never more than 255
    older than the next one due and never newer. *)
Inductive arrival := Request (i : Z) | Noise (e : event).
Definition due (k : Z) (a : arrival) : Z :=
  match a with Request i => if i =? k then k + 1 else k | Noise _ => k end.
Fixpoint in_window (k : Z) (l : list arrival) : Prop :=
  match l with
  | [] => True
  | a :: r => match a with Request i => k - 256 < i <= k | Noise _ => True end /\ in_window (due k a) r
  end.
(** Events that are no request and no connect response. *)
Definition other_event (e : event) : Prop :=
  match e with
  | EvData d => connect_answer d = false /\ tunnelled d = None
  | _ => True
  end.
Definition arrives (channel : Z) (frame : Z -> list Z) (a : arrival) : event :=
  match a with Request i => EvData (tunnelling_request channel i (frame i)) | Noise e => e end.
(** 0, 1, ..., n-1 *)
Definition upto (n : Z) : list Z := map Z.of_nat (seq 0 (Z.to_nat n)).

(** ** Histories of the API and of assignments to the counters (C42) *)
Inductive counter_op := Api (x : api_call) | Assign_remote (v : Z) | Assign_local (v : Z).
Definition counter_do (s : state) (x : counter_op) : state :=
  match x with
  | Api y => snd (api_do s y)
  | Assign_remote v => st_set_remote v s
  | Assign_local v => st_set_local v s
  end.

(** ** The USB client (C53) *)

(** The values in a message can be displayed. *)
Definition displayable (m : message) : bool :=
  match m with
  | MGroupValueReadInd _ d | MGroupValueReadCon _ d _
  | MGroupValueResponseInd _ d | MGroupValueResponseCon _ d _
  | MGroupValueWriteReq _ d | MGroupValueWriteInd _ d | MGroupValueWriteCon _ d _ =>
      negb (undisplayable (d_class d) (d_value d))
  | _ => true
  end.

(** A line without its last character (the newline). *)
Definition line_text (line : string) : string := String.substring 0 (String.length line - 1) line.
(** What one line gives when decoded on its own: the text must be hexadecimal,
    decode_msg must succeed, the result must be displayable. *)
Definition line_result (s : state) (line : string) : res dres :=
  do m <- make_from_str (line_text line);
  do data <- fst (decode_msg CPlain m s);
  match data with
  | RList l => if forallb displayable l then Ok data else Err ValueError
  | _ => Ok data
  end.
(** Results up to and including the first failure. *)
Fixpoint until_failure {A} (l : list (res A)) : list (res A) :=
  match l with
  | [] => []
  | Ok a :: r => Ok a :: until_failure r
  | Err e :: _ => [Err e]
  end.
(** The lines a message list becomes: up to the first message that cannot be
    encoded, or up to and including the first that cannot be displayed. *)
Fixpoint lines_of (s : state) (msgs : list message) : list string :=
  match msgs with
  | [] => []
  | m :: r =>
      match fst (encode_msg m s) with
      | Err _ => []
      | Ok b => String.append (msg_str b) newline ::
                (if displayable m then lines_of s r else [])
      end
  end.
Definition usb_lines (es : list usb_event) : list string :=
  flat_map (fun e => match e with UvLine l => [l] | UvWriter => [] end) es.
Definition usb_turns (es : list usb_event) : nat :=
  length (filter (fun e => match e with UvWriter => true | _ => false end) es).
Definition usb_reads (os : list usb_obs) : list (res dres) :=
  flat_map (fun o => match uo_read o with Some r => [r] | None => [] end) os.
Definition usb_writes (os : list usb_obs) : list string := flat_map uo_written os.
