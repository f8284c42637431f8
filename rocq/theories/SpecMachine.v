(** Specification vocabulary for C112: the tunnelling client as a machine with
    six registers. *)
From Coq Require Import String ZArith List Bool.
From Verif Require Import Py Msg Dpt Tables State Encode Decode Client SpecMsg SpecWire SpecDecode SpecClient.
Import ListNotations.
Open Scope Z_scope.

(** What the writer has left to do. *)
Inductive phase := Waiting (l : list message) | Sending (l : list message) | Finished | Broken (e : exn).
(** There is a transport; a connect response has been taken; the channel; the
    counter expected next; the counter of the next own request; the writer. *)
Record machine := mkmachine {
  k_up : bool;
  k_answered : bool;
  k_channel : Z;
  k_expected : Z;
  k_number : Z;
  k_phase : phase
}.
(** The State of the program with the numbers of the machine in it. *)
Definition numbers (st : state) (k : machine) : state :=
  mkstate (st_medium st) (st_assoc st) (st_gobj st) (st_ldata st) (st_asap st) (st_apci st) (st_address_type st)
    (k_expected k) (k_number k) (Some (k_channel k)).
(** Datagrams sent, messages delivered. *)
Definition output := (list (list Z) * list message)%type.
Definition silent : output := ([], []).

(** A datagram arrives.  A connect response starts the counting again and is
    answered by a question for the state of the connection.  The request that is
    due is delivered and acknowledged if its telegram means something; the one
    before it is acknowledged with the number that is due.  Everything else moves
    the own number or the channel at most.  Without a transport nothing is
    sent, and whoever had to send something neither delivers nor counts as
    answered. *)
Definition k_data (ip : list Z) (port : Z) (st : state) (k : machine) (d : list Z) : machine * output :=
  let channel := match channel_after d (Some (k_channel k)) with Some c => c | None => k_channel k end in
  let number := local_after d (k_number k) in
  if connect_answer d then
    (mkmachine (k_up k) (k_answered k || k_up k) channel 0 number (k_phase k),
     if k_up k then ([connectionstate_request channel ip port], []) else silent)
  else
    match tunnelled d with
    | Some (n, cemi) =>
        if n =? k_expected k then
          match meaning st cemi with
          | Ok l => (mkmachine (k_up k) (k_answered k) (k_channel k) ((n + 1) mod 256) (k_number k) (k_phase k),
                     if k_up k then ([tunnelling_ack (k_channel k) n 0], l) else silent)
          | Err _ => (k, silent)
          end
        else (k, if (n + 1 =? k_expected k) && k_up k
                 then ([tunnelling_ack (k_channel k) (k_expected k) 0], []) else silent)
    | None => (mkmachine (k_up k) (k_answered k) channel (k_expected k) number (k_phase k), silent)
    end.
(** The writer has a turn with the messages [l].  A message whose value cannot
    be displayed, one that cannot be encoded and a missing transport end it. *)
Definition k_turn (st : state) (k : machine) (l : list message) : machine * output :=
  let goes expected p := mkmachine (k_up k) (k_answered k) (k_channel k) expected (k_number k) p in
  match l with
  | [] => (goes (k_expected k) Finished, silent)
  | m :: rest =>
      if displayable m then
        match fst (encode_msg m (numbers st k)) with
        | Err e => (goes (k_expected k) (Broken e), silent)
        | Ok b =>
            (* only an acknowledgement among the messages moves the expected counter *)
            let expected := match m with
                            | MTunnelingAck seq _ => if seq =? k_expected k then (k_expected k + 1) mod 256 else k_expected k
                            | _ => k_expected k
                            end in
            if k_up k then (goes expected (Sending rest), ([b], []))
            else (goes expected (Broken AttributeError), silent)
        end
      else (goes (k_expected k) (Broken ValueError), silent)
  end.
Definition k_step (ip : list Z) (port : Z) (st : state) (k : machine) (e : event) : machine * output :=
  match e with
  | EvMade => (mkmachine true (k_answered k) (k_channel k) (k_expected k) (k_number k) (k_phase k),
               ([connect_request ip port], []))
  | EvLost => (mkmachine false (k_answered k) (k_channel k) (k_expected k) (k_number k) (k_phase k), silent)
  | EvData d => k_data ip port st k d
  | EvWriter =>
      match k_phase k with
      | Waiting l => if k_answered k then k_turn st k l else (k, silent)
      | Sending l => k_turn st k l
      | Finished | Broken _ => (k, silent)
      end
  end.
Fixpoint k_run (ip : list Z) (port : Z) (st : state) (k : machine) (es : list event) : machine * list output :=
  match es with
  | [] => (k, [])
  | e :: r =>
      let '(k1, o) := k_step ip port st k e in
      let '(k2, os) := k_run ip port st k1 r in
      (k2, o :: os)
  end.
(** The machine before the first event. *)
Definition k_start (channel remote local : Z) (msgs : list message) : machine :=
  mkmachine false false channel remote local (Waiting msgs).
(** A State with which the client can be started. *)
Definition startable (st : state) (channel : Z) : Prop :=
  st_medium st = Knxnet_ip /\ st_assoc st <> None /\ st_gobj st <> None /\ st_channel st = Some channel /\
  0 <= st_remote st < 256 /\ 0 <= st_local st < 256.
(** The datagrams among the events consist of octets. *)
Definition octet_events (es : list event) : Prop := forall d, In (EvData d) es -> octets d.
(** What an observation shows. *)
Definition visible (o : observation) : output := (o_sent o, deliveries o).
