(** Specification vocabulary for C104: one conversation held twice, by an
    application on USB and by an application behind a KNXnet/IP gateway. *)
From Coq Require Import ZArith List Bool.
From Verif Require Import Py Address Dpt Tables State Encode Decode SpecMsg SpecWire.
Import ListNotations.
Open Scope Z_scope.

(** What happens: the application sends a message, or a cEMI frame arrives. *)
Inductive turn := Speak (m : message) | Listen (cemi : list Z).
(** What there is to see: the frame behind the envelope, the messages reported,
    or an exception. *)
Inductive sight := Frame (behind : list Z) | Told (l : list message) | Raised (e : exn).

(** Requests to the bus; frames that fit into a report. *)
Definition ordinary (t : turn) : Prop :=
  match t with Speak m => link_request m = true | Listen cemi => octets cemi /\ zlen cemi <= 247 end.

(** On USB: eleven octets of envelope; no list counts as an empty one.  An
    exception in decoding is the end. *)
Fixpoint over_usb (st : state) (ts : list turn) : list sight :=
  match ts with
  | [] => []
  | Speak m :: r =>
      (match fst (encode_msg m st) with Ok b => Frame (skipn 11 b) | Err e => Raised e end)
      :: over_usb (snd (encode_msg m st)) r
  | Listen cemi :: r =>
      let d := decode_msg CUsbHid (usb_report cemi) st in
      match fst d with
      | Ok (RList l) => Told l :: over_usb (snd d) r
      | Ok _ => Told [] :: over_usb (snd d) r
      | Err e => [Raised e]
      end
  end.

(** On KNXnet/IP, channel [ch]: ten octets of envelope.  The gateway acknowledges
    every request with the counter it finds there.  It numbers its own requests
    with [n] and goes on when the application's acknowledgement carries [n]; the
    application acknowledges a request reported with status 0. *)
Fixpoint over_ip (ch n : Z) (st : state) (ts : list turn) : list sight :=
  match ts with
  | [] => []
  | Speak m :: r =>
      match fst (encode_msg m st) with
      | Ok b =>
          let st1 := snd (decode_msg CNetIP (tunnelling_ack ch (nth 8 b 0) 0) (snd (encode_msg m st))) in
          Frame (skipn 10 b) :: over_ip ch n st1 r
      | Err e => Raised e :: over_ip ch n (snd (encode_msg m st)) r
      end
  | Listen cemi :: r =>
      let d := decode_msg CNetIP (tunnelling_request ch n cemi) st in
      match fst d with
      | Ok (RList (MTunnelingReq q 0 :: l)) =>
          let a := encode_msg (MTunnelingAck q 0) (snd d) in
          let n1 := match fst a with Ok b => if nth 8 b 0 =? n then (n + 1) mod 256 else n | Err _ => n end in
          Told l :: over_ip ch n1 (snd a) r
      | Ok _ => Told [] :: over_ip ch n (snd d) r
      | Err e => [Raised e]
      end
  end.
