(** Specification vocabulary for C91: from USB clients to a tunnelling client. *)
From Coq Require Import String ZArith List Bool.
From Verif Require Import Py Msg Address Dpt Tables State Encode Decode Client Daemon.
From Verif Require Import SpecMsg SpecTables SpecWire SpecDecode SpecClient SpecAcross SpecDaemon SpecWhole.
Import ListNotations.
Open Scope Z_scope.

(** Someone with these tables says this message. *)
Record remark := mkremark { r_assoc : assoc_table; r_gobj : gobj_table; r_message : message }.
(** A delivery to the daemon is the line a USB client writes for it. *)
Definition line_for (x : remark) (e : devent) : Prop :=
  exists fd u st b,
    e = DClient fd (bytes_of (String.append (msg_str b) newline)) u /\
    st_medium st = Usb_hid /\ st_assoc st = Some (r_assoc x) /\ st_gobj st = Some (r_gobj x) /\
    fst (encode_msg (r_message x) st) = Ok b.
(** A gateway hears what the interface puts on the bus: its telegrams are, in
    order, what the bus makes of the frames inside the packets. *)
Definition overhears (ps : list (list Z)) (frame : Z -> list Z) : Prop :=
  forall i p, nth_error ps i = Some p -> exists request, usb_cemi p = Some request /\ carried request (frame (Z.of_nat i)).
(** What a delivery holds. *)
Definition texts (es : list devent) : list (list Z) :=
  flat_map (fun e => match e with DClient _ (x :: r) _ => [x :: r] | _ => [] end) es.
(** What the remark is to a listener. *)
Definition to_listener tb l h (s2 : assoc_table) (go2 : gobj_table) (x : remark) : list message :=
  to_other (r_assoc x) (r_gobj x) tb l h s2 go2 (r_message x).
