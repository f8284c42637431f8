(** The system of SpecSystem.v in time (C87).  Times are in milliseconds. *)
From Coq Require Import ZArith List Bool.
From Verif Require Import Py Msg State Encode Decode Client ClientTime SpecMsg SpecWire SpecDecode SpecClient SpecSystem.
Import ListNotations.
Open Scope Z_scope.

(** The system, the time of what happened last, the time before which the writer
    does not wake up, and since when each datagram has been under way. *)
Record timed := mktimed {
  ti_sys : system;
  ti_now : Z;
  ti_wake : Z;
  ti_up : list Z;
  ti_down : list Z
}.

(** [h] happens at time [t]: a datagram that is sent has been under way since
    [t], one that the network repeats since the original was sent; after a turn
    the writer sleeps. *)
Definition filled (t : Z) (since : list Z) (l : list (list Z)) : list Z :=
  since ++ repeat t (length l - length since).
Definition ti_step (frame : Z -> list Z) (x : timed) (e : Z * happening) : timed :=
  let '(t, h) := e in
  let s := sy_step frame (ti_sys x) h in
  mktimed s t
    (match h with Turn => t + pause (c_writer (sy_client s)) | _ => ti_wake x end)
    (filled t (match h with Arrive_up => tl (ti_up x) | Repeat_up n => again n (ti_up x) | _ => ti_up x end) (sy_up s))
    (filled t (match h with Arrive_down => tl (ti_down x) | Repeat_down n => again n (ti_down x) | _ => ti_down x end) (sy_down s)).
Definition ti_run (frame : Z -> list Z) (x : timed) (es : list (Z * happening)) : timed :=
  fold_left (ti_step frame) es x.

(** What can happen when the network loses nothing and needs at most [d] for each
    datagram: whatever happens next happens before any datagram has been under
    way for longer, and the writer takes a turn only when it has slept. *)
Definition can_happen (d : Z) (x : timed) (e : Z * happening) : Prop :=
  let '(t, h) := e in
  ti_now x <= t /\
  (forall since, In since (ti_up x ++ ti_down x) -> t <= since + d) /\
  match h with
  | Turn => ti_wake x <= t
  | Lose_up _ | Lose_down _ => False
  | _ => True
  end.
Fixpoint timely (d : Z) (frame : Z -> list Z) (x : timed) (es : list (Z * happening)) : Prop :=
  match es with
  | [] => True
  | e :: r => can_happen d x e /\ timely d frame (ti_step frame x e) r
  end.

(** The gateway has accepted the client at time [t0]; the writer may wake up from
    then on. *)
Definition ti_start (c : client) (ch t0 : Z) : timed := mktimed (sy_start c ch) t0 t0 [] [].

(** [f] is the frame of message [m] for a client with the tables of [s0]. *)
Definition frame_of (s0 : state) (m : message) (f : list Z) : Prop :=
  exists s b n, same_tables s0 s /\ fst (encode_msg m s) = Ok b /\ tunnelled b = Some (n, f).
(** A message that can be displayed and, once there is a channel, encoded with
    the tables of [s0]. *)
Definition transmissible (s0 : state) (m : message) : Prop :=
  displayable m = true /\
  forall s, same_tables s0 s -> st_channel s <> None -> exists b, fst (encode_msg m s) = Ok b.
Definition how_often (hs : list happening) : nat :=
  length (filter (fun h => match h with Turn => true | _ => false end) hs).
