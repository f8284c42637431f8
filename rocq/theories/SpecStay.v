(** The USB client in time (C96).  Times are in milliseconds. *)
From Coq Require Import ZArith List.
From Verif Require Import Py State Encode Client ClientTime SpecClient.
Import ListNotations.
Open Scope Z_scope.

(** The client, the time of what happened last and when the writer's sleep ends. *)
Record uclock := mkuclock { uk_client : usbclient; uk_now : Z; uk_wake : Z }.
Definition uk_step (x : uclock) (e : Z * usb_event) : uclock :=
  let u := fst (usb_step (uk_client x) (snd e)) in
  mkuclock u (fst e)
    match snd e with UvWriter => fst e + usb_pause (u_writer u) | UvLine _ => uk_wake x end.
Definition uk_run (x : uclock) (es : list (Z * usb_event)) : uclock := fold_left uk_step es x.

(** Nothing happens once the writer has stopped the event loop.  Until then the
    loop is never more than [late] behind: the writer's turn comes when its sleep
    is over, and nothing else happens once it has been over for longer than that,
    unless the writer died. *)
Definition uk_in_time (late : Z) (x : uclock) (e : Z * usb_event) : Prop :=
  uk_now x <= fst e /\
  (snd e = UvWriter -> uk_wake x <= fst e) /\
  match u_writer (uk_client x) with
  | WStopped => False
  | WDead _ => True
  | WWait _ | WSend _ => fst e <= uk_wake x + late
  end.
Fixpoint uk_prompt (late : Z) (x : uclock) (es : list (Z * usb_event)) : Prop :=
  match es with
  | [] => True
  | e :: r => uk_in_time late x e /\ uk_prompt late (uk_step x e) r
  end.
(** The client is made at time [t0]; the writer is due at once. *)
Definition uk_start (st : state) (msgs : list message) (t0 : Z) : uclock := mkuclock (usb_new st msgs) t0 t0.

(** A message the writer gets past: it can be encoded and displayed. *)
Definition writable (st : state) (m : message) : Prop :=
  (exists b, fst (encode_msg m st) = Ok b) /\ displayable m = true.
