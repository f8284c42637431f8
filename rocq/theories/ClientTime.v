(** Model of the sleeps of knx_stack/client/. *)
From Coq Require Import ZArith List.
From Verif Require Import Encode Client.
Open Scope Z_scope.

(** How long, in milliseconds, the writer of client/knxnet_ip.py sleeps when it
    has come to the given point of its coroutine: 139 in the loop of 138-139, 144
    in the loop of 140-144, not at all after its end. *)
Definition pause (w : writer) : Z :=
  match w with
  | WWait _ => 1000
  | WSend _ => 3000
  | WStopped | WDead _ => 0
  end.

(** The same for the writer of client/usbhid.py: 83 in the loop of 79-83. *)
Definition usb_pause (w : writer) : Z :=
  match w with
  | WSend _ => 3000
  | WWait _ | WStopped | WDead _ => 0
  end.
