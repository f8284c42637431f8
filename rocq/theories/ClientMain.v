(** Model of the programs in knx_stack/client/ (the parts under
    [if __name__ == "__main__"]).  Logging is left out. *)
From Coq Require Import String Ascii ZArith List Bool.
From Verif Require Import Py Msg Address Dpt Tables State Encode Decode Client.
Import ListNotations.
Open Scope Z_scope.

(** One [associate] call in a row of them. client/usbhid.py 116-119. *)
Definition then_associate (a : asap) (x : address) (s : res assoc_table) : res assoc_table :=
  do s <- s;
  match associate a [x] s with
  | (Ok _, s') => Ok s'
  | (Err e, _) => Err e
  end.
(** DPT_Switch() with its action set; Action.on = 1, Action.off = 0
    (datapointtypes.py 129-131). *)
Definition switch (action : Z) : dpt := bits_set (dpt_new Switch) "action" action.

(** ** client/knxnet_ip.py 174-212 *)
Definition tunnel_command : asap := mkasap 1 (Some "turn on/off floor light"%string).
(** 174-179. *)
Definition tunnel_table : res assoc_table :=
  then_associate tunnel_command (mkaddr 2 0x0F81) (assoc_new (at_new (mkaddr 1 0x1004) [] 255) []).
(** 186-202. *)
Definition tunnel_msgs : list message :=
  [MGroupValueWriteReq tunnel_command (switch 1); MGroupValueWriteReq tunnel_command (switch 0)].
(** 180-184, 207: the protocol object. *)
Definition tunnel_client (s : assoc_table) : client :=
  client_new "172.31.10.111" 5544 (netip_state_new Knxnet_ip (Some s) (Some [(tunnel_command, Switch)])) tunnel_msgs.

(** ** client/usbhid.py 112-155 *)
Definition usb_device : asap := mkasap 1 (Some "a floor light switch device"%string).
Definition usb_command : asap := mkasap 2 (Some "turn on/off floor light"%string).
(** 112-119. *)
Definition usb_table : res assoc_table :=
  then_associate usb_command (mkaddr 3 0x0F81)
    (then_associate usb_device (mkaddr 2 0x1029) (assoc_new (at_new (mkaddr 1 0x100A) [] 255) [])).
(** 120-124. *)
Definition usb_main_state (s : assoc_table) : state :=
  state_new Usb_hid (Some s) (Some [(usb_command, Switch)]).
(** 128-142: the first two messages. *)
Definition usb_msgs : list message :=
  [MGroupValueWriteReq usb_command (switch 1); MGroupValueWriteReq usb_command (switch 0)].
(** 144-152: in the third message the ASAP is the number 0.  Looking a number up
    in the dictionary (association_table.py 139-145) compares it with each key
    of the same hash by ASAP.__eq__ (49-50), which reads [value] of the number:
    AttributeError; without such a key it is KeyError. *)
Definition lookup_int (s : assoc_table) (n : Z) : exn :=
  if existsb (fun a => asap_value a =? n) (as_asaps s) then AttributeError else KeyError.
(** One step of the two tasks: after the two messages the writer comes to the
    third.  (The attributes of State that encoding assigns before it raises are
    left out; C30 says that no result depends on them.) client/usbhid.py 126-155
    and 78-98. *)
Definition usb_main_step (u : usbclient) (e : usb_event) : usbclient * usb_obs :=
  match e, u_writer u with
  | UvWriter, WSend [] =>
      (mkusb (u_state u) (u_reader u)
         (WDead (match st_assoc (u_state u) with Some s => lookup_int s 0 | None => AttributeError end)),
       mkuobs None [])
  | _, _ => usb_step u e
  end.
Fixpoint usb_main_run (u : usbclient) (l : list usb_event) : usbclient * list usb_obs :=
  match l with
  | [] => (u, [])
  | e :: r =>
      let '(u1, o) := usb_main_step u e in
      let '(u2, os) := usb_main_run u1 r in
      (u2, o :: os)
  end.

(** ** client/knxnet_ip_discovery.py 172-178 *)

(** The local address is [sys.argv[0]], the name of the program; the request is
    made by connection_made (Client.v). *)
Definition discovery_main (argv0 : string) : M state (list Z) := discovery_made argv0 5544.
