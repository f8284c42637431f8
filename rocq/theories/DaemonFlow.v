(** The daemon of daemon/usbhid.c with connections that hold only so many bytes.
    Its sockets are blocking (89-112 and 242 set no flag), so that write() at
    line 166 returns only when the kernel has taken the whole text; until then
    the loop 229-281 handles nothing else.

    Simplified: a client that disappears while it is being written to is not
    here (DaemonLife.v has it), writing to the device (68) always succeeds at
    once, and the bytes that a closed connection still holds are forgotten when
    its descriptor is used again. *)
From Coq Require Import ZArith List Bool.
From Verif Require Import Py Daemon.
Import ListNotations.
Open Scope Z_scope.

(** The daemon, the writes that remain to be made for the packet in hand (260-264,
    what is left of each text), and the bytes that the kernel holds for each
    connection: taken from the daemon, not yet read by the client. *)
Record flow := mkflow {
  fl_daemon : daemon;
  fl_work : list (Z * list Z);
  fl_stored : Z -> list Z
}.
Definition flow_new (packet : list Z) : flow := mkflow (daemon_new packet) [] (fun _ => []).

(** What may happen: the loop handles a descriptor that is ready (236-280), the
    kernel takes some bytes of the text that is being written (166), a client
    reads. *)
Inductive fevent :=
| FHandle (e : devent)
| FStore (n : Z)
| FRead (fd n : Z).

(** What is seen of it. usbhid.c 68 and 166. *)
Inductive fseen :=
| Handled (e : devent)
| BusGot (packet : list Z)
| ClientGot (fd : Z) (bytes : list Z).

(** The write of usbhid.c 166. *)
Definition put_bytes (fd : Z) (b : list Z) (s : Z -> list Z) : Z -> list Z :=
  fun x => if x =? fd then b else s x.
(** 262: the writes that a packet asks for. *)
Definition writes (o : list dout) : list (Z * list Z) :=
  flat_map (fun x => match x with ToClient fd text => [(fd, text)] | ToBus _ => [] end) o.
(** 267: what goes to the device. *)
Definition to_device (o : list dout) : list fseen :=
  flat_map (fun x => match x with ToClient _ _ => [] | ToBus p => [BusGot p] end) o.

(** One of these; something that cannot happen now changes nothing.  A new
    connection (242) holds nothing. *)
Definition flow_step (cap : Z -> Z) (scan : scanner) (f : flow) (ev : fevent) : flow * list fseen :=
  match ev, fl_work f with
  | FHandle e, [] =>
      let '(d, o) := daemon_step scan (fl_daemon f) e in
      (mkflow d (writes o) match e with DAccept fd => put_bytes fd [] (fl_stored f) | _ => fl_stored f end,
       Handled e :: to_device o)
  | FHandle e, _ :: _ => (f, [])
  | FStore n, (fd, text) :: r =>
      if (0 <? n) && (n <=? zlen text) && (zlen (fl_stored f fd) + n <=? cap fd) then
        (mkflow (fl_daemon f) (if n =? zlen text then r else (fd, zdrop n text) :: r)
                (put_bytes fd (fl_stored f fd ++ ztake n text) (fl_stored f)), [])
      else (f, [])
  | FStore n, [] => (f, [])
  | FRead fd n, w =>
      if (0 <? n) && (n <=? zlen (fl_stored f fd)) then
        (mkflow (fl_daemon f) w (put_bytes fd (zdrop n (fl_stored f fd)) (fl_stored f)),
         [ClientGot fd (ztake n (fl_stored f fd))])
      else (f, [])
  end.
Fixpoint flow_run (cap : Z -> Z) (scan : scanner) (f : flow) (l : list fevent) : flow * list fseen :=
  match l with
  | [] => (f, [])
  | ev :: r =>
      let '(f1, o1) := flow_step cap scan f ev in
      let '(f2, o2) := flow_run cap scan f1 r in
      (f2, o1 ++ o2)
  end.
