(** The daemon of daemon/usbhid.c with system calls that fail: what ends the
    process and what it survives.  SIGPIPE has its default action (the program
    installs no handler). *)
From Coq Require Import ZArith List Bool.
From Verif Require Import Py Daemon.
Import ListNotations.
Open Scope Z_scope.

(** What a write() does: it writes, it returns -1, or it raises SIGPIPE because
    the other end of the connection is gone. *)
Inductive wresult := Written | Failed | Killed.

(** One round of the loop 229-281 for one descriptor: select() fails (231-234),
    accept() fails (244-247), reading from the device fails (53-56), or an event
    is handled; then [w] says what writing to each client does and [b] what
    writing to the device does.  A read() from a client that fails counts as end
    of file (135-139, 266-276). *)
Inductive incident :=
| SelectFails
| AcceptFails
| DeviceFails
| Event (e : devent) (w : Z -> wresult) (b : wresult).

(** 260-264 and 166: the text goes to one client after the other; the result of
    write() is not looked at, SIGPIPE ends the process. *)
Fixpoint deliver (w : Z -> wresult) (text : list Z) (fds : list Z) : list dout * bool :=
  match fds with
  | [] => ([], true)
  | fd :: r =>
      match w fd with
      | Written => let '(o, alive) := deliver w text r in (ToClient fd text :: o, alive)
      | Failed => deliver w text r
      | Killed => ([], false)
      end
  end.

(** [None]: the process has ended. One round of usbhid.c 229-281. *)
Definition life_step (scan : scanner) (d : option daemon) (i : incident) : option daemon * list dout :=
  match d, i with
  | Some d, Event (DBus data) w b =>
      let p := overlay data (dm_packet d) in
      let '(o, alive) := deliver w (client_text (ztake (zlen data) p)) (filter (fun fd => fd >? 0) (dm_slots d)) in
      (if alive then Some (mkdaemon p (dm_slots d) (dm_active d)) else None, o)
  | Some d, Event e w b =>
      let '(d', o) := daemon_step scan d e in
      (* 266-267, 68-72: a packet for the device that cannot be written *)
      match o, b with
      | ToBus _ :: _, Written => (Some d', o)
      | ToBus _ :: _, _ => (None, [])
      | _, _ => (Some d', o)
      end
  | _, _ => (None, [])
  end.
Fixpoint life_run (scan : scanner) (d : option daemon) (l : list incident)
    : option daemon * list (list dout) :=
  match l with
  | [] => (d, [])
  | i :: r =>
      let '(d1, o) := life_step scan d i in
      let '(d2, os) := life_run scan d1 r in
      (d2, o :: os)
  end.
