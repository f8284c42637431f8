(** The main loop of daemon/usbhid.c round by round: select() and the loop over
    all descriptors.  [DaemonLife.v] has the rounds in which a system call
    fails. *)
From Coq Require Import ZArith List Bool.
From Verif Require Import Py Daemon.
Import ListNotations.
Open Scope Z_scope.

(** sys/select.h: the number of bits of an fd_set. Used in usbhid.c 231 and 236. *)
Definition FD_SETSIZE : Z := 1024.
(** usbhid.c 212 and 218: the descriptors of the socket and of the device; 0, 1
    and 2 are taken by the standard streams and descriptors are given out lowest
    first. *)
Definition sock : Z := 3.
Definition fd_cemi : Z := 4.

(** One round (230-280): the descriptors select() leaves in read_fd_set, and what
    the system calls give: accept() (242), read() from the device (52), read()
    from each client (134) with the memory around its text. *)
Record round := mkround {
  rd_ready : list Z;
  rd_accept : Z;
  rd_bus : list Z;
  rd_text : Z -> list Z;
  rd_around : Z -> around
}.
(** 237: FD_ISSET. *)
Definition is_set (i : Z) (l : list Z) : bool := existsb (Z.eqb i) l.
(** 238-279: which of the three cases descriptor [i] is. *)
Definition case_of (r : round) (i : Z) : devent :=
  if i =? sock then DAccept (rd_accept r)
  else if i =? fd_cemi then DBus (rd_bus r)
  else DClient i (rd_text r i) (rd_around r i).
(** 236-280: the loop from descriptor [i] on; [n] descriptors are left. *)
Fixpoint visit (scan : scanner) (r : round) (n : nat) (i : Z) (d : daemon) : daemon * list (list dout) :=
  match n with
  | O => (d, [])
  | S n' =>
      if is_set i (rd_ready r) then
        let '(d1, o) := daemon_step scan d (case_of r i) in
        let '(d2, os) := visit scan r n' (i + 1) d1 in
        (d2, o :: os)
      else visit scan r n' (i + 1) d
  end.
(** 229-281. *)
Fixpoint rounds (scan : scanner) (d : daemon) (l : list round) : daemon * list (list dout) :=
  match l with
  | [] => (d, [])
  | r :: l' =>
      let '(d1, os) := visit scan r (Z.to_nat FD_SETSIZE) 0 d in
      let '(d2, os') := rounds scan d1 l' in
      (d2, os ++ os')
  end.
