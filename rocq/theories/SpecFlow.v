(** Specification vocabulary for a daemon whose clients read at their own pace
    (C98), written without reference to the model's functions. *)
From Coq Require Import ZArith List Bool.
From Verif Require Import Py Daemon DaemonFlow SpecMsg SpecDaemon.
Import ListNotations.
Open Scope Z_scope.

(** What the daemon has handled, and what has reached the bus. *)
Definition handled_in (o : list fseen) : list devent :=
  flat_map (fun x => match x with Handled e => [e] | _ => [] end) o.
Definition on_bus (o : list fseen) : list (list Z) :=
  flat_map (fun x => match x with BusGot p => [p] | _ => [] end) o.
(** The packets from the bus among what was handled. *)
Definition bus_packets (es : list devent) : list (list Z) :=
  flat_map (fun e => match e with DBus data => [data] | _ => [] end) es.
Definition bus_writes (o : list (list dout)) : list (list Z) :=
  flat_map (flat_map (fun x => match x with ToBus p => [p] | _ => [] end)) o.

(** What a client has read since it connected. *)
Definition got1 (fd : Z) (acc : list Z) (o : fseen) : list Z :=
  match o with
  | Handled (DAccept x) => if x =? fd then [] else acc
  | ClientGot x b => if x =? fd then acc ++ b else acc
  | _ => acc
  end.
Definition got (fd : Z) (o : list fseen) : list Z := fold_left (got1 fd) o [].
(** What it is to be told: a line for each packet that the daemon takes from the
    bus while the client holds a place. *)
Definition due1 (fd : Z) (s : list Z * list Z) (e : devent) : list Z * list Z :=
  (register1 (fst s) e,
   match e with
   | DAccept x => if x =? fd then [] else snd s
   | DBus data => if existsb (Z.eqb fd) (fst s) then snd s ++ lower_line data else snd s
   | _ => snd s
   end).
Definition due_lines (fd : Z) (es : list devent) : list Z := snd (fold_left (due1 fd) es ([], [])).

(** The client does not read. *)
Definition never_reads (fd : Z) (evs : list fevent) : Prop :=
  Forall (fun ev => forall n, ev <> FRead fd n) evs.
(** Nothing but the kernel taking bytes; or that, and clients reading. *)
Definition only_stores (evs : list fevent) : Prop :=
  Forall (fun ev => exists n, ev = FStore n) evs.
Definition only_flows (evs : list fevent) : Prop :=
  Forall (fun ev => forall e, ev <> FHandle e) evs.

(** The daemon waits in select(), or it waits for a client that has no room left. *)
Definition idle (f : flow) : Prop := fl_work f = [].
Definition waits_for (cap : Z -> Z) (f : flow) (fd : Z) : Prop :=
  (exists text r, fl_work f = (fd, text) :: r) /\ cap fd <= zlen (fl_stored f fd).
(** [a] is the end of [b]. *)
Definition tail_of (a b : list Z) : Prop := exists c, b = c ++ a.
