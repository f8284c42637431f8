(** Specification vocabulary for C86: rounds of select(). *)
From Coq Require Import ZArith List Bool Sorted.
From Verif Require Import Py Daemon DaemonSelect SpecMsg SpecDaemon.
Import ListNotations.
Open Scope Z_scope.

(** The descriptor that is handed out when [conn] and 0-4 are in use. *)
Definition lowest_free (conn : list Z) (fd : Z) : Prop :=
  5 <= fd /\ ~ In fd conn /\ forall x, 5 <= x < fd -> In x conn.

(** [es] are the events of round [r]: one for each ready descriptor below 1024,
    in ascending order. *)
Definition handled (r : round) (es : list devent) : Prop :=
  exists fds, StronglySorted Z.lt fds /\ (forall i, In i fds <-> In i (rd_ready r) /\ i < 1024) /\
  Forall2 (fun i e =>
    (i = 3 -> e = DAccept (rd_accept r)) /\ (i = 4 -> e = DBus (rd_bus r)) /\
    (i <> 3 -> i <> 4 -> e = DClient i (rd_text r i) (rd_around r i))) fds es.

(** What can come out of select() and of the calls after it, when [conn] are
    connected: only watched descriptors are ready, a new client gets the lowest
    free descriptor, no read() returns more than was asked for. *)
Definition round_ok (conn : list Z) (r : round) : Prop :=
  incl (rd_ready r) (3 :: 4 :: conn) /\
  (In 3 (rd_ready r) -> lowest_free conn (rd_accept r)) /\
  octets (rd_bus r) /\ zlen (rd_bus r) <= 56 /\
  (forall i, octets (rd_text r i) /\ zlen (rd_text r i) <= 113 /\
             is_octet (ar_before (rd_around r i)) /\ octets (ar_behind (rd_around r i))).
(** A history of rounds and its events, when [conn] are connected at its start. *)
Inductive history : list Z -> list round -> list devent -> Prop :=
| history_nil conn : history conn [] []
| history_cons conn r es rs es' : round_ok conn r -> handled r es ->
    history (fold_left connect1 es conn) rs es' -> history conn (r :: rs) (es ++ es').
(** Never more than [n] clients are connected at a time. *)
Definition at_most (n : Z) (es : list devent) : Prop :=
  forall es1 es2, es = es1 ++ es2 -> zlen (connected es1) <= n.
