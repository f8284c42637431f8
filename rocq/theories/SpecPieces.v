(** Specification vocabulary for C84: what a client writes, and the pieces in
    which read() delivers it. *)
From Coq Require Import ZArith List Bool.
From Verif Require Import Py Daemon SpecMsg SpecDaemon.
Import ListNotations.
Open Scope Z_scope.

(** The packets written to the bus, in order. *)
Definition bus_packets (outs : list (list dout)) : list (list Z) :=
  flat_map (flat_map (fun x => match x with ToBus p => [p] | ToClient _ _ => [] end)) outs.
(** The deliveries from clients, other than ends of file. *)
Definition deliveries (es : list devent) : list devent :=
  filter (fun e => match e with DClient _ (_ :: _) _ => true | _ => false end) es.

(** What a piece of digits with or without the line feed stores at the start of
    the shared buffer: the octets of its own pairs when they come out even,
    otherwise nothing. *)
Inductive stores : list Z -> list Z -> Prop :=
| st_even digits q eol : denotes digits q -> eol = [] \/ eol = [10] -> stores (digits ++ eol) q
| st_odd digits c v q eol : denotes digits q -> hex_code c v -> eol = [] \/ eol = [10] ->
    stores (digits ++ [c] ++ eol) [].

(** The packets of a history in which every delivery is one line, given what the
    buffer holds at its beginning. *)
Inductive wires : list Z -> list devent -> list (list Z) -> Prop :=
| wires_nil b : wires b [] []
| wires_accept b fd es ps : wires b es ps -> wires b (DAccept fd :: es) ps
| wires_leave b fd u es ps : wires b es ps -> wires b (DClient fd [] u :: es) ps
| wires_bus b data es ps : wires (over data b) es ps -> wires b (DBus data :: es) ps
| wires_line b fd text o u es ps : denotes text o -> wires (over o b) es ps ->
    wires b (DClient fd (text ++ [10]) u :: es) (over o b :: ps).
