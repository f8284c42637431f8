(** Specification vocabulary for C114: what becomes of the messages of a client
    that waits out each exchange, when the network loses some of the datagrams. *)
From Coq Require Import ZArith List Bool.
From Verif Require Import SpecSystem.
Import ListNotations.
Open Scope Z_scope.

(** The fate of a message: its request and the acknowledgement arrive; the request
    is lost; the acknowledgement is lost; the network doubles the request.  Between
    messages a telegram of the bus may be exchanged. *)
Inductive fate := Fine | Ask_lost | Answer_lost | Twice | From_bus.
Definition course (f : fate) : list happening :=
  match f with
  | Fine => [Turn; Arrive_up; Arrive_down]
  | Ask_lost => [Turn; Lose_up 0]
  | Answer_lost => [Turn; Arrive_up; Lose_down 0]
  | Twice => [Turn; Repeat_up 0; Arrive_up; Arrive_up; Arrive_down; Arrive_down]
  | From_bus => [Transmit; Arrive_down; Arrive_up]
  end.
Definition courses (fs : list fate) : list happening := flat_map course fs.
Definition count (p : fate -> bool) (fs : list fate) : Z := Z.of_nat (length (filter p fs)).
Definition of_message (f : fate) : bool := match f with From_bus => false | _ => true end.
Definition of_bus (f : fate) : bool := match f with From_bus => true | _ => false end.
(** The client has seen an acknowledgement. *)
Definition confirmed (f : fate) : bool := match f with Fine | Twice => true | _ => false end.

(** The client lags when the gateway has taken a message whose acknowledgement the
    client has not seen.  A lost answer makes it lag, the next answer ends that. *)
Definition lags_after (lag : bool) (f : fate) : bool :=
  match f with
  | Answer_lost => true
  | Fine | Twice => false
  | Ask_lost | From_bus => lag
  end.
(** The messages that reach the bus: those whose request arrives while the client
    does not lag. *)
Fixpoint arriving (lag : bool) (fs : list fate) (messages : list (list Z)) : list (list Z) :=
  match fs with
  | [] => []
  | From_bus :: r => arriving lag r messages
  | f :: r =>
      match messages with
      | [] => []
      | m :: q =>
          (if lag then [] else match f with Ask_lost => [] | _ => [m] end) ++ arriving (lags_after lag f) r q
      end
  end.
(** Nothing is under way, the telegrams of the bus have been taken and
    acknowledged, and the counters say whether the client lags. *)
Definition at_rest (lag : bool) (s : system) (counter : Z) : Prop :=
  sy_down s = [] /\ sy_up s = [] /\ client_taken s = gw_sent (sy_gw s) /\
  counter = (gw_taken (sy_gw s) - if lag then 1 else 0) mod 256.
