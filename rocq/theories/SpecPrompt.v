(** The tunnelling client in time (C93).  Times are in milliseconds. *)
From Coq Require Import ZArith List.
From Verif Require Import Py Encode Client ClientTime.
Import ListNotations.
Open Scope Z_scope.

(** The client, the time of what happened last and when the writer's sleep ends. *)
Record clocked := mkclocked { ck_client : client; ck_now : Z; ck_wake : Z }.
Definition ck_step (x : clocked) (e : Z * event) : clocked :=
  let c := fst (client_step (ck_client x) (snd e)) in
  mkclocked c (fst e)
    match snd e with EvWriter => fst e + pause (c_writer c) | _ => ck_wake x end.
Definition ck_run (x : clocked) (es : list (Z * event)) : clocked := fold_left ck_step es x.

Definition ended (w : writer) : Prop :=
  match w with WWait _ | WSend _ => False | WStopped | WDead _ => True end.
(** The event loop is never more than [late] behind: the writer's turn comes when
    its sleep is over, and nothing else happens once it has been over for longer
    than that. *)
Definition in_time (late : Z) (x : clocked) (e : Z * event) : Prop :=
  ck_now x <= fst e /\
  (snd e = EvWriter -> ck_wake x <= fst e) /\
  (ended (c_writer (ck_client x)) \/ fst e <= ck_wake x + late).
Fixpoint prompt (late : Z) (x : clocked) (es : list (Z * event)) : Prop :=
  match es with
  | [] => True
  | e :: r => in_time late x e /\ prompt late (ck_step x e) r
  end.
(** The client is made at time [t0]; the writer is due at once. *)
Definition ck_start (c : client) (t0 : Z) : clocked := mkclocked c t0 t0.
