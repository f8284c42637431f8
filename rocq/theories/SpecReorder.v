(** A network that loses, repeats and reorders datagrams (C117): the system of
    SpecSystem.v, in which any datagram under way may also overtake all others. *)
From Coq Require Import ZArith List.
From Verif Require Import Py Msg State Decode Client SpecMsg SpecWire SpecDecode SpecClient SpecSystem.
Import ListNotations.
Open Scope Z_scope.

(** What was possible before, and datagram number [n] of a direction passing those
    in front of it. *)
Inductive turbulence :=
| Usual (h : happening)
| Overtake_down (n : nat)
| Overtake_up (n : nat).

Definition overtake {A} (n : nat) (l : list A) : list A := firstn 1 (skipn n l) ++ lose n l.

Definition ry_step (frame : Z -> list Z) (s : system) (t : turbulence) : system :=
  match t with
  | Usual h => sy_step frame s h
  | Overtake_down n => mksys (sy_gw s) (sy_client s) (overtake n (sy_down s)) (sy_up s) (sy_log s)
  | Overtake_up n => mksys (sy_gw s) (sy_client s) (sy_down s) (overtake n (sy_up s)) (sy_log s)
  end.
Definition ry_run (frame : Z -> list Z) (s : system) (ts : list turbulence) : system :=
  fold_left (ry_step frame) ts s.

(** The writer takes a turn only when everything written has been acknowledged. *)
Fixpoint ry_paced (frame : Z -> list Z) (s : system) (ts : list turbulence) : Prop :=
  match ts with
  | [] => True
  | t :: r =>
      (t = Usual Turn -> st_local (c_state (sy_client s)) = zlen (written s) mod 256) /\
      ry_paced frame (ry_step frame s t) r
  end.
