(** Specification vocabulary for C71: an address table that is used both
    through the association table and directly by the caller. *)
From Coq Require Import ZArith List Bool.
From Verif Require Import Py Address Dpt Tables SpecTables.
Import ListNotations.
Open Scope Z_scope.

(** A call on the association table, or on the address table it was given. *)
Inductive shared_call := Through (c : as_call) | Direct (c : at_call).
(** Perform the calls in order.  A call on the association table that raises
    ends the run; direct calls may raise or not. *)
Fixpoint shared_run (s : assoc_table) (h : list shared_call) : option assoc_table :=
  match h with
  | [] => Some s
  | Through c :: r => match as_do s c with (Ok _, s') => shared_run s' r | (Err _, _) => None end
  | Direct c :: r => shared_run (snd (as_direct s c)) r
  end.
(** The calls that went through the association table. *)
Definition through (h : list shared_call) : list as_call :=
  flat_map (fun c => match c with Through c => [c] | Direct _ => [] end) h.
