(** Specification vocabulary for C108: decoding when a table is missing. *)
From Coq Require Import String ZArith List Bool.
From Verif Require Import Py Address Dpt Tables State SpecTables SpecDecode Props_Decode.
Import ListNotations.
Open Scope Z_scope.

(** The same state with other tables, or without them. *)
Definition supplied (a : option assoc_table) (g : option gobj_table) (st : state) : state :=
  mkstate (st_medium st) a g (st_ldata st) (st_asap st) (st_apci st) (st_address_type st)
    (st_remote st) (st_local st) (st_channel st).

(** A telegram for which the datapoint types are looked up: plain data for a
    listed group address that reads, answers or writes. *)
Definition looks_up (s : assoc_table) (t : telegram) : Prop :=
  group_telegram t /\ In (t_dst t) (vals (at_addrs (as_table s))) /\ group_service t <> None.
