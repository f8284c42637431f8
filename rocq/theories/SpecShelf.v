(** Specification vocabulary for the address objects of an address table (C04). *)
From Coq Require Import ZArith List Bool.
From Verif Require Import Py Address Tables SpecTables.
Import ListNotations.
Open Scope Z_scope.

(** The objects that have number [v], in their order. *)
Definition numbered (v : Z) (l : list address) : list address := filter (fun a => a_val a =? v) l.

(** A shelf with a compartment for each number: objects are put in at the back and
    taken out at the front. *)
Record shelf := mkshelf { sh_own : Z; sh_count : Z; sh_at : Z -> list address }.
Definition with_at (q : Z -> list address) (v : Z) (l : list address) : Z -> list address :=
  fun w => if w =? v then l else q w.
Definition shelf_new (ia : address) (addrs : list address) : shelf :=
  mkshelf (a_val ia) (zlen addrs) (fun v => numbered v addrs).
(** A call on a table for [max] addresses; one that raises changes nothing. *)
Definition shelf_do (max : Z) (s : shelf) (c : at_call) : res unit * shelf :=
  match c with
  | AtAdd a =>
      let l := sh_at s (a_val a) in
      if (a_val a =? sh_own s) && negb (match l with [] => true | _ => false end) then (Ok tt, s)
      else if max <=? sh_count s then (Err AddressTableException, s)
      else (Ok tt, mkshelf (sh_own s) (sh_count s + 1) (with_at (sh_at s) (a_val a) (l ++ [a])))
  | AtRemove a =>
      match sh_at s (a_val a) with
      | [] => (Err ValueError, s)
      | _ :: l => (Ok tt, mkshelf (sh_own s) (sh_count s - 1) (with_at (sh_at s) (a_val a) l))
      end
  | AtSetIA a => (Ok tt, mkshelf (a_val a) (sh_count s) (sh_at s))
  end.
Fixpoint shelf_run (max : Z) (s : shelf) (h : list at_call) : list (res unit) * shelf :=
  match h with
  | [] => ([], s)
  | c :: r =>
      let '(o, s1) := shelf_do max s c in
      let '(os, s2) := shelf_run max s1 r in
      (o :: os, s2)
  end.
(** The same calls on the table. *)
Fixpoint at_run (t : address_table) (h : list at_call) : list (res unit) * address_table :=
  match h with
  | [] => ([], t)
  | c :: r =>
      let '(o, t1) := at_do t c in
      let '(os, t2) := at_run t1 r in
      (o :: os, t2)
  end.
