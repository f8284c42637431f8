(** Model of assignments to the fields of an address object that tables hold. *)
From Coq Require Import ZArith List Bool NArith.
From Verif Require Import Py Address Tables.
Import ListNotations.
Open Scope Z_scope.

(** The assignable fields: address.py 31-33 and 76-80 [free_style] (the only
    one an Address has), 12-16 two_level_style.main/.sub, 4-9
    three_level_style.main/.middle/.sub. *)
Inductive field := FreeStyle | TwoMain | TwoSub | ThreeMain | ThreeMiddle | ThreeSub.
(** The number of an object after [object.field = x], [v] being its number
    before: ctypes keeps the low bits of [x] that fit the field. The setters and
    fields of definition/layer/link/ldata.py 144-219 and msg.py 89-90. *)
Definition stored (f : field) (x v : Z) : Z :=
  match f with
  | FreeStyle => cuint 16 x
  | TwoMain => set v 11 5 x
  | TwoSub => set v 0 11 x
  | ThreeMain => set v 11 5 x
  | ThreeMiddle => set v 8 3 x
  | ThreeSub => set v 0 8 x
  end.

(** One object is held in several places: the individual address
    (address_table.py 89), the list of group addresses (90) and the lists of the
    ASAPs (association_table.py 194-195).  None of the tables is told. *)
Definition store1 (r : N) (f : field) (x : Z) (a : address) : address :=
  if N.eqb (a_ref a) r then mkaddr (a_ref a) (stored f x (a_val a)) else a.
Definition at_store (r : N) (f : field) (x : Z) (t : address_table) : address_table :=
  mkat (at_max t) (store1 r f x (at_ia t)) (map (store1 r f x) (at_addrs t)).
Definition as_store (r : N) (f : field) (x : Z) (s : assoc_table) : assoc_table :=
  mkassoc (at_store r f x (as_table s))
          (map (fun p => (fst p, map (store1 r f x) (snd p))) (as_addresses s))
          (as_tsaps s).

(** ** Calls that are given the table's own list

    address_table.py 109-111: [addresses] returns the list itself, so
    [associations.associate(asap, table.addresses)] and
    [associations.disassociate(asap, table.addresses)] iterate over the list
    that the loop body changes.  A Python list iterator keeps an index and ends
    when the index reaches the length the list has at that time. *)

(** association_table.py 185-190 on the table's own list, from index [i]; [fuel]
    bounds the number of iterations (the caller gives more than can be used). *)
Fixpoint assoc_insert_live (fuel : nat) (i : nat) (t : address_table) : res unit * address_table :=
  match fuel with
  | O => (Ok tt, t)
  | S n =>
      match nth_error (at_addrs t) i with
      | None => (Ok tt, t)
      | Some x =>
          if negb (mem_addr x (at_addrs t)) && negb (addr_is x (at_ia t)) then
            match at_add x t with
            | (Ok _, t') => assoc_insert_live n (S i) t'
            | (Err e, t') => (Err e, t')
            end
          else assoc_insert_live n (S i) t
      end
  end.
(** association_table.py 182-197 associate(a, table.addresses); lines 194-195
    iterate the list again, while nothing changes it. *)
Definition associate_live (a : asap) (s : assoc_table) : res unit * assoc_table :=
  match assoc_insert_live (S (length (at_addrs (as_table s)))) 0 (as_table s) with
  | (Err e, t') => (Err e, mkassoc t' (as_addresses s) (as_tsaps s))
  | (Ok _, t') =>
      let d := asap_append a (at_addrs t') (as_addresses s) in
      (Ok tt, mkassoc t' d (rebuild_tsaps t' d))
  end.

(** association_table.py 202-205 on the table's own list, from index [i]. *)
Fixpoint disassoc_live_loop (fuel : nat) (a : asap) (i : nat) (t : address_table)
    (d : list (asap * list address)) : res unit * (address_table * list (asap * list address)) :=
  match fuel with
  | O => (Ok tt, (t, d))
  | S n =>
      match nth_error (at_addrs t) i with
      | None => (Ok tt, (t, d))
      | Some x =>
          let '(rm, t') := if negb (addr_eqb x (at_ia t)) then at_remove x t else (Ok tt, t) in
          match rm with
          | Err e => (Err e, (t', d))
          | Ok _ =>
              match dget asap_eqb a d with
              | None => (Err KeyError, (t', d))
              | Some l =>
                  match remove_first x l with
                  | None => (Err ValueError, (t', d))
                  | Some l' => disassoc_live_loop n a (S i) t' (dset asap_eqb a l' d)
                  end
              end
          end
      end
  end.
(** association_table.py 199-207 disassociate(a, table.addresses). *)
Definition disassociate_live (a : asap) (s : assoc_table) : res unit * assoc_table :=
  match disassoc_live_loop (S (length (at_addrs (as_table s)))) a 0 (as_table s) (as_addresses s) with
  | (Err e, (t', d)) => (Err e, mkassoc t' d (as_tsaps s))
  | (Ok _, (t', d)) => (Ok tt, mkassoc t' d (rebuild_tsaps t' d))
  end.
