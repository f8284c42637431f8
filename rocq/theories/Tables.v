(** Models of the address table, the association table and the group object
    table. *)
From Coq Require Import String ZArith List Bool NArith.
From Verif Require Import Py Address Dpt.
Import ListNotations.
Open Scope Z_scope.

(** ** definition/layer/network/address_table.py *)

(** address_table.py 88-91. *)
Record address_table := mkat {
  at_max : Z;
  at_ia : address;
  at_addrs : list address
}.

(** [list.sort(key=free_style)] is stable: insertion sort that keeps equal
    keys in order. definition/layer/network/address_table.py 91, 143-145 and
    157. *)
Fixpoint insert_sorted (a : address) (l : list address) : list address :=
  match l with
  | [] => [a]
  | b :: r => if a_val a <? a_val b then a :: l else b :: insert_sorted a r
  end.
(** The sort of definition/layer/network/address_table.py 91, element by element. *)
Fixpoint sort_from (acc l : list address) : list address :=
  match l with
  | [] => acc
  | a :: r => sort_from (insert_sorted a acc) r
  end.
(** The sort of definition/layer/network/address_table.py 91. *)
Definition sort_addrs (l : list address) : list address := sort_from [] l.

(** address_table.py 77-91 __init__. *)
Definition at_new (ia : address) (addrs : list address) (max_size : Z) : address_table :=
  mkat max_size ia (sort_addrs addrs).

(** address_table.py 97-99 individual_address setter. *)
Definition at_set_ia (t : address_table) (ia : address) : address_table :=
  mkat (at_max t) ia (at_addrs t).

(** [address in list] by equality. definition/layer/network/address_table.py
    135. *)
Definition mem_addr (a : address) (l : list address) : bool := existsb (addr_eqb a) l.

(** address_table.py 105-107 tsaps. *)
Fixpoint zrange (from : Z) (n : nat) : list Z :=
  match n with O => [] | S n' => from :: zrange (from + 1) n' end.
Definition at_tsaps (t : address_table) : list Z := zrange 0 (S (length (at_addrs t))).

(** address_table.py 113-117 get_address.  [tsap] may be None because get_tsaps
    returns None for an address that left the table: [None >= 1] is TypeError. *)
Definition at_get_address (t : address_table) (tsap : option Z) : res address :=
  match tsap with
  | None => Err TypeError
  | Some n =>
      if 1 <=? n then
        match znth (n - 1) (at_addrs t) with
        | Some a => Ok a
        | None => Err IndexError
        end
      else Ok (at_ia t)
  end.

(** [list.index(a)]. definition/layer/network/address_table.py 121. *)
Fixpoint index_of (a : address) (l : list address) : option Z :=
  match l with
  | [] => None
  | b :: r => if addr_eqb b a then Some 0
              else match index_of a r with Some i => Some (i + 1) | None => None end
  end.

(** address_table.py 119-126 get_tsap. *)
Definition at_get_tsap (t : address_table) (a : address) : option Z :=
  match index_of a (at_addrs t) with
  | Some i => Some (i + 1)
  | None => if addr_eqb a (at_ia t) then Some 0 else None
  end.

(** address_table.py 128-147 add. *)
Definition at_add (a : address) (t : address_table) : res unit * address_table :=
  if negb (mem_addr a (at_addrs t)) || negb (addr_eqb a (at_ia t)) then
    if zlen (at_addrs t) >=? at_max t then (Err AddressTableException, t)
    else (Ok tt, mkat (at_max t) (at_ia t) (sort_addrs (at_addrs t ++ [a])))
  else (Ok tt, t).

(** [list.remove(a)]: first equal element, [None] stands for ValueError.
    definition/layer/network/address_table.py 156. *)
Fixpoint remove_first (a : address) (l : list address) : option (list address) :=
  match l with
  | [] => None
  | b :: r => if addr_eqb b a then Some r
              else match remove_first a r with Some r' => Some (b :: r') | None => None end
  end.

(** address_table.py 149-157 remove. *)
Definition at_remove (a : address) (t : address_table) : res unit * address_table :=
  match remove_first a (at_addrs t) with
  | None => (Err ValueError, t)
  | Some l => (Ok tt, mkat (at_max t) (at_ia t) (sort_addrs l))
  end.

(** ** definition/layer/transport/association_table.py *)

(** association_table.py 7-53 ASAP: equality and hash by value only. *)
Record asap := mkasap { asap_value : Z; asap_name : option string }.
Definition asap_eqb (a b : asap) : bool := asap_value a =? asap_value b.

(** association_table.py 122-124.  The address table is shared with the caller
    in Python; an operation the caller performs on it directly replaces
    [as_table] and nothing else ([as_direct] in SpecTables.v). *)
Record assoc_table := mkassoc {
  as_table : address_table;
  as_addresses : list (asap * list address);
  as_tsaps : list (option Z * list asap)
}.

(** association_table.py 173-180 _rebuild_tsap_asaps: one append. *)
Definition tsap_append (t : address_table) (a : asap) (m : list (option Z * list asap))
    (addr : address) : list (option Z * list asap) :=
  let tsap := at_get_tsap t addr in
  match dget oz_eqb tsap m with
  | None => dset oz_eqb tsap [a] m
  | Some l => dset oz_eqb tsap (l ++ [a]) m
  end.
Definition rebuild_tsaps (t : address_table) (d : list (asap * list address))
    : list (option Z * list asap) :=
  fold_left (fun m p => fold_left (tsap_append t (fst p)) (snd p) m) d [].

(** association_table.py 185-190: the insertion loop of associate; on an
    exception the addresses inserted so far stay. *)
Fixpoint assoc_insert (addrs : list address) (t : address_table) : res unit * address_table :=
  match addrs with
  | [] => (Ok tt, t)
  | a :: r =>
      if negb (mem_addr a (at_addrs t)) && negb (addr_is a (at_ia t)) then
        match at_add a t with
        | (Ok _, t') => assoc_insert r t'
        | (Err e, t') => (Err e, t')
        end
      else assoc_insert r t
  end.

(** association_table.py 192-195. *)
Definition asap_append (a : asap) (addrs : list address) (d : list (asap * list address))
    : list (asap * list address) :=
  match dget asap_eqb a d with
  | None => dset asap_eqb a addrs d
  | Some l => dset asap_eqb a (l ++ addrs) d
  end.

(** association_table.py 182-197 associate.  [addresses] is a list: Python
    iterates it twice, so a one-shot iterator would behave differently. *)
Definition associate (a : asap) (addrs : list address) (s : assoc_table)
    : res unit * assoc_table :=
  match assoc_insert addrs (as_table s) with
  | (Err e, t') => (Err e, mkassoc t' (as_addresses s) (as_tsaps s))
  | (Ok _, t') =>
      let d := asap_append a addrs (as_addresses s) in
      (Ok tt, mkassoc t' d (rebuild_tsaps t' d))
  end.

(** association_table.py 202-205: the loop of disassociate. *)
Fixpoint disassoc_loop (a : asap) (addrs : list address) (t : address_table)
    (d : list (asap * list address)) : res unit * (address_table * list (asap * list address)) :=
  match addrs with
  | [] => (Ok tt, (t, d))
  | x :: r =>
      let '(rm, t') := if negb (addr_eqb x (at_ia t)) then at_remove x t else (Ok tt, t) in
      match rm with
      | Err e => (Err e, (t', d))
      | Ok _ =>
          match dget asap_eqb a d with
          | None => (Err KeyError, (t', d))
          | Some l =>
              match remove_first x l with
              | None => (Err ValueError, (t', d))
              | Some l' => disassoc_loop a r t' (dset asap_eqb a l' d)
              end
          end
      end
  end.

(** association_table.py 199-207 disassociate. *)
Definition disassociate (a : asap) (addrs : list address) (s : assoc_table)
    : res unit * assoc_table :=
  match disassoc_loop a addrs (as_table s) (as_addresses s) with
  | (Err e, (t', d)) => (Err e, mkassoc t' d (as_tsaps s))
  | (Ok _, (t', d)) => (Ok tt, mkassoc t' d (rebuild_tsaps t' d))
  end.

(** association_table.py 125-130: the associations of the constructor, one
    call per Association; an exception leaves the constructor, i.e. there is no
    table object then. *)
Fixpoint assoc_init (l : list (asap * address)) (s : assoc_table) : res unit * assoc_table :=
  match l with
  | [] => (Ok tt, s)
  | (a, x) :: r =>
      match associate a [x] s with
      | (Ok _, s') => assoc_init r s'
      | (Err e, s') => (Err e, s')
      end
  end.

(** association_table.py 117-130 __init__. *)
Definition assoc_new (t : address_table) (l : list (asap * address)) : res assoc_table :=
  let s0 := mkassoc t [] [] in
  match associate (mkasap 0 (Some "individual address"%string)) [at_ia t] s0 with
  | (Err e, _) => Err e
  | (Ok _, s1) =>
      match assoc_init l s1 with
      | (Err e, _) => Err e
      | (Ok _, s2) => Ok s2
      end
  end.

(** association_table.py 132-134. *)
Definition as_individual_address (s : assoc_table) : address := at_ia (as_table s).
(** association_table.py 136-137 get_tsap. *)
Definition as_get_tsap (s : assoc_table) (a : address) : option Z := at_get_tsap (as_table s) a.
(** association_table.py 139-145 get_tsaps (the dictionary access raises
    KeyError before the filter of line 143 is evaluated). *)
Definition as_get_tsaps (s : assoc_table) (a : asap) : res (list (option Z)) :=
  match dget asap_eqb a (as_addresses s) with
  | None => Err KeyError
  | Some l => Ok (map (as_get_tsap s) l)
  end.
(** association_table.py 147-148 get_asaps. *)
Definition as_get_asaps (s : assoc_table) (tsap : option Z) : res (list asap) :=
  match dget oz_eqb tsap (as_tsaps s) with
  | None => Err KeyError
  | Some l => Ok l
  end.
(** association_table.py 150-154 get_asaps_from_address. *)
Definition as_get_asaps_from_address (s : assoc_table) (a : address) : res (list asap) :=
  as_get_asaps s (at_get_tsap (as_table s) a).
(** association_table.py 156-158 asaps. *)
Definition as_asaps (s : assoc_table) : list asap := map fst (as_addresses s).
(** association_table.py 160-165 get_free_asap_value. *)
Fixpoint free_from (e : Z) (keys : list asap) : Z :=
  match keys with
  | [] => e
  | k :: r => if negb (e =? asap_value k) then e else free_from (e + 1) r
  end.
Definition as_get_free_asap_value (s : assoc_table) : Z := free_from 0 (as_asaps s).
(** association_table.py 167-171 get_addresses. *)
Fixpoint addresses_of (t : address_table) (tsaps : list (option Z)) : res (list address) :=
  match tsaps with
  | [] => Ok []
  | x :: r => do a <- at_get_address t x; do l <- addresses_of t r; Ok (a :: l)
  end.
Definition as_get_addresses (s : assoc_table) (tsaps : list (option Z)) : res (list address) :=
  addresses_of (as_table s) tsaps.

(** ** definition/layer/application/groupobject_table.py *)

(** groupobject_table.py 23-27: a dictionary ASAP -> datapoint type class. *)
Definition gobj_table := list (asap * dpt_class).
(** groupobject_table.py 33-36 associate. *)
Definition go_associate (a : asap) (c : dpt_class) (g : gobj_table) : gobj_table :=
  dset asap_eqb a c g.
(** groupobject_table.py 38-39 disassociate. *)
Definition go_disassociate (a : asap) (g : gobj_table) : res unit * gobj_table :=
  match dget asap_eqb a g with
  | None => (Err KeyError, g)
  | Some _ => (Ok tt, ddel asap_eqb a g)
  end.
