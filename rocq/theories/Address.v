(** Model of knx_stack/address.py. *)
From Coq Require Import ZArith List Bool NArith.
From Verif Require Import Py.
Open Scope Z_scope.

(** address.py 19-33 Address and 48-80 GroupAddress: a union over a c_uint16.
    [a_ref] is the identity of the Python object (compared by [is]), [a_val]
    the 16-bit number.  Address and GroupAddress objects compare equal across
    the two classes, so the class is not recorded.  Assignments to the fields
    of an address object that a table holds are modelled in Mutate.v. *)
Record address := mkaddr { a_ref : N; a_val : Z }.

(** address.py 38-42 / 92-96 __eq__ (and 44-45 / 98-99 __hash__). *)
Definition addr_eqb (a b : address) : bool := a_val a =? a_val b.
(** Python [is]; one object has one number. Used in
    definition/layer/transport/association_table.py 188. *)
Definition addr_is (a b : address) : bool := N.eqb (a_ref a) (a_ref b) && (a_val a =? a_val b).

(** [Address(v)] / [GroupAddress(free_style=v)]: address.py 31-33, 76-77. *)
Definition free_style (v : Z) : Z := cuint 16 v.

(** address.py 12-16 TwoLevelStyle: sub 11 | main 5. *)
Definition two_level (main sub : Z) : Z := set (set 0 11 5 main) 0 11 sub.
Definition two_main (v : Z) : Z := get v 11 5.
Definition two_sub (v : Z) : Z := get v 0 11.

(** address.py 4-9 ThreeLevelStyle: sub 8 | middle 3 | main 5. *)
Definition three_level (main middle sub : Z) : Z :=
  set (set (set 0 11 5 main) 8 3 middle) 0 8 sub.
Definition three_main (v : Z) : Z := get v 11 5.
Definition three_middle (v : Z) : Z := get v 8 3.
Definition three_sub (v : Z) : Z := get v 0 8.
