(** Specification vocabulary for C105: what of a State and an L_Data object its
    text shows. *)
From Coq Require Import String Ascii ZArith List Bool NArith.
From Verif Require Import Py Address Dpt Tables LData State SpecText.
Import ListNotations.
Open Scope Z_scope.

(** Source, destination, and whether the destination is a group address: the
    highest bit of the second control octet. *)
Definition shown_ldata (l : ldata) : Z * Z * bool := (ld_source l, ld_destination l, Z.odd (ld_cntrl2 l / 128)).
Definition shown_entries (g : gobj_table) : list ((Z * option string) * dpt_class) :=
  map (fun x => (seen_asap (fst x), snd x)) g.
(** Everything but the channel: medium, tables, link-layer data, ASAP, APCI,
    address type, counters. *)
Definition shown_state (is_group : N -> bool) (s : state) :=
  (st_medium s,
   option_map (fun t => (seen_associations is_group t, seen_table is_group (as_table t))) (st_assoc s),
   option_map shown_entries (st_gobj s),
   option_map shown_ldata (st_ldata s),
   option_map seen_asap (st_asap s), st_apci s, st_address_type s, (st_remote s, st_local s)).

(** Names of one line, addresses of 16 bits, an address type that is one. *)
Definition presentable (s : state) : Prop :=
  (forall t, st_assoc s = Some t -> one_line_names (map fst (as_addresses t)) /\ table_sixteen (as_table t) /\
     Forall (fun e => Forall sixteen_bits (snd e)) (as_addresses t)) /\
  (forall g, st_gobj s = Some g -> one_line_names (map fst g)) /\
  (forall a, st_asap s = Some a -> one_line_names [a]) /\
  (forall v, st_address_type s = Some v -> v = 0 \/ v = 1).
