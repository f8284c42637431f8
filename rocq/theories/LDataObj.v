(** Assignments to the properties of an L_Data object
    (knx_stack/definition/layer/link/ldata.py). *)
From Coq Require Import ZArith List Bool.
From Verif Require Import Py Msg LData.
Import ListNotations.
Open Scope Z_scope.

(** One assignment [ldata.property = value]. The setters of
    definition/layer/link/ldata.py 158-344. *)
Inductive assignment :=
| Set_source (v : Z) | Set_destination (v : Z) | Set_address_type (v : Z) | Set_connected (b : bool)
| Set_apci (v : Z) | Set_data (v : Z) | Set_nsdu (p : nsdu).
(** source 158-160 and destination 166-168 are c_uint16 fields (148-149);
    address_type 174-176, connected 185-190, apci 208-211, data 217-219,
    nsdu 296-344. *)
Definition ld_assign (l : ldata) (a : assignment) : ldata :=
  match a with
  | Set_source v => mkld (ld_apci l) (ld_tpci l) (ld_npdu_length l) (ld_destination l) (cuint 16 v) (ld_cntrl2 l) (ld_cntrl1 l)
  | Set_destination v => mkld (ld_apci l) (ld_tpci l) (ld_npdu_length l) (cuint 16 v) (ld_source l) (ld_cntrl2 l) (ld_cntrl1 l)
  | Set_address_type v => ld_set_address_type l v
  | Set_connected b => ld_set_connected l b
  | Set_apci v => ld_set_apci l v
  | Set_data v => ld_set_data l v
  | Set_nsdu p => ld_set_nsdu l p
  end.
(** One after the other. Assignments in a row, as in
    definition/layer/link/ldata.py 135-142. *)
Definition ld_assigns (l : ldata) (es : list assignment) : ldata := fold_left ld_assign es l.
