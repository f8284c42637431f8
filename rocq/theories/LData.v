(** Model of knx_stack/definition/layer/link/ldata.py and of
    definition/layer/application/a_property_value.py. *)
From Coq Require Import ZArith List Bool.
From Verif Require Import Py Msg.
Import ListNotations.
Open Scope Z_scope.

(** definition/layer/link/ldata.py 33-35 AddressType, 38-40 ConfirmFlag. *)
Definition AT_individual : Z := 0.
Definition AT_group : Z := 1.

(** definition/layer/link/ldata.py 43-52 NSDU. *)
Inductive nsdu :=
| T_Data_Broadcast_PDU | T_Data_Group_PDU | T_Data_Tag_Group_PDU
| T_Data_Individual_PDU | T_Data_Connected_PDU | T_Connect_PDU
| T_Disconnect_PDU | T_ACK_PDU | T_NACK_PDU.

(** definition/layer/link/ldata.py 144-152: the fields of an L_Data structure. *)
Record ldata := mkld {
  ld_apci : Z;
  ld_tpci : Z;
  ld_npdu_length : Z;
  ld_destination : Z;
  ld_source : Z;
  ld_cntrl2 : Z;
  ld_cntrl1 : Z
}.

(** definition/layer/link/ldata.py 131-142: a new L_Data.  Cntrl1 (55-65): confirm 1 | ack request 1 |
    priority 2 | system broadcast 1 | repeat 1 | padding 1 | frame type 1;
    Cntrl2 (73-79): extended format 4 | hop count 3 | address type 1. *)
Definition ld_new : ldata :=
  let c1 := set 0 1 1 1 in      (* acknowledge_request_flag = yes *)
  let c1 := set c1 2 2 1 in     (* priority = normal *)
  let c1 := set c1 5 1 0 in     (* repeat_flag = repeat_on_error *)
  let c1 := set c1 7 1 1 in     (* frame_type_flag = standard *)
  let c1 := set c1 4 1 1 in     (* system_broadcast = broadcast *)
  let c2 := set 0 4 3 6 in      (* hop_count = 6 *)
  mkld 0 0 0 0 0 c2 c1.

(** definition/layer/link/ldata.py 170-172 address_type getter and 174-176 setter. *)
Definition ld_address_type (l : ldata) : Z := get (ld_cntrl2 l) 7 1.
Definition ld_set_address_type (l : ldata) (v : Z) : ldata :=
  mkld (ld_apci l) (ld_tpci l) (ld_npdu_length l) (ld_destination l) (ld_source l)
       (set (ld_cntrl2 l) 7 1 v) (ld_cntrl1 l).

(** Assignment of the TPCI / APCI octets. definition/layer/link/ldata.py
    188-190, 210 and 296-344. *)
Definition ld_with_tpci (l : ldata) (v : Z) : ldata :=
  mkld (ld_apci l) v (ld_npdu_length l) (ld_destination l) (ld_source l)
       (ld_cntrl2 l) (ld_cntrl1 l).
(** definition/layer/link/ldata.py 211 and 219. *)
Definition ld_with_apci (l : ldata) (v : Z) : ldata :=
  mkld v (ld_tpci l) (ld_npdu_length l) (ld_destination l) (ld_source l)
       (ld_cntrl2 l) (ld_cntrl1 l).

(** TPCI bits, ldata.py 87-94: ack_nack 2 | sequence_number 4 | numbered 1 |
    control_flag 1. *)
Definition tp_ack_nack (t : Z) : Z := get t 0 2.
Definition tp_sequence (t : Z) : Z := get t 2 4.
Definition tp_numbered (t : Z) : Z := get t 6 1.
Definition tp_control (t : Z) : Z := get t 7 1.

(** definition/layer/link/ldata.py 178-183 connected getter, 185-190 setter. *)
Definition ld_connected (l : ldata) : bool := negb (tp_control (ld_tpci l) =? 0).
Definition ld_set_connected (l : ldata) (b : bool) : ldata :=
  ld_with_tpci l (set (ld_tpci l) 7 1 (if b then 1 else 0)).

(** definition/layer/link/ldata.py 192-194 status (ConfirmFlag ok = 0, ko = 1). *)
Definition ld_status (l : ldata) : Z := get (ld_cntrl1 l) 0 1.

(** definition/layer/link/ldata.py 196-198 apci getter: the ten APCI bits. *)
Definition ld_full_apci (l : ldata) : Z :=
  Z.shiftl (tp_ack_nack (ld_tpci l)) 8 + ld_apci l.
(** definition/layer/link/ldata.py 208-211 apci setter. *)
Definition ld_set_apci (l : ldata) (v : Z) : ldata :=
  let l := ld_with_tpci l (set (ld_tpci l) 0 2 (Z.shiftr v 8)) in
  ld_with_apci l (cuint 8 v).

(** definition/layer/link/ldata.py 213-215 data getter (APCI bits 102-104: data 6 | apci 2) and
    217-219 setter. *)
Definition ld_data (l : ldata) : Z := get (ld_apci l) 0 6.
Definition ld_set_data (l : ldata) (v : Z) : ldata := ld_with_apci l (set (ld_apci l) 0 6 v).

(** definition/layer/link/ldata.py 221-294 nsdu getter, branch by branch. *)
Definition ld_nsdu (l : ldata) : option nsdu :=
  let at_ := ld_address_type l in
  let t := ld_tpci l in
  let d := ld_destination l in
  if (at_ =? AT_group) && (tp_control t =? 0) && (tp_numbered t =? 0)
     && (tp_sequence t =? 0) && (d =? 0) then Some T_Data_Broadcast_PDU
  else if (at_ =? AT_group) && (tp_control t =? 0) && (tp_numbered t =? 0)
     && (tp_sequence t =? 0) && negb (d =? 0) then Some T_Data_Group_PDU
  else if (at_ =? AT_group) && (tp_control t =? 0) && (tp_numbered t =? 0)
     && (tp_sequence t =? 1) then Some T_Data_Tag_Group_PDU
  else if (at_ =? AT_individual) && (tp_control t =? 0) && (tp_numbered t =? 0)
     && (tp_sequence t =? 0) then Some T_Data_Individual_PDU
  else if (at_ =? AT_individual) && (tp_control t =? 0) && (tp_numbered t =? 1)
     then Some T_Data_Connected_PDU
  else if (at_ =? AT_individual) && (tp_control t =? 1) && (tp_numbered t =? 0)
     then Some T_Data_Connected_PDU
  else if (at_ =? AT_individual) && (tp_control t =? 1) && (tp_numbered t =? 0)
     && (tp_ack_nack t =? 0) then Some T_Connect_PDU
  else if (at_ =? AT_individual) && (tp_control t =? 1) && (tp_numbered t =? 0)
     && (tp_ack_nack t =? 1) then Some T_Disconnect_PDU
  else if (at_ =? AT_individual) && (tp_control t =? 1) && (tp_numbered t =? 1)
     && (tp_ack_nack t =? 2) then Some T_ACK_PDU
  else if (at_ =? AT_individual) && (tp_control t =? 1) && (tp_numbered t =? 1)
     && (tp_ack_nack t =? 3) then Some T_NACK_PDU
  else None.

(** definition/layer/link/ldata.py 296-344 nsdu setter (the second T_Data_Connected branch of 322-324
    is unreachable). *)
Definition ld_set_nsdu (l : ldata) (p : nsdu) : ldata :=
  let tpci ctl num := set (set (ld_tpci l) 7 1 ctl) 6 1 num in
  ld_with_tpci l
    match p with
    | T_Data_Broadcast_PDU => set (tpci 0 0) 2 4 0
    | T_Data_Group_PDU => set (tpci 0 0) 2 4 0
    | T_Data_Tag_Group_PDU => set (tpci 0 0) 2 4 1
    | T_Data_Individual_PDU => set (tpci 0 0) 2 4 0
    | T_Data_Connected_PDU => tpci 0 1
    | T_Connect_PDU => set (tpci 1 0) 0 2 0
    | T_Disconnect_PDU => set (tpci 1 0) 0 2 1
    | T_ACK_PDU => set (tpci 1 1) 0 2 2
    | T_NACK_PDU => set (tpci 1 1) 0 2 3
    end.

(** definition/layer/link/ldata.py 346-369 make_from. *)
Definition ld_make_from (m : msg) : res (ldata * msg) :=
  do (cntrl1, body) <- octect m;
  do (cntrl2, body) <- octect body;
  do (source, body) <- short body;
  do (destination, body) <- short body;
  do (npdu_length, body) <- octect body;
  do (tpci, body) <- octect body;
  do (apci, body) <- octect body;
  Ok (mkld apci tpci npdu_length destination source cntrl2 cntrl1,
      match body with [] => [apci] | _ => body end).

(** a_property_value.py 4-11, 29: start_index 12 | number_of_elements 4 |
    property_id 8 | object_index 8. *)
Definition ph_start_index (h : Z) : Z := get h 0 12.
Definition ph_number_of_elements (h : Z) : Z := get h 12 4.
Definition ph_property_id (h : Z) : Z := get h 16 8.
Definition ph_object_index (h : Z) : Z := get h 24 8.
(** The assignments of encode/layer/application/a_property_value_read/req.py
    28-32 and a_property_value_write/req.py 30-34. *)
Definition ph_make (object_index property_id number_of_elements start_index : Z) : Z :=
  set (set (set (set 0 24 8 object_index) 16 8 property_id) 12 4 number_of_elements)
      0 12 start_index.
