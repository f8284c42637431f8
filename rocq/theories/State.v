(** Model of knx_stack/state.py and definition/knxnet_ip/state.py, and of the
    message classes of definition/. *)
From Coq Require Import String ZArith List Bool NArith.
From Verif Require Import Py Msg Address Dpt Tables LData.
Import ListNotations.
Open Scope Z_scope.

(** state.py Medium. *)
Inductive medium := Tp | Usb_hid | Knxnet_ip.

(** state.py 57-73 and definition/knxnet_ip/state.py 4-15.  [st_channel] is the
    attribute _communication_channel_id: [None] when the object is a plain
    knx_stack.State that never got one (reading it is AttributeError). *)
Record state := mkstate {
  st_medium : medium;
  st_assoc : option assoc_table;
  st_gobj : option gobj_table;
  st_ldata : option ldata;
  st_asap : option asap;
  st_apci : option Z;
  st_address_type : option Z;
  st_remote : Z;
  st_local : Z;
  st_channel : option Z
}.

(** state.py 57-73 State(medium, association_table, groupobject_table). *)
Definition state_new (m : medium) (a : option assoc_table) (g : option gobj_table) : state :=
  mkstate m a g None None None None 0 0 None.
(** definition/knxnet_ip/state.py 5-7 knxnet_ip.State. *)
Definition netip_state_new (m : medium) (a : option assoc_table) (g : option gobj_table) : state :=
  mkstate m a g None None None None 0 0 (Some 0).

(** Property setters, state.py 111-113, 119-121, 127-129, 135-137. *)
Definition st_set_ldata (l : ldata) (s : state) : state :=
  mkstate (st_medium s) (st_assoc s) (st_gobj s) (Some l) (st_asap s) (st_apci s)
          (st_address_type s) (st_remote s) (st_local s) (st_channel s).
Definition st_set_asap (a : asap) (s : state) : state :=
  mkstate (st_medium s) (st_assoc s) (st_gobj s) (st_ldata s) (Some a) (st_apci s)
          (st_address_type s) (st_remote s) (st_local s) (st_channel s).
Definition st_set_apci (v : Z) (s : state) : state :=
  mkstate (st_medium s) (st_assoc s) (st_gobj s) (st_ldata s) (st_asap s) (Some v)
          (st_address_type s) (st_remote s) (st_local s) (st_channel s).
Definition st_set_address_type (v : Z) (s : state) : state :=
  mkstate (st_medium s) (st_assoc s) (st_gobj s) (st_ldata s) (st_asap s) (st_apci s)
          (Some v) (st_remote s) (st_local s) (st_channel s).
(** state.py 143-145 and 151-153: counters modulo 256. *)
Definition st_set_remote (v : Z) (s : state) : state :=
  mkstate (st_medium s) (st_assoc s) (st_gobj s) (st_ldata s) (st_asap s) (st_apci s)
          (st_address_type s) (v mod 256) (st_local s) (st_channel s).
Definition st_set_local (v : Z) (s : state) : state :=
  mkstate (st_medium s) (st_assoc s) (st_gobj s) (st_ldata s) (st_asap s) (st_apci s)
          (st_address_type s) (st_remote s) (v mod 256) (st_channel s).
(** definition/knxnet_ip/state.py 13-15; on a plain State it creates the
    attribute. *)
Definition st_set_channel (v : Z) (s : state) : state :=
  mkstate (st_medium s) (st_assoc s) (st_gobj s) (st_ldata s) (st_asap s) (st_apci s)
          (st_address_type s) (st_remote s) (st_local s) (Some v).

(** Access to a table that is None is AttributeError. state.py 157, 160, 164,
    170, 176, 180 and 183. *)
Definition need {A} (o : option A) : res A :=
  match o with Some a => Ok a | None => Err AttributeError end.

(** state.py 155-157 individual_address. *)
Definition st_individual_address (s : state) : res address :=
  do t <- need (st_assoc s); Ok (as_individual_address t).

(** state.py 159-160 get_tsap.  The fresh Address object has an identity of its
    own, irrelevant here because get_tsap compares by value. *)
Definition st_get_tsap (s : state) : res (option Z) :=
  do t <- need (st_assoc s);
  do l <- need (st_ldata s);
  Ok (as_get_tsap t (mkaddr 0 (free_style (ld_destination l)))).

(** state.py 162-164 get_asaps. *)
Definition st_get_asaps (s : state) : res (list asap) :=
  do tsap <- st_get_tsap s;
  do t <- need (st_assoc s);
  as_get_asaps t tsap.

(** state.py 166-173 get_asaps_and_dpts. *)
Definition st_get_asaps_and_dpts (s : state) : res (list (asap * dpt_class)) :=
  do asaps <- st_get_asaps s;
  do g <- need (st_gobj s);
  Ok (filter (fun p => existsb (asap_eqb (fst p)) asaps) g).

(** state.py 175-176 get_tsaps.  encode sets the ASAP before, so that a state
    without one (None as key: KeyError) does not occur. *)
Definition st_get_tsaps (s : state) : res (list (option Z)) :=
  do t <- need (st_assoc s);
  match st_asap s with
  | None => Err KeyError
  | Some a => as_get_tsaps t a
  end.

(** state.py 178-180 get_addresses. *)
Definition st_get_addresses (s : state) : res (list address) :=
  do tsaps <- st_get_tsaps s;
  do t <- need (st_assoc s);
  as_get_addresses t tsaps.

(** state.py 182-183 get_dpt. *)
Definition st_get_dpt (s : state) : res dpt_class :=
  do g <- need (st_gobj s);
  match st_asap s with
  | None => Err KeyError
  | Some a => match dget asap_eqb a g with Some c => Ok c | None => Err KeyError end
  end.

(** ** Message objects: the NamedTuples of definition/**/{req,ind,con,res,ack}.py,
    and ConnectionStatus/EMIType of decode/.../feature_identifier.py 6-11.
    [data] of a property request is text, of an indication/confirmation a Msg. *)
Inductive message :=
(* definition/knxnet_ip/core *)
| MConnectReq (caddr : string) (cport : Z) (daddr : string) (dport : Z)
| MConnectRes (ip : string) (port : Z) (ia : option Z) (status : Z)
| MConnectionstateReq (caddr : string) (cport : Z)
| MConnectionstateRes (status : Z)
| MDisconnectReq (caddr : string) (cport : Z)
| MDisconnectRes (channel : Z) (status : Z)
| MSearchReq (addr : string) (port : Z)
| MSearchRes (ip : string) (port : Z) (ia : Z)
(* definition/knxnet_ip/tunneling *)
| MTunnelingReq (seq : Z) (status : Z)
| MTunnelingAck (seq : Z) (status : Z)
(* definition/layer/application *)
| MGroupValueReadReq (a : asap)
| MGroupValueReadInd (a : asap) (d : dpt)
| MGroupValueReadCon (a : asap) (d : dpt) (status : Z)
| MGroupValueResponseInd (a : asap) (d : dpt)
| MGroupValueResponseCon (a : asap) (d : dpt) (status : Z)
| MGroupValueWriteReq (a : asap) (d : dpt)
| MGroupValueWriteInd (a : asap) (d : dpt)
| MGroupValueWriteCon (a : asap) (d : dpt) (status : Z)
| MPropertyValueReadReq (a : asap) (oi pid ne si : Z)
| MPropertyValueReadInd (a : asap) (oi pid ne si : Z)
| MPropertyValueReadCon (a : asap) (oi pid ne si : Z) (status : Z)
| MPropertyValueResponseInd (a : asap) (oi pid ne si : Z) (data : msg)
| MPropertyValueResponseCon (a : asap) (oi pid ne si : Z) (data : msg) (status : Z)
| MPropertyValueWriteReq (a : asap) (oi pid ne si : Z) (data : string)
| MPropertyValueWriteInd (a : asap) (oi pid ne si : Z) (data : msg)
| MPropertyValueWriteCon (a : asap) (oi pid ne si : Z) (data : msg) (status : Z)
(* decode/usb_hid/.../feature_identifier.py *)
| MConnectionStatus (s : string)
| MEMIType (s : string).

(** Formatting a message ([__repr__] of the NamedTuples) raises only when it
    formats a datapoint whose description raises. client/knxnet_ip.py 129 and
    141 and client/usbhid.py 82 and 91 format messages; datapointtypes.py
    100-102. *)
Definition message_repr (m : message) : res unit :=
  match m with
  | MGroupValueReadInd _ d | MGroupValueReadCon _ d _
  | MGroupValueResponseInd _ d | MGroupValueResponseCon _ d _
  | MGroupValueWriteReq _ d | MGroupValueWriteInd _ d | MGroupValueWriteCon _ d _ => dpt_repr d
  | _ => Ok tt
  end.
