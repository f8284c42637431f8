(** Text forms of messages and datapoint values: the __repr__ functions of
    definition/knxnet_ip/, definition/layer/application/ and datapointtypes.py,
    as they appear in logs. *)
From Coq Require Import String Ascii ZArith List Bool Permutation.
From Verif Require Import Py Msg Address Dpt Tables Inet State Text Float.
Import ListNotations.
Open Scope Z_scope.
Local Open Scope string_scope.

(** A value in the text of a dictionary.  [ft] is the text of a float, Python's
    repr(float). datapointtypes.py 102, 701-702 and 776-777. *)
Definition value_text (ft : float -> string) (v : pyval) : string :=
  match v with
  | VInt z => dec z
  | VName s => "'" ++ s ++ "'"
  | VFloat x => ft x
  end.
(** One entry of that dictionary, datapointtypes.py 102. *)
Definition entry_text (ft : float -> string) (e : string * pyval) : string :=
  "'" ++ fst e ++ "': " ++ value_text ft (snd e).
(** All its entries, datapointtypes.py 102. *)
Fixpoint entries_text (ft : float -> string) (l : list (string * pyval)) : string :=
  match l with
  | [] => ""
  | [e] => entry_text ft e
  | e :: r => entry_text ft e ++ ", " ++ entries_text ft r
  end.
(** datapointtypes.py 100-102 (class name and dictionary) and, for the float
    classes, 700-702 and 775-777 (with a colon).  The dictionary of line 73 is
    filled in the order of a set of strings, which differs from run to run:
    [t] is a text of [d] for some order. *)
Definition dpt_text (ft : float -> string) (d : dpt) (t : string) : Prop :=
  exists name fields order, describe d = Ok (name, fields) /\ Permutation fields order /\
  t = name ++ (if is_f16 (d_class d) || is_f32 (d_class d) then ": {" else " {") ++ entries_text ft order ++ "}".

(** The first word of a message's text. As in
    definition/layer/application/a_group_value_write/req.py 8-9. *)
Definition kind_text (m : message) : string :=
  match m with
  | MConnectReq _ _ _ _ => "ConnectReq"
  | MConnectRes _ _ _ _ => "ConnectRes"
  | MConnectionstateReq _ _ => "ConnectionstateReq"
  | MConnectionstateRes _ => "ConnectionstateRes"
  | MDisconnectReq _ _ => "DisconnectReq"
  | MDisconnectRes _ _ => "DisconnectRes"
  | MSearchReq _ _ => "SearchReq"
  | MSearchRes _ _ _ => "SearchRes"
  | MTunnelingReq _ _ => "TunnelingReq"
  | MTunnelingAck _ _ => "TunnelingAck"
  | MGroupValueReadReq _ => "GroupValueReadReq"
  | MGroupValueReadInd _ _ => "GroupValueReadInd"
  | MGroupValueReadCon _ _ _ => "GroupValueReadCon"
  | MGroupValueResponseInd _ _ => "GroupValueResponseInd"
  | MGroupValueResponseCon _ _ _ => "GroupValueResponseCon"
  | MGroupValueWriteReq _ _ => "GroupValueWriteReq"
  | MGroupValueWriteInd _ _ => "GroupValueWriteInd"
  | MGroupValueWriteCon _ _ _ => "GroupValueWriteCon"
  | MPropertyValueReadReq _ _ _ _ _ => "PropertyValueReadReq"
  | MPropertyValueReadInd _ _ _ _ _ => "PropertyValueReadInd"
  | MPropertyValueReadCon _ _ _ _ _ _ => "PropertyValueReadCon"
  | MPropertyValueResponseInd _ _ _ _ _ _ => "PropertyValueResponseInd"
  | MPropertyValueResponseCon _ _ _ _ _ _ _ => "PropertyValueResponseCon"
  | MPropertyValueWriteReq _ _ _ _ _ _ => "PropertyValueWriteReq"
  | MPropertyValueWriteInd _ _ _ _ _ _ => "PropertyValueWriteInd"
  | MPropertyValueWriteCon _ _ _ _ _ _ _ => "PropertyValueWriteCon"
  | MConnectionStatus _ => "ConnectionStatus"
  | MEMIType _ => "EMIType"
  end.
(** definitions.py 46-50 ErrorCodes, as repr(member) (req.py 8-11 of tunneling);
    other numbers are no members. *)
Definition error_name (z : Z) : string :=
  if (z =? 0)%Z then "E_NO_ERROR" else if (z =? 1)%Z then "E_HOST_PROTOCOL_TYPE"
  else if (z =? 2)%Z then "E_VERSION_NOT_SUPPORTED" else "E_SEQUENCE_NUMBER".
Definition error_repr (z : Z) : string := "<ErrorCodes." ++ error_name z ++ ": " ++ dec z ++ ">".
(** An individual address of a response, or None.
    definition/knxnet_ip/core/connect/res.py 18-21. *)
Definition ia_text (ia : option Z) : string :=
  match ia with Some v => individual_text v | None => "None" end.
(** a_group_value_*: the datapoint in parentheses with its ASAP; [dt] is the text
    of the datapoint. definition/layer/application/a_group_value_write/req.py
    8-9. *)
Definition group_part (dt : string) (a : asap) : string := " (" ++ dt ++ " for asap " ++ asap_text a ++ ")".
(** a_property_value_*: the position and the ASAP.
    definition/layer/application/a_property_value_read/req.py 11-21. *)
Definition property_part (a : asap) (oi pid ne si : Z) : string :=
  " (object index " ++ dec oi ++ ", property id " ++ dec pid ++ ", number of elements " ++ dec ne
  ++ ", start index " ++ dec si ++ " for asap " ++ asap_text a ++ ")".
(** definition/layer/application/a_property_value_read/con.py 12-23. *)
Definition status_part (st : Z) : string := " status " ++ dec st.
(** What follows the first word, with [dt] for the text of the datapoint.  Members
    of IntEnum are formatted as numbers. The __repr__ methods of
    definition/layer/application/*/*.py and definition/knxnet_ip/*/*/*.py, such
    as definition/knxnet_ip/core/connect/res.py 18-21. *)
Definition rest_text (dt : string) (m : message) : string :=
  match m with
  | MConnectReq ca cp da dp => " (control endpoint = " ++ ca ++ ":" ++ dec cp ++ " data endpoint " ++ da ++ ":" ++ dec dp ++ ")"
  | MConnectRes ip port ia st =>
      "(ip=" ++ ip ++ ", port=" ++ dec port ++ ", individual address=" ++ ia_text ia ++ ", status=" ++ dec st ++ ")"
  | MConnectionstateReq ca cp | MDisconnectReq ca cp => " (control endpoint = " ++ ca ++ ":" ++ dec cp ++ ")"
  | MConnectionstateRes st => "(status=" ++ dec st ++ ")"
  | MDisconnectRes ch st => "(communication_channel_id=" ++ dec ch ++ ", status=" ++ dec st ++ ")"
  | MSearchReq a p => " (" ++ a ++ ":" ++ dec p ++ ")"
  | MSearchRes ip port ia => "(ip=" ++ ip ++ ", port=" ++ dec port ++ ", individual address=" ++ short_text ia ++ ")"
  | MTunnelingReq seq st => "(sequence counter=" ++ dec seq ++ ", status=" ++ error_repr st ++ ")"
  | MTunnelingAck seq st => "(sequence counter=" ++ dec seq ++ ", status=" ++ dec st ++ ")"
  | MGroupValueReadReq a => " (for asap " ++ asap_text a ++ ")"
  | MGroupValueReadInd a _ | MGroupValueResponseInd a _ | MGroupValueWriteReq a _ | MGroupValueWriteInd a _ => group_part dt a
  | MGroupValueReadCon a _ st | MGroupValueResponseCon a _ st | MGroupValueWriteCon a _ st => status_part st ++ group_part dt a
  | MPropertyValueReadReq a oi pid ne si | MPropertyValueReadInd a oi pid ne si => property_part a oi pid ne si
  | MPropertyValueReadCon a oi pid ne si st => status_part st ++ property_part a oi pid ne si
  | MPropertyValueResponseInd a oi pid ne si data | MPropertyValueWriteInd a oi pid ne si data =>
      " " ++ msg_str data ++ property_part a oi pid ne si
  | MPropertyValueWriteReq a oi pid ne si data => " " ++ data ++ property_part a oi pid ne si
  | MPropertyValueResponseCon a oi pid ne si data st | MPropertyValueWriteCon a oi pid ne si data st =>
      " " ++ msg_str data ++ status_part st ++ property_part a oi pid ne si
  | MConnectionStatus s => "(status='" ++ s ++ "')"
  | MEMIType s => "(type='" ++ s ++ "')"
  end.
(** The datapoint of a message. As in
    definition/layer/application/a_group_value_write/req.py 8-9. *)
Definition message_dpt (m : message) : option dpt :=
  match m with
  | MGroupValueReadInd _ d | MGroupValueReadCon _ d _
  | MGroupValueResponseInd _ d | MGroupValueResponseCon _ d _
  | MGroupValueWriteReq _ d | MGroupValueWriteInd _ d | MGroupValueWriteCon _ d _ => Some d
  | _ => None
  end.
(** [t] is a text of [m]. The texts of client/knxnet_ip.py 129 and 141. *)
Definition message_text (ft : float -> string) (m : message) (t : string) : Prop :=
  exists dt, match message_dpt m with Some d => dpt_text ft d dt | None => dt = "" end /\
  t = kind_text m ++ rest_text dt m.
