(** Specification vocabulary for C106: the State object that a call of the API
    leaves behind. *)
From Coq Require Import String ZArith List Bool.
From Verif Require Import Py Address Dpt Tables LData State Decode SpecMsg SpecText SpecWire SpecDecode.
Import ListNotations.
Open Scope Z_scope.

(** ASAP, APCI and address type of a message for the bus. *)
Definition addressing (m : message) : option (asap * Z * Z) :=
  match m with
  | MGroupValueReadReq a => Some (a, 0x000, 1)
  | MGroupValueWriteReq a _ | MGroupValueWriteInd a _ => Some (a, 0x080, 1)
  | MPropertyValueReadReq a _ _ _ _ => Some (a, 0x3D5, 0)
  | MPropertyValueWriteReq a _ _ _ _ _ => Some (a, 0x3D7, 0)
  | _ => None
  end.
(** Encoding keeps what the message is addressed to, whether it can be sent or
    not; an acknowledgement of the expected request moves the remote counter on,
    if there is a channel. *)
Definition left_by_encoding (m : message) (s : state) : state :=
  let own := addressing m in
  mkstate (st_medium s) (st_assoc s) (st_gobj s) (st_ldata s)
    (match own with Some (a, _, _) => Some a | None => st_asap s end)
    (match own with Some (_, v, _) => Some v | None => st_apci s end)
    (match own with Some (_, _, t) => Some t | None => st_address_type s end)
    (match m, st_channel s with
     | MTunnelingAck seq _, Some _ => if seq =? st_remote s then (st_remote s + 1) mod 256 else st_remote s
     | _, _ => st_remote s
     end)
    (st_local s) (st_channel s).

(** The header of a telegram, as an L_Data object keeps it. *)
Definition header (t : telegram) : ldata :=
  mkld (t_apci t) (t_tpci t) (t_len t) (t_dst t) (t_src t) (t_c2 t) (t_c1 t).
(** Decoding keeps the header of the telegram it finds, whatever becomes of it;
    on KNXnet/IP also the local counter and the channel. *)
Definition left_by_decoding (m : list Z) (s : state) : state :=
  let ip := match st_medium s with Knxnet_ip => true | _ => false end in
  mkstate (st_medium s) (st_assoc s) (st_gobj s)
    (match on_bus s m with Some (_, t) => Some (header t) | None => st_ldata s end)
    (st_asap s) (st_apci s) (st_address_type s) (st_remote s)
    (if ip then local_after m (st_local s) else st_local s)
    (if ip then channel_after m (st_channel s) else st_channel s).

Definition left_by (s : state) (x : api_call) : state :=
  match x with
  | Encode_msg m => left_by_encoding m s
  | Decode_msg _ m => left_by_decoding m s
  end.
(** Received data are octets, given as a KNXnet/IP message where it matters. *)
Definition proper_call (md : medium) (x : api_call) : Prop :=
  match x with
  | Encode_msg _ => True
  | Decode_msg c m => octets m /\ (md = Knxnet_ip -> c = CNetIP)
  end.
(** A name of one line, if any. *)
Definition short_name (x : api_call) : Prop :=
  match x with
  | Encode_msg m => match addressing m with Some (a, _, _) => one_line_names [a] | None => True end
  | Decode_msg _ _ => True
  end.

(** What the last call that tells something has told. *)
Fixpoint last_told {A} (f : api_call -> option A) (h : list api_call) (before : option A) : option A :=
  match h with
  | [] => before
  | x :: r => last_told f r (match f x with Some v => Some v | None => before end)
  end.
Definition told_addressing (x : api_call) : option (asap * Z * Z) :=
  match x with Encode_msg m => addressing m | Decode_msg _ _ => None end.
Definition told_header (x : api_call) : option ldata :=
  match x with
  | Decode_msg _ m => match usb_cemi m with
                      | Some cemi => match cemi_telegram cemi with Some (_, t) => Some (header t) | None => None end
                      | None => None
                      end
  | Encode_msg _ => None
  end.

(** The calls that send. *)
Definition sends (x : api_call) : bool := match x with Encode_msg _ => true | Decode_msg _ _ => false end.
