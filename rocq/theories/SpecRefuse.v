(** Specification vocabulary for C100: what sending a message must produce - the
    bytes, or the exception - for every message, state and history of the tables. *)
From Coq Require Import String Ascii ZArith List Bool.
From Verif Require Import Py Dpt Address Tables State SpecMsg SpecTables SpecWire SpecInet.
Import ListNotations.
Open Scope Z_scope.

(** ** What a history of calls leaves *)

(** A list without the first occurrence of a number. *)
Fixpoint without_first (g : Z) (l : list Z) : list Z :=
  match l with [] => [] | x :: r => if x =? g then r else x :: without_first g r end.
(** The addresses of ASAP number [v], in order: associated ones are appended, a
    disassociated one is removed where it occurs first. *)
Definition left_by (v : Z) (had : list Z) (c : as_call) : list Z :=
  match c with
  | Associate a l => if asap_value a =? v then had ++ vals l else had
  | Disassociate a l => if asap_value a =? v then fold_left (fun r g => without_first g r) (vals l) had else had
  end.
Definition remaining (t : address_table) (l : list (asap * address)) (h : list as_call) (v : Z) : list Z :=
  fold_left (left_by v) (initial_calls t l ++ h) [].
(** How often address number [g] is in the address table: an association brings
    it in if it is not there, every disassociation takes it out once - whoever
    else uses it. *)
Definition stock1 (g : Z) (n : Z) (c : as_call) : Z :=
  match c with
  | Associate _ l => if existsb (Z.eqb g) (vals l) then Z.max 1 n else n
  | Disassociate _ l => n - occ g (vals l)
  end.
Definition stock (t : address_table) (l : list (asap * address)) (h : list as_call) (g : Z) : Z :=
  fold_left (stock1 g) (initial_calls t l ++ h) (occ g (vals (at_addrs t))).
(** An address that is neither in the table nor the individual address. *)
Definition gone (t : address_table) (l : list (asap * address)) (h : list as_call) (g : Z) : Prop :=
  g <> a_val (at_ia t) /\ stock t l h g = 0.

(** ** What a message needs *)

(** Its endpoint texts and its property data. *)
Definition endpoint_texts (m : message) : list string :=
  match m with
  | MConnectReq a _ b _ => [a; b]
  | MDisconnectReq a _ | MConnectionstateReq a _ | MSearchReq a _ => [a]
  | _ => []
  end.
Definition data_text (m : message) : option string :=
  match m with MPropertyValueWriteReq _ _ _ _ _ d => Some d | _ => None end.
(** The ASAP number whose type it needs, and the one whose addresses it needs. *)
Definition needs_type (m : message) : option Z :=
  match m with MGroupValueWriteReq a _ | MGroupValueWriteInd a _ => Some (asap_value a) | _ => None end.
Definition needs_addresses (m : message) : option Z :=
  match m with
  | MGroupValueReadReq a | MGroupValueWriteReq a _ | MGroupValueWriteInd a _ => Some (asap_value a)
  | _ => None
  end.
(** Whether it needs the association table at all: property requests go to the
    individual address of that table. *)
Definition needs_table (m : message) : bool :=
  match m with
  | MGroupValueReadReq _ | MGroupValueWriteReq _ _ | MGroupValueWriteInd _ _
  | MPropertyValueReadReq _ _ _ _ _ | MPropertyValueWriteReq _ _ _ _ _ _ => true
  | _ => false
  end.
(** Whether it carries a channel number: requests to a gateway and
    acknowledgements always, requests to the bus on KNXnet/IP. *)
Definition needs_channel (md : medium) (m : message) : bool :=
  match m with
  | MDisconnectReq _ _ | MConnectionstateReq _ _ | MTunnelingAck _ _ => true
  | _ => link_request m && match md with Knxnet_ip => true | _ => false end
  end.

(** ** Complaints *)

(** What can be wrong with sending [m], in the order in which it is noticed, each
    with the exception it leads to. *)
Definition complaints t l h (st : state) (m : message) : list (Prop * exn) :=
  [(sendable m = false, KeyError)] ++
  flat_map (fun a => [(In Ascii.zero (list_ascii_of_string a), ValueError);
                      ((forall ip, ~ address_text a ip), OSError)]) (endpoint_texts m) ++
  [((exists d, data_text m = Some d /\ ~ all_hex d), ValueError);
   ((exists v, needs_type m = Some v /\ st_gobj st = None), AttributeError);
   ((exists v go, needs_type m = Some v /\ st_gobj st = Some go /\ type_of go v = None), KeyError);
   ((needs_table m = true /\ st_assoc st = None), AttributeError);
   ((exists v, needs_addresses m = Some v /\ introduced t l h v = false), KeyError);
   ((exists v g, needs_addresses m = Some v /\ In g (remaining t l h v) /\ gone t l h g), TypeError);
   ((needs_channel (st_medium st) m = true /\ st_channel st = None), AttributeError)].
(** The exception of the first of them that holds, if one does. *)
Inductive first_of : list (Prop * exn) -> option exn -> Prop :=
| first_none : first_of [] None
| first_here (P : Prop) e r : P -> first_of ((P, e) :: r) (Some e)
| first_later (P : Prop) e r o : ~ P -> first_of r o -> first_of ((P, e) :: r) o.

(** ** Bytes *)

(** A cEMI frame for the first remaining address; without one, destination,
    length and TPCI are missing. *)
Definition group_cemi (code : Z) (to : list Z) (tpdu : list Z) : list Z :=
  match to with
  | [] => [code; 0x00; 0x96; 0xE0; 0x00; 0x00] ++ tl tpdu
  | g :: _ => group_frame code g tpdu
  end.
(** The octets of a hexadecimal text; the last one of an odd number of digits is
    not used. *)
Definition hex_data (text : string) (d : list Z) : Prop :=
  octets d /\ exists odd, upper text = (text_of d ++ odd)%string /\ (String.length odd <= 1)%nat.
(** The bytes to send. *)
Definition meant t l h (st : state) (m : message) (b : list Z) : Prop :=
  match m with
  | MConnectReq a1 p1 a2 p2 => exists ip1 ip2, address_text a1 ip1 /\ address_text a2 ip2 /\
      b = [0x06; 0x10; 0x02; 0x05; 0x00; 0x1A] ++ endpoint ip1 p1 ++ endpoint ip2 p2 ++ [0x04; 0x04; 0x02; 0x00]
  | MSearchReq a p => exists ip, address_text a ip /\
      b = [0x06; 0x10; 0x02; 0x01; 0x00; 0x0E] ++ endpoint ip p
  | MConnectionstateReq a p => exists ip ch, address_text a ip /\ st_channel st = Some ch /\
      b = [0x06; 0x10; 0x02; 0x07; 0x00; 0x10; ch mod 256; 0x00] ++ endpoint ip p
  | MDisconnectReq a p => exists ip ch, address_text a ip /\ st_channel st = Some ch /\
      b = [0x06; 0x10; 0x02; 0x09; 0x00; 0x10; ch mod 256; 0x00] ++ endpoint ip p
  | MTunnelingAck _ status => exists ch, st_channel st = Some ch /\ b = tunnelling_ack ch (st_remote st) status
  | MGroupValueReadReq a => wire st (group_cemi data_req (remaining t l h (asap_value a)) read_tpdu) = Ok b
  | MGroupValueWriteReq a d => exists go c, st_gobj st = Some go /\ type_of go (asap_value a) = Some c /\
      wire st (group_cemi data_req (remaining t l h (asap_value a)) (write_tpdu c (d_value d))) = Ok b
  | MGroupValueWriteInd a d => exists go c, st_gobj st = Some go /\ type_of go (asap_value a) = Some c /\
      b = usb_report (group_cemi data_ind (remaining t l h (asap_value a)) (write_tpdu c (d_value d)))
  | MPropertyValueReadReq _ oi pid ne si =>
      wire st (individual_frame data_req (a_val (at_ia t)) (property_read_tpdu oi pid ne si)) = Ok b
  | MPropertyValueWriteReq _ oi pid ne si text => exists d, hex_data text d /\
      wire st (individual_frame data_req (a_val (at_ia t)) (property_write_tpdu oi pid ne si d)) = Ok b
  | _ => False
  end.
