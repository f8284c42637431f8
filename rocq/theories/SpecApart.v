(** Specification vocabulary for C99: tables that are changed while the program
    runs, and what these changes leave alone. *)
From Coq Require Import String ZArith List Bool.
From Verif Require Import Py Msg Address Dpt Tables State Encode Decode SpecMsg SpecTables SpecDecode SpecOrder.
Import ListNotations.
Open Scope Z_scope.

(** The address numbers that calls mention, and those that they take away. *)
Definition mentioned (h : list as_call) : list Z :=
  flat_map (fun c => match c with Associate _ l => vals l | Disassociate _ l => vals l end) h.
Definition withdrawn (h : list as_call) : list Z :=
  flat_map (fun c => match c with Associate _ _ => [] | Disassociate _ l => vals l end) h.
(** The ASAP numbers whose datapoint type calls set or remove. *)
Definition retyped (k : list go_call) : list Z :=
  map (fun c => match c with GoAssociate a _ => asap_value a | GoDisassociate a => asap_value a end) k.

(** The telegram inside a report or a datagram. *)
Definition telegram_inside (b : list Z) (t : telegram) : Prop :=
  (exists cemi k, usb_cemi b = Some cemi /\ cemi_telegram cemi = Some (k, t)) \/
  (exists counter cemi k, tunnelled b = Some (counter, cemi) /\ cemi_telegram cemi = Some (k, t)).
(** The ASAP a message is sent for; property requests go to the individual
    address, the others to the gateway. *)
Definition sent_for (m : message) : option Z :=
  match m with
  | MGroupValueReadReq a | MGroupValueWriteReq a _ | MGroupValueWriteInd a _ => Some (asap_value a)
  | _ => None
  end.

(** A device whose tables were set up by [tb], [l], [h] (giving [s]) is changed by
    the calls [h'] and [k].  Tasks that have nothing to do with the change:
    decoding bytes whose telegram, if there is one, goes to an address that [h']
    does not mention and that is not associated with an ASAP which [k] gives
    another type; and sending for an ASAP that [h'] and [k] are not about, none
    of whose addresses [h'] takes away - nor brings back, should it be missing. *)
Definition left_alone tb l h (s : assoc_table) (h' : list as_call) (k : list go_call) (u : task) : Prop :=
  match u with
  | Decoding _ b =>
      octets b /\ forall t, telegram_inside b t ->
        ~ In (t_dst t) (mentioned h') /\
        forall v, In v (retyped k) -> balance tb l h v (t_dst t) = 0
  | Encoding m =>
      match sent_for m with
      | None => True
      | Some v =>
          ~ In v (map about h') /\ ~ In v (retyped k) /\
          forall g, 0 < balance tb l h v g ->
            ~ In g (withdrawn h') /\ (known (as_table s) g \/ ~ In g (mentioned h'))
      end
  end.
(** The state with other tables. *)
Definition with_tables (s : assoc_table) (go : gobj_table) (st : state) : state :=
  with_table s (with_types go st).
