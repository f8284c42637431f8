(** Specification for C95: what a message asks for, whatever bytes it is sent
    as. *)
From Coq Require Import String ZArith List.
From Verif Require Import Py Msg Address Dpt Tables State SpecTables SpecWire.
Import ListNotations.
Open Scope Z_scope.

(** A value as it travels: six bits, or a number of octets. *)
Inductive parcel := SixBits (v : Z) | Whole (octets_ : nat) (v : Z).
Definition parcel_of (c : dpt_class) (v : Z) : parcel :=
  match wire_octets c with O => SixBits (v mod 64) | n => Whole n (v mod 256 ^ Z.of_nat n) end.

(** What can be asked for.  Destinations are numbers of 16 bits; the four numbers
    of a property are its object, its id, the number of elements and the first
    of them. *)
Inductive wish :=
| ToRead (dest : Z)
| ToWrite (dest : Z) (p : parcel)
| ToIndicate (dest : Z) (p : parcel)
| ToReadProperty (dest obj pid count first : Z)
| ToWriteProperty (dest obj pid count first : Z) (data : list Z)
| ToConnect (ip1 : list Z) (port1 : Z) (ip2 : list Z) (port2 : Z)
| ToKeep (channel : Z) (ip : list Z) (port : Z)
| ToDisconnect (channel : Z) (ip : list Z) (port : Z)
| ToSearch (ip : list Z) (port : Z)
| ToAcknowledge (channel counter status : Z).

(** What a message asks for in a given state: a group message goes to the first
    address of its ASAP, which it must have, and carries the bits its type has on
    the wire; a property message goes to the individual address; the fields of
    the others are the given ones, cut to their widths. *)
Inductive asks (st : state) : message -> wish -> Prop :=
| asks_read s a x rest : st_assoc st = Some s -> sends_to s a = Ok (x :: rest) ->
    asks st (MGroupValueReadReq a) (ToRead (a_val x mod 65536))
| asks_write s g a d c x rest : st_assoc st = Some s -> st_gobj st = Some g ->
    type_of g (asap_value a) = Some c -> sends_to s a = Ok (x :: rest) ->
    asks st (MGroupValueWriteReq a d) (ToWrite (a_val x mod 65536) (parcel_of c (d_value d)))
| asks_indicate s g a d c x rest : st_assoc st = Some s -> st_gobj st = Some g ->
    type_of g (asap_value a) = Some c -> sends_to s a = Ok (x :: rest) ->
    asks st (MGroupValueWriteInd a d) (ToIndicate (a_val x mod 65536) (parcel_of c (d_value d)))
| asks_property_read s a oi pid ne si : st_assoc st = Some s ->
    asks st (MPropertyValueReadReq a oi pid ne si)
      (ToReadProperty (a_val (at_ia (as_table s)) mod 65536) (oi mod 256) (pid mod 256) (ne mod 16) (si mod 4096))
| asks_property_write s a oi pid ne si text data : st_assoc st = Some s -> stringtooctects text = Ok data ->
    asks st (MPropertyValueWriteReq a oi pid ne si text)
      (ToWriteProperty (a_val (at_ia (as_table s)) mod 65536) (oi mod 256) (pid mod 256) (ne mod 16) (si mod 4096) data)
| asks_connect ip1 p1 ip2 p2 : ipv4 ip1 -> ipv4 ip2 ->
    asks st (MConnectReq (dotted ip1) p1 (dotted ip2) p2) (ToConnect ip1 (p1 mod 65536) ip2 (p2 mod 65536))
| asks_keep ch ip p : ipv4 ip -> st_channel st = Some ch ->
    asks st (MConnectionstateReq (dotted ip) p) (ToKeep (ch mod 256) ip (p mod 65536))
| asks_disconnect ch ip p : ipv4 ip -> st_channel st = Some ch ->
    asks st (MDisconnectReq (dotted ip) p) (ToDisconnect (ch mod 256) ip (p mod 65536))
| asks_search ip p : ipv4 ip -> asks st (MSearchReq (dotted ip) p) (ToSearch ip (p mod 65536))
| asks_acknowledge ch seq status : st_channel st = Some ch ->
    asks st (MTunnelingAck seq status) (ToAcknowledge (ch mod 256) (st_remote st mod 256) (status mod 256)).
