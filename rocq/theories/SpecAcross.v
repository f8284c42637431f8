(** Specification vocabulary for two applications on one bus (C76, C77). *)
From Coq Require Import String ZArith List Bool.
From Verif Require Import Py Msg Address Dpt Tables State Encode Decode Client.
From Verif Require Import SpecMsg SpecTables SpecWire SpecDecode SpecClient SpecSystem.
Import ListNotations.
Open Scope Z_scope.

(** What the bus makes of a request frame without additional information: an
    indication with any additional information, control octets (the address type
    is kept) and source; destination, length and the rest are kept. *)
Definition carried (request indication : list Z) : Prop :=
  exists c1 c2 s1 s2 rest info c1' c2' s1' s2',
    request = [data_req; 0; c1; c2; s1; s2] ++ rest /\
    indication = [data_ind; zlen info] ++ info ++ [c1'; c2'; s1'; s2'] ++ rest /\
    zlen info < 256 /\ octets info /\ octets [c1'; c2'; s1'; s2'] /\ (128 <=? c2') = (128 <=? c2).

(** What a group request says on the bus: the address, and for a write the
    number that goes out. *)
Definition said (s : assoc_table) (go : gobj_table) (m : message) : option (Z * option Z) :=
  match m with
  | MGroupValueReadReq a =>
      match sends_to s a with Ok (x :: _) => Some (a_val x, None) | _ => None end
  | MGroupValueWriteReq a d =>
      match sends_to s a, type_of go (asap_value a) with
      | Ok (x :: _), Some c => Some (a_val x, Some (sent c (d_value d)))
      | _, _ => None
      end
  | _ => None
  end.
(** The group objects of a device with tables [tb], history [l], [h] that an
    address reaches. *)
Definition reaches tb l h (x : Z) (go : gobj_table) : list (asap * dpt_class) :=
  filter (fun p => 0 <? balance tb l h (asap_value (fst p)) x) go.
(** What such a device hears: nothing when the address is not in its address
    table; otherwise one indication for each of these group objects, the number
    read as a value of the object's own type. *)
Definition heard tb l h (s : assoc_table) (go : gobj_table) (w : Z * option Z) : list message :=
  if existsb (Z.eqb (fst w)) (vals (at_addrs (as_table s))) then
    map (fun p => match snd w with
                  | Some n => MGroupValueWriteInd (fst p) (as_class (snd p) n)
                  | None => MGroupValueReadInd (fst p) (mkdpt (snd p) 0)
                  end) (reaches tb l h (fst w) go)
  else [].
(** The device can hear it: the address is a group address; if the device lists
    it, then with an association, and the first object it reaches can display
    the value. *)
Definition audible tb l h (s : assoc_table) (go : gobj_table) (w : Z * option Z) : Prop :=
  0 < fst w < 65536 /\
  (In (fst w) (vals (at_addrs (as_table s))) ->
   (exists v, 0 < balance tb l h v (fst w)) /\
   match snd w, reaches tb l h (fst w) go with
   | Some n, p :: _ => undisplayable (snd p) (d_value (as_class (snd p) n)) = false
   | _, _ => True
   end).
(** A frame gets through to a state: there is room in the report, or the counter
    is an octet. *)
Definition room (st : state) (cemi : list Z) : Prop :=
  match st_medium st with
  | Usb_hid => zlen cemi <= 247
  | Knxnet_ip => 0 <= st_remote st < 256
  | Tp => False
  end.
(** The telegrams of a gateway are what the bus makes of these frames. *)
Definition relays (bus : list (list Z)) (frame : Z -> list Z) : Prop :=
  forall i f, nth_error bus i = Some f -> carried f (frame (Z.of_nat i)).
