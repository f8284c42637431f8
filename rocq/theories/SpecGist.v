(** Specification vocabulary for C103: what a telegram tells, as opposed to how
    it is written.  Two telegrams with the same gist are to be told apart by no
    application, two with different gists by some application. *)
From Coq Require Import ZArith List Bool.
From Verif Require Import Py Address Dpt Tables State Decode SpecTables SpecMsg SpecWire SpecDecode.
Import ListNotations.
Open Scope Z_scope.

Inductive gist :=
| Nothing                                              (** an empty list for everybody *)
| NoList                                               (** no list at all for everybody *)
| GroupSays (k : dir) (to : Z) (svc : service) (value sta : Z)
| PropertySays (k : dir) (who : Z) (said : option message).   (** [None]: it ends too early *)

(** The value of a group telegram counts up to 32 bits, the width of the widest
    type; its status in confirmations only.  A property telegram is for the
    device named as its source (indication) or destination (confirmation). *)
Definition gist_of (k : dir) (t : telegram) : gist :=
  if group_addressed t then
    if t_dst t =? 0 then Nothing
    else if negb (plain t) then NoList
    else match group_service t with
         | Some svc => GroupSays k (t_dst t) svc (big_endian (payload t) mod 2 ^ 32)
                         (match k with Con => status t | Ind => 0 end)
         | None => Nothing
         end
  else if plain t then
    match property_service t with
    | Some svc => PropertySays k (match k with Ind => t_src t | Con => t_dst t end)
                    (if 4 <=? zlen (t_data t) then Some (property_message k svc t) else None)
    | None => Nothing
    end
  else Nothing.

(** Behind a tunnelling request there is always a list. *)
Definition behind_tunnel (g : gist) : gist := match g with NoList => Nothing | g => g end.

(** The telegram that a report or a tunnelling request with counter [n] carries. *)
Definition reports (m : list Z) (k : dir) (t : telegram) : Prop :=
  octets m /\ exists cemi, usb_cemi m = Some cemi /\ cemi_telegram cemi = Some (k, t).
Definition tunnels (n : Z) (m : list Z) (k : dir) (t : telegram) : Prop :=
  octets m /\ exists cemi, tunnelled m = Some (n, cemi) /\ cemi_telegram cemi = Some (k, t).

(** Two messages are alike on a medium when no application gets different
    results from them: whatever its tables, reached by whatever calls. *)
Definition alike_on (md : medium) (c : msg_class) (m1 m2 : list Z) : Prop :=
  forall st tb l h s go, st_medium st = md -> built tb l h s -> st_assoc st = Some s -> st_gobj st = Some go ->
    fst (decode_msg c m1 st) = fst (decode_msg c m2 st).
