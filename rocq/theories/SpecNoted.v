(** Specification vocabulary for C119: what is sent and heard, told from the
    notebook of C113. *)
From Coq Require Import ZArith List Bool.
From Verif Require Import Py Address Dpt Tables State Decode SpecMsg SpecTables SpecWire SpecShared SpecBook SpecDecode.
Import ListNotations.
Open Scope Z_scope.

(** The table [s] came about by calls, returning or raising, that make [b] of a new
    notebook. *)
Definition noted (s : assoc_table) (b : book) : Prop :=
  exists t l s0 b0 h os, assoc_new t l = Ok s0 /\ table_run s0 h = (os, s) /\ book_new t l = Ok b0 /\ book_run b0 h = (os, b).

(** The frame for the first number on the page; [bare] if the page is empty, where
    the destination and an octet after it are missing (C19). *)
Definition written_to (code : Z) (b : book) (v : Z) (tpdu : list Z) (bare : list Z) : res (list Z) :=
  match book_sends b v with
  | Err e => Err e
  | Ok [] => Ok bare
  | Ok (g :: _) => Ok (group_frame code g tpdu)
  end.
(** The frame as the medium carries it, if there is one. *)
Definition carried (st : state) (frame : res (list Z)) : res (list Z) :=
  match frame with Ok f => wire st f | Err e => Err e end.

(** The entries of the group object table to which the notebook routes [g]. *)
Definition routed_entries (b : book) (g : Z) (go : gobj_table) : res (list (asap * dpt_class)) :=
  match book_routes b g with
  | Err e => Err e
  | Ok vs => Ok (filter (fun p => has (asap_value (fst p)) vs) go)
  end.
(** The messages of a telegram: for a listed group address those of the entries, if
    the first can be shown; for a device the property message, if the own number is
    the sender of an indication or the receiver of a confirmation. *)
Definition noted_messages (b : book) (go : gobj_table) (k : dir) (t : telegram) : res (list message) :=
  if negb (plain t) then Ok []
  else if group_addressed t then
    if negb (t_dst t =? 0) && has (t_dst t) (b_listed b) then
      match group_service t with
      | None => Ok []
      | Some svc =>
          match routed_entries b (t_dst t) go with
          | Err e => Err e
          | Ok l => if match l with [] => false | p :: _ => undisplayable (snd p) (raw (snd p) t) end then Err ValueError
                    else Ok (group_messages k svc t l)
          end
      end
    else Ok []
  else if match k with
          | Ind => t_src t =? a_val (b_own b)
          | Con => (t_dst t =? a_val (b_own b)) && negb (has (t_dst t) (b_listed b))
          end then
    match property_service t with
    | None => Ok []
    | Some svc => if 4 <=? zlen (t_data t) then Ok [property_message k svc t] else Err IndexError
    end
  else Ok [].
