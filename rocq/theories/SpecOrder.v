(** Specification vocabulary for C97: when two ways of setting up the tables say
    the same, and what a program can see of the tables. *)
From Coq Require Import String ZArith List Bool.
From Verif Require Import Py Msg Address Dpt Tables State Encode Decode SpecTables.
Import ListNotations.
Open Scope Z_scope.

(** The number of the ASAP a call is about. *)
Definition about (c : as_call) : Z :=
  match c with Associate a _ => asap_value a | Disassociate a _ => asap_value a end.
(** Two orders of calls in which every single ASAP sees the same calls in the
    same order; calls for different ASAPs may come in any order. *)
Definition shuffled (h h' : list as_call) : Prop :=
  forall v, filter (fun c => about c =? v) h = filter (fun c => about c =? v) h'.
(** All that is said about ASAPs by AssociationTable(t, l) and the calls [h]. *)
Definition said_by (t : address_table) (l : list (asap * address)) (h : list as_call) : list as_call :=
  initial_calls t l ++ h.

(** What a program does with a state: encode a message or decode bytes. *)
Inductive task := Encoding (m : message) | Decoding (c : msg_class) (m : list Z).
Inductive seen := Encoded (r : res (list Z)) | Decoded (r : res dres).
Definition perform (st : state) (u : task) : seen * state :=
  match u with
  | Encoding m => let '(r, st') := encode_msg m st in (Encoded r, st')
  | Decoding c m => let '(r, st') := decode_msg c m st in (Decoded r, st')
  end.
(** What it sees when it does one thing after the other. *)
Fixpoint sees (st : state) (us : list task) : list seen :=
  match us with
  | [] => []
  | u :: r => fst (perform st u) :: sees (snd (perform st u)) r
  end.
(** The state with another association table. *)
Definition with_table (s : assoc_table) (st : state) : state :=
  mkstate (st_medium st) (Some s) (st_gobj st) (st_ldata st) (st_asap st) (st_apci st)
          (st_address_type st) (st_remote st) (st_local st) (st_channel st).
(** The state with another group object table. *)
Definition with_types (go : gobj_table) (st : state) : state :=
  mkstate (st_medium st) (st_assoc st) (Some go) (st_ldata st) (st_asap st) (st_apci st)
          (st_address_type st) (st_remote st) (st_local st) (st_channel st).
(** The tasks of a program that only sends. *)
Definition only_encodes (us : list task) : Prop :=
  Forall (fun u => match u with Encoding _ => True | Decoding _ _ => False end) us.
