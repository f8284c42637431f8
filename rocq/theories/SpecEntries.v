(** Specification vocabulary for the order and the keys of an association table (C11)
    and of a group object table (C12). *)
From Coq Require Import String ZArith List Bool.
From Verif Require Import Py Dpt Tables SpecTables SpecShared SpecBook.
Import ListNotations.
Open Scope Z_scope.

(** A number that is not in the table yet goes behind the others, with the object
    given; one that is in it keeps its place and the object of the earlier call. *)
Definition introduce (keys : list asap) (a : asap) : list asap :=
  if existsb (fun b => asap_value b =? asap_value a) keys then keys else keys ++ [a].
Definition keys_step (keys : list asap) (c : go_call) : list asap :=
  match c with
  | GoAssociate a _ => introduce keys a
  | GoDisassociate a => filter (fun b => negb (asap_value b =? asap_value a)) keys
  end.
(** The table as it stands after the calls [h] made on [g]. *)
Definition standing (g : gobj_table) (h : list go_call) : list (asap * option dpt_class) :=
  map (fun a => (a, last_type (type_of g (asap_value a)) (rev h) (asap_value a))) (fold_left keys_step h (map fst g)).

(** The ASAPs of the associate calls that returned. *)
Fixpoint brought (h : list shared_call) (os : list (res unit)) : list asap :=
  match h, os with
  | Through (Associate a _) :: h', Ok _ :: os' => a :: brought h' os'
  | _ :: h', _ :: os' => brought h' os'
  | _, _ => []
  end.
Definition own_asap : asap := mkasap 0 (Some "individual address"%string).
