(** Specification vocabulary for C121: two applications that change their tables while
    they talk. *)
From Coq Require Import ZArith List Bool.
From Verif Require Import Py Address Dpt Tables State Decode SpecMsg SpecTables SpecWire SpecShared SpecBook SpecDecode SpecNoted.
Import ListNotations.
Open Scope Z_scope.

(** What a group request says on the bus, told from the notebook and the types of the
    speaker: the first number on the page, and for a write the number that goes out. *)
Definition noted_said (b : book) (go : gobj_table) (m : message) : option (Z * option Z) :=
  match m with
  | MGroupValueReadReq a =>
      match book_sends b (asap_value a) with Ok (g :: _) => Some (g, None) | _ => None end
  | MGroupValueWriteReq a d =>
      match book_sends b (asap_value a), type_of go (asap_value a) with
      | Ok (g :: _), Some c => Some (g, Some (sent c (d_value d)))
      | _, _ => None
      end
  | _ => None
  end.
(** What a listener hears of it, told from the notebook and the types of the listener:
    nothing of a number that is not listed, otherwise one indication for each of the
    entries it is routed to, if the first can be shown. *)
Definition noted_heard (b : book) (go : gobj_table) (w : Z * option Z) : res (list message) :=
  if has (fst w) (b_listed b) then
    match routed_entries b (fst w) go with
    | Err e => Err e
    | Ok l =>
        match snd w with
        | None => Ok (map (fun p => MGroupValueReadInd (fst p) (mkdpt (snd p) 0)) l)
        | Some n =>
            if match l with [] => false | p :: _ => undisplayable (snd p) (d_value (as_class (snd p) n)) end then Err ValueError
            else Ok (map (fun p => MGroupValueWriteInd (fst p) (as_class (snd p) n)) l)
        end
    end
  else Ok [].
