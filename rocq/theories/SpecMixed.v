(** Specification vocabulary for C120: tables that are changed while messages come
    and go. *)
From Coq Require Import ZArith List Bool.
From Verif Require Import Py Address Dpt Tables State Encode Decode SpecMsg SpecTables SpecShared SpecBook SpecDecode SpecBare SpecLeft.
Import ListNotations.
Open Scope Z_scope.

(** A call on the association table or the address table that the state refers to, one
    on its group object table, or one of the API. *)
Inductive mixed_call := On_tables (c : shared_call) | On_types (c : go_call) | On_api (x : api_call).
Inductive mixed_result := Table_says (r : res unit) | Types_say (r : res unit) | Api_says (r : api_result).
Definition mixed_do (st : state) (y : mixed_call) : mixed_result * state :=
  match y with
  | On_tables c =>
      match st_assoc st with
      | Some s => let '(o, s') := table_call s c in (Table_says o, supplied (Some s') (st_gobj st) st)
      | None => (Table_says (Err AttributeError), st)
      end
  | On_types c =>
      match st_gobj st with
      | Some g => let '(o, g') := go_do g c in (Types_say o, supplied (st_assoc st) (Some g') st)
      | None => (Types_say (Err AttributeError), st)
      end
  | On_api x => let '(o, st') := api_do st x in (Api_says o, st')
  end.
Fixpoint mixed_run (st : state) (h : list mixed_call) : list mixed_result * state :=
  match h with
  | [] => ([], st)
  | y :: r =>
      let '(o, st1) := mixed_do st y in
      let '(os, st2) := mixed_run st1 r in
      (o :: os, st2)
  end.

(** The calls of each sort, and what the tables said. *)
Definition on_tables (h : list mixed_call) : list shared_call :=
  flat_map (fun y => match y with On_tables c => [c] | _ => [] end) h.
Definition on_types (h : list mixed_call) : list go_call :=
  flat_map (fun y => match y with On_types c => [c] | _ => [] end) h.
Definition on_api (h : list mixed_call) : list api_call :=
  flat_map (fun y => match y with On_api x => [x] | _ => [] end) h.
Definition table_says (os : list mixed_result) : list (res unit) :=
  flat_map (fun o => match o with Table_says r => [r] | _ => [] end) os.
Definition types_say (os : list mixed_result) : list (res unit) :=
  flat_map (fun o => match o with Types_say r => [r] | _ => [] end) os.
(** What a group object table says to calls that it gets one after the other. *)
Fixpoint go_says (g : gobj_table) (h : list go_call) : list (res unit) :=
  match h with [] => [] | c :: r => fst (go_do g c) :: go_says (snd (go_do g c)) r end.

(** Every result by itself: a call on the tables looks at the tables of its time, and
    so does a message, which knows nothing of the messages before. *)
Fixpoint by_the_tables (st : state) (s : assoc_table) (g : gobj_table) (h : list mixed_call) : list mixed_result :=
  match h with
  | [] => []
  | On_tables c :: r => Table_says (fst (table_call s c)) :: by_the_tables st (snd (table_call s c)) g r
  | On_types c :: r => Types_say (fst (go_do g c)) :: by_the_tables st s (snd (go_do g c)) r
  | On_api x :: r => Api_says (fst (api_do (supplied (Some s) (Some g) st) x)) :: by_the_tables st s g r
  end.
