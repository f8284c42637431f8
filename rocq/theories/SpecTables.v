(** Specification vocabulary for the tables (C04-C12): calls as data, histories,
    and what a history means, in terms of plain numbers. *)
From Coq Require Import String ZArith List Bool.
From Verif Require Import Py Address Dpt Tables.
Import ListNotations.
Open Scope Z_scope.

(** ** Calls on an AddressTable *)
Inductive at_call := AtAdd (a : address) | AtRemove (a : address) | AtSetIA (a : address).
(** Perform a call: outcome and table afterwards. *)
Definition at_do (t : address_table) (c : at_call) : res unit * address_table :=
  match c with
  | AtAdd a => at_add a t
  | AtRemove a => at_remove a t
  | AtSetIA a => (Ok tt, at_set_ia t a)
  end.
(** Perform calls one after the other, whether they raise or not. *)
Fixpoint at_after (t : address_table) (h : list at_call) : address_table :=
  match h with [] => t | c :: r => at_after (snd (at_do t c)) r end.

(** The numbers of a list of addresses. *)
Definition vals (l : list address) : list Z := map a_val l.
(** An address number is known to a table when it is listed or is the individual
    address. *)
Definition known (t : address_table) (v : Z) : Prop :=
  In v (vals (at_addrs t)) \/ v = a_val (at_ia t).
(** How often a number occurs in a list. *)
Definition occ (g : Z) (l : list Z) : Z := zlen (filter (Z.eqb g) l).
(** Ascending order. *)
Fixpoint ascending (l : list Z) : Prop :=
  match l with
  | [] => True
  | x :: r => (match r with [] => True | y :: _ => x <= y end) /\ ascending r
  end.

(** ** Calls on an AssociationTable *)
Inductive as_call :=
| Associate (a : asap) (addrs : list address)
| Disassociate (a : asap) (addrs : list address).
Definition as_do (s : assoc_table) (c : as_call) : res unit * assoc_table :=
  match c with
  | Associate a l => associate a l s
  | Disassociate a l => disassociate a l s
  end.
(** The caller works directly on the shared address table. *)
Definition as_direct (s : assoc_table) (c : at_call) : res unit * assoc_table :=
  let '(o, t) := at_do (as_table s) c in (o, mkassoc t (as_addresses s) (as_tsaps s)).
(** Perform the calls in order: outcomes and final table. *)
Fixpoint as_run (s : assoc_table) (h : list as_call) : list (res unit) * assoc_table :=
  match h with
  | [] => ([], s)
  | c :: r =>
      let '(o, s1) := as_do s c in
      let '(os, s2) := as_run s1 r in
      (o :: os, s2)
  end.
(** All calls returned normally. *)
Definition all_ok (os : list (res unit)) : Prop := Forall (fun o => o = Ok tt) os.

(** [built t l h s]: AssociationTable(t, l) followed by the calls [h], all of
    which returned normally, is [s]. *)
Definition built (t : address_table) (l : list (asap * address)) (h : list as_call)
    (s : assoc_table) : Prop :=
  exists s0 os, assoc_new t l = Ok s0 /\ as_run s0 h = (os, s) /\ all_ok os.

(** What the construction and the calls say about ASAP number [v] and address
    number [g]: times associated minus times disassociated.  The constructor
    associates ASAP 0 with the individual address. *)
Definition balance1 (v g : Z) (c : as_call) : Z :=
  match c with
  | Associate a l => if asap_value a =? v then occ g (vals l) else 0
  | Disassociate a l => if asap_value a =? v then - occ g (vals l) else 0
  end.
Definition zsum (l : list Z) : Z := fold_right Z.add 0 l.
Definition initial_calls (t : address_table) (l : list (asap * address)) : list as_call :=
  Associate (mkasap 0 (Some "individual address"%string)) [at_ia t] :: map (fun p => Associate (fst p) [snd p]) l.
Definition balance (t : address_table) (l : list (asap * address)) (h : list as_call) (v g : Z) : Z :=
  zsum (map (balance1 v g) (initial_calls t l ++ h)).

(** The address numbers given to associate for ASAP number [v], in order. *)
Definition given1 (v : Z) (c : as_call) : list Z :=
  match c with
  | Associate a l => if asap_value a =? v then vals l else []
  | Disassociate _ _ => []
  end.
Definition given (t : address_table) (l : list (asap * address)) (h : list as_call) (v : Z) : list Z :=
  flat_map (given1 v) (initial_calls t l ++ h).
(** [v] occurs as ASAP of an associate call. *)
Definition introduced1 (v : Z) (c : as_call) : bool :=
  match c with Associate a _ => asap_value a =? v | Disassociate _ _ => false end.
Definition introduced (t : address_table) (l : list (asap * address)) (h : list as_call) (v : Z) : bool :=
  existsb (introduced1 v) (initial_calls t l ++ h).
Definition only_associates (h : list as_call) : Prop :=
  Forall (fun c => match c with Associate _ _ => True | Disassociate _ _ => False end) h.

(** ASAP numbers in the order in which associate calls mention them, and the
    same without repetitions. *)
Definition assoc_values (h : list as_call) : list Z :=
  flat_map (fun c => match c with Associate a _ => [asap_value a] | Disassociate _ _ => [] end) h.
(** The calls that returned normally. *)
Fixpoint accepted (h : list as_call) (os : list (res unit)) : list as_call :=
  match h, os with
  | c :: h', o :: os' => (match o with Ok _ => [c] | Err _ => [] end) ++ accepted h' os'
  | _, _ => []
  end.
Fixpoint first_uses (seen l : list Z) : list Z :=
  match l with
  | [] => []
  | x :: r => if existsb (Z.eqb x) seen then first_uses seen r else x :: first_uses (x :: seen) r
  end.
Fixpoint strictly_ascending (l : list Z) : Prop :=
  match l with
  | [] => True
  | x :: r => (match r with [] => True | y :: _ => x < y end) /\ strictly_ascending r
  end.

(** The addresses a message of ASAP [b] is sent to. *)
Definition sends_to (s : assoc_table) (b : asap) : res (list address) :=
  do tsaps <- as_get_tsaps s b; as_get_addresses s tsaps.

(** ** Calls on a GroupObjectTable *)
Inductive go_call := GoAssociate (a : asap) (c : dpt_class) | GoDisassociate (a : asap).
Definition go_do (g : gobj_table) (c : go_call) : res unit * gobj_table :=
  match c with
  | GoAssociate a k => (Ok tt, go_associate a k g)
  | GoDisassociate a => go_disassociate a g
  end.
Fixpoint go_after (g : gobj_table) (h : list go_call) : gobj_table :=
  match h with [] => g | c :: r => go_after (snd (go_do g c)) r end.
(** The type of ASAP number [v] after the calls [h], most recent call first,
    [start] being its type before. *)
Fixpoint last_type (start : option dpt_class) (recent : list go_call) (v : Z) : option dpt_class :=
  match recent with
  | [] => start
  | GoAssociate a k :: r => if asap_value a =? v then Some k else last_type start r v
  | GoDisassociate a :: r => if asap_value a =? v then None else last_type start r v
  end.
(** A Python dictionary has one entry per key. *)
Definition distinct_keys (g : gobj_table) : Prop := NoDup (map (fun p => asap_value (fst p)) g).
(** The type found under ASAP number [v]. *)
Definition type_of (g : gobj_table) (v : Z) : option dpt_class :=
  option_map snd (find (fun p => asap_value (fst p) =? v) g).
