(** Specification vocabulary for C74: address objects whose numbers change while
    tables hold them.  Calls name objects, and a function gives the number each
    object has at the moment. *)
From Coq Require Import String ZArith List Bool NArith.
From Verif Require Import Py Address Dpt Tables Mutate SpecTables.
Import ListNotations.
Open Scope Z_scope.

(** The object [r] with the number it has now. *)
Definition obj (num : N -> Z) (r : N) : address := mkaddr r (num r).

Inductive object_call :=
| OAssociate (a : asap) (objects : list N)
| ODisassociate (a : asap) (objects : list N)
| OStore (r : N) (f : field) (x : Z).

(** The numbers after a call. *)
Definition numbers (num : N -> Z) (c : object_call) : N -> Z :=
  match c with
  | OStore r f x => fun q => if N.eqb q r then stored f x (num q) else num q
  | _ => num
  end.
(** Perform the calls in order; [None] as soon as one raises. *)
Fixpoint object_run (num : N -> Z) (s : assoc_table) (h : list object_call)
    : option ((N -> Z) * assoc_table) :=
  match h with
  | [] => Some (num, s)
  | c :: r =>
      match c with
      | OAssociate a l =>
          match associate a (map (obj num) l) s with (Ok _, s') => object_run num s' r | (Err _, _) => None end
      | ODisassociate a l =>
          match disassociate a (map (obj num) l) s with (Ok _, s') => object_run num s' r | (Err _, _) => None end
      | OStore q f x => object_run (numbers num c) (as_store q f x s) r
      end
  end.

(** The objects named by calls. *)
Definition named (h : list object_call) : list N :=
  flat_map (fun c => match c with OAssociate _ l | ODisassociate _ l => l | OStore _ _ _ => [] end) h.
(** Different objects of [U] have different numbers, now and after each call. *)
Definition apart (U : list N) (num : N -> Z) : Prop :=
  forall r q, In r U -> In q U -> num r = num q -> r = q.
Fixpoint apart_throughout (U : list N) (num : N -> Z) (h : list object_call) : Prop :=
  apart U num /\ match h with [] => True | c :: r => apart_throughout U (numbers num c) r end.

(** How often object [r] occurs in a list of objects. *)
Definition times (r : N) (l : list N) : Z := zlen (filter (N.eqb r) l).
(** Times ASAP number [v] was associated with object [r], minus times it was
    disassociated from it; numbers play no role. *)
Definition object_balance1 (v : Z) (r : N) (c : object_call) : Z :=
  match c with
  | OAssociate a l => if asap_value a =? v then times r l else 0
  | ODisassociate a l => if asap_value a =? v then - times r l else 0
  | OStore _ _ _ => 0
  end.
Definition object_initial (ia : N) (l : list (asap * N)) : list object_call :=
  OAssociate (mkasap 0 (Some "individual address"%string)) [ia] :: map (fun p => OAssociate (fst p) [snd p]) l.
Definition object_balance (ia : N) (l : list (asap * N)) (h : list object_call) (v : Z) (r : N) : Z :=
  zsum (map (object_balance1 v r) (object_initial ia l ++ h)).
(** The objects given to associate for ASAP number [v], in order. *)
Definition object_given (ia : N) (l : list (asap * N)) (h : list object_call) (v : Z) : list N :=
  flat_map (fun c => match c with
                     | OAssociate a q => if asap_value a =? v then q else []
                     | _ => []
                     end) (object_initial ia l ++ h).
Definition never_disassociates (h : list object_call) : Prop :=
  Forall (fun c => match c with ODisassociate _ _ => False | _ => True end) h.

(** The list without the first [r]. *)
Fixpoint let_go (r : N) (l : list N) : list N :=
  match l with
  | [] => []
  | q :: k => if N.eqb q r then k else q :: let_go r k
  end.
(** The objects ASAP number [v] holds after the calls, in the order in which it
    got them: associate appends, disassociate takes the first of each away. *)
Definition object_step (v : Z) (held : list N) (c : object_call) : list N :=
  match c with
  | OAssociate a q => if asap_value a =? v then held ++ q else held
  | ODisassociate a q => if asap_value a =? v then fold_left (fun k r => let_go r k) q held else held
  | OStore _ _ _ => held
  end.
Definition object_held (ia : N) (l : list (asap * N)) (h : list object_call) (v : Z) : list N :=
  fold_left (object_step v) (object_initial ia l ++ h) [].
(** The objects the address table lists after the calls (in some order):
    associate lists those not listed (the own address [ia] never), disassociate,
    for whatever ASAP, takes them off. *)
Definition listed_step (ia : N) (listed : list N) (c : object_call) : list N :=
  match c with
  | OAssociate _ q =>
      fold_left (fun k r => if N.eqb r ia || existsb (N.eqb r) k then k else r :: k) q listed
  | ODisassociate _ q => fold_left (fun k r => if N.eqb r ia then k else let_go r k) q listed
  | OStore _ _ _ => listed
  end.
Definition object_listed (ia : N) (group : list N) (l : list (asap * N)) (h : list object_call) : list N :=
  fold_left (listed_step ia) (object_initial ia l ++ h) group.
(** Some associate call, of the constructor or later, was for ASAP number [v]. *)
Definition ever_associated (ia : N) (l : list (asap * N)) (h : list object_call) (v : Z) : Prop :=
  exists a q, In (OAssociate a q) (object_initial ia l ++ h) /\ asap_value a = v.

(** The address table made from objects, and the table of associations built
    with it. *)
Definition object_table (num : N -> Z) (max : Z) (ia : N) (group : list N) : address_table :=
  mkat max (obj num ia) (map (obj num) group).
Definition object_links (num : N -> Z) (l : list (asap * N)) : list (asap * address) :=
  map (fun p => (fst p, obj num (snd p))) l.
(** All objects involved. *)
Definition involved (ia : N) (group : list N) (l : list (asap * N)) (h : list object_call) : list N :=
  ia :: group ++ map snd l ++ named h.

(** ** C75 *)
(** The second, fourth, ... and the first, third, ... element of a list. *)
Fixpoint seconds {A} (l : list A) : list A :=
  match l with
  | x :: (y :: r) => y :: seconds r
  | _ => []
  end.
Fixpoint firsts {A} (l : list A) : list A :=
  match l with
  | x :: (_ :: r) => x :: firsts r
  | l => l
  end.
