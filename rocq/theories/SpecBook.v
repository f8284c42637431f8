(** Specification vocabulary for C113: the tables as a notebook of numbers. *)
From Coq Require Import ZArith List Bool NArith.
From Verif Require Import Py Address Dpt Tables SpecTables SpecShared.
Import ListNotations.
Open Scope Z_scope.

(** The pages of the notebook: an ASAP number and the address numbers it was
    given, oldest page first. *)
Definition pages := list (Z * list Z).
Fixpoint page (v : Z) (d : pages) : option (list Z) :=
  match d with
  | [] => None
  | (w, l) :: r => if w =? v then Some l else page v r
  end.
(** Put [l] on the page of [v]; a new page comes last. *)
Fixpoint rewrite_page (v : Z) (l : list Z) (d : pages) : pages :=
  match d with
  | [] => [(v, l)]
  | (w, k) :: r => if w =? v then (w, l) :: r else (w, k) :: rewrite_page v l r
  end.
(** The list without the first [g]. *)
Fixpoint strike (g : Z) (l : list Z) : list Z :=
  match l with
  | [] => []
  | x :: r => if x =? g then r else x :: strike g r
  end.
(** A list in ascending order. *)
Fixpoint put (g : Z) (l : list Z) : list Z :=
  match l with
  | [] => [g]
  | x :: r => if g <=? x then g :: l else x :: put g r
  end.
Definition in_order (l : list Z) : list Z := fold_right put [] l.
Definition has (g : Z) (l : list Z) : bool := existsb (Z.eqb g) l.

(** The own address (an object with a number), the room for group addresses,
    the group addresses listed, the pages; and own number, list and pages as
    they were when a call on the association table last returned. *)
Record book := mkbook {
  b_own : address;
  b_room : Z;
  b_listed : list Z;
  b_pages : pages;
  b_then : Z * list Z * pages
}.
Definition settled (own : address) (room : Z) (listed : list Z) (d : pages) : book :=
  mkbook own room listed d (a_val own, listed, d).

(** Listing addresses one after the other: those that are listed already and the
    own address itself (the object; not another one of that number) are passed
    over; the first one for which there is no room ends it. *)
Fixpoint list_them (own : address) (room : Z) (l : list address) (listed : list Z) : bool * list Z :=
  match l with
  | [] => (true, listed)
  | x :: r =>
      if has (a_val x) listed || (N.eqb (a_ref x) (a_ref own) && (a_val x =? a_val own)) then list_them own room r listed
      else if zlen listed <? room then list_them own room r (in_order (a_val x :: listed))
      else (false, listed)
  end.
(** Striking addresses one after the other off the list (not the own number) and
    off the page of [v]; the first one that cannot be struck off ends it, though
    the list may have lost it. *)
Fixpoint strike_them (own v : Z) (l : list Z) (listed : list Z) (d : pages) : res unit * (list Z * pages) :=
  match l with
  | [] => (Ok tt, (listed, d))
  | g :: r =>
      if negb (g =? own) && negb (has g listed) then (Err ValueError, (listed, d)) else
      let listed' := if g =? own then listed else in_order (strike g listed) in
      match page v d with
      | None => (Err KeyError, (listed', d))
      | Some k => if has g k then strike_them own v r listed' (rewrite_page v (strike g k) d)
                  else (Err ValueError, (listed', d))
      end
  end.

(** One call.  A call on the association table that returns settles everything;
    one that raises, and calls on the address table, leave the last column as it
    was. *)
Definition book_call (b : book) (c : shared_call) : res unit * book :=
  match c with
  | Through (Associate a l) =>
      let '(room_for_all, listed) := list_them (b_own b) (b_room b) l (b_listed b) in
      if room_for_all then
        let had := match page (asap_value a) (b_pages b) with Some k => k | None => [] end in
        (Ok tt, settled (b_own b) (b_room b) listed (rewrite_page (asap_value a) (had ++ vals l) (b_pages b)))
      else (Err AddressTableException, mkbook (b_own b) (b_room b) listed (b_pages b) (b_then b))
  | Through (Disassociate a l) =>
      match strike_them (a_val (b_own b)) (asap_value a) (vals l) (b_listed b) (b_pages b) with
      | (Ok _, (listed, d)) => (Ok tt, settled (b_own b) (b_room b) listed d)
      | (Err e, (listed, d)) => (Err e, mkbook (b_own b) (b_room b) listed d (b_then b))
      end
  | Direct (AtAdd x) =>
      if has (a_val x) (b_listed b) && (a_val x =? a_val (b_own b)) then (Ok tt, b)
      else if zlen (b_listed b) <? b_room b
      then (Ok tt, mkbook (b_own b) (b_room b) (in_order (a_val x :: b_listed b)) (b_pages b) (b_then b))
      else (Err AddressTableException, b)
  | Direct (AtRemove x) =>
      if has (a_val x) (b_listed b)
      then (Ok tt, mkbook (b_own b) (b_room b) (in_order (strike (a_val x) (b_listed b))) (b_pages b) (b_then b))
      else (Err ValueError, b)
  | Direct (AtSetIA x) => (Ok tt, mkbook x (b_room b) (b_listed b) (b_pages b) (b_then b))
  end.
Fixpoint book_run (b : book) (h : list shared_call) : list (res unit) * book :=
  match h with
  | [] => ([], b)
  | c :: r =>
      let '(o, b1) := book_call b c in
      let '(os, b2) := book_run b1 r in
      (o :: os, b2)
  end.
(** The same calls on the tables of the code, whether they return or raise. *)
Definition table_call (s : assoc_table) (c : shared_call) : res unit * assoc_table :=
  match c with Through c => as_do s c | Direct c => as_direct s c end.
Fixpoint table_run (s : assoc_table) (h : list shared_call) : list (res unit) * assoc_table :=
  match h with
  | [] => ([], s)
  | c :: r =>
      let '(o, s1) := table_call s c in
      let '(os, s2) := table_run s1 r in
      (o :: os, s2)
  end.

(** The notebook of AssociationTable(t, l): an empty one and the calls of the
    constructor, up to the first that raises. *)
Definition empty_book (t : address_table) : book :=
  settled (at_ia t) (at_max t) (vals (at_addrs t)) [].
Fixpoint unless_raised (b : book) (h : list as_call) : res book :=
  match h with
  | [] => Ok b
  | c :: r => match book_call b (Through c) with (Ok _, b') => unless_raised b' r | (Err e, _) => Err e end
  end.
Definition book_new (t : address_table) (l : list (asap * address)) : res book :=
  unless_raised (empty_book t) (initial_calls t l).

(** Reading the notebook.  An ASAP sends to the numbers on its page, if all of
    them are listed (or the own number) now. *)
Definition book_sends (b : book) (v : Z) : res (list Z) :=
  match page v (b_pages b) with
  | None => Err KeyError
  | Some l => if forallb (fun g => has g (b_listed b) || (g =? a_val (b_own b))) l then Ok l else Err TypeError
  end.
(** The place of a number: of its first entry in the list, counted from 1; 0 for
    the own number; none otherwise. *)
Fixpoint first_place (g : Z) (l : list Z) : option Z :=
  match l with
  | [] => None
  | x :: r => if x =? g then Some 1 else match first_place g r with Some k => Some (k + 1) | None => None end
  end.
Definition place (own : Z) (listed : list Z) (g : Z) : option Z :=
  match first_place g listed with
  | Some k => Some k
  | None => if g =? own then Some 0 else None
  end.
Definition same_place (p q : option Z) : bool :=
  match p, q with
  | Some x, Some y => x =? y
  | None, None => true
  | _, _ => false
  end.
(** A telegram for [g] is for the ASAPs that were given, at the last settlement,
    a number whose place then was the place of [g] now. *)
Definition book_routes (b : book) (g : Z) : res (list Z) :=
  let '(own, listed, d) := b_then b in
  let now := place (a_val (b_own b)) (b_listed b) g in
  match flat_map (fun p => map (fun _ => fst p) (filter (fun x => same_place (place own listed x) now) (snd p))) d with
  | [] => Err KeyError
  | l => Ok l
  end.

(** A result seen through a function. *)
Definition seen_as {A B} (f : A -> B) (r : res A) : res B :=
  match r with Ok x => Ok (f x) | Err e => Err e end.
