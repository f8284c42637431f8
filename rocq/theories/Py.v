(** Python and ctypes primitives used by the code under /repo/knx_stack.
    Nothing here models a particular function of the repository: it fixes the
    meaning of integers stored in ctypes fields, of exceptions, of list slices
    and of insertion-ordered dictionaries. *)
From Coq Require Import String ZArith List Bool.
Import ListNotations.
Open Scope Z_scope.

(** Exceptions the modelled code can raise (class only, no message text).
    [PyException] is a bare [Exception(...)]. Raised for example in msg.py 56
    (IndexError), __init__.py 34 (KeyError), msg.py 37 (ValueError), state.py
    160 (AttributeError), definition/layer/network/address_table.py 137-140 and
    __init__.py 43. *)
Inductive exn :=
| IndexError | KeyError | ValueError | AttributeError | TypeError | OSError
| AddressTableException | InvalidOperation | OverflowError | PyException.

(** Outcome of a Python call: a value or an exception. As in encode_msg and
    decode_msg, __init__.py 33-43. *)
Inductive res (A : Type) := Ok (a : A) | Err (e : exn).
Arguments Ok {A} a.
Arguments Err {A} e.

(** One statement after another, for example msg.py 64-67: the first exception
    ends the function. *)
Definition rbind {A B} (r : res A) (f : A -> res B) : res B :=
  match r with Ok a => f a | Err e => Err e end.

Notation "'do' p <- r ; k" := (rbind r (fun p => k))
  (at level 200, p pattern, r at level 100, k at level 200).

(** Stateful code: the state survives an exception (there is no rollback). The
    State object passed to every encoder and decoder, __init__.py 33-43. *)
Definition M (S A : Type) : Type := S -> res A * S.

(** [return] in a function that has the State object, as in __init__.py 34. *)
Definition mret {S A} (a : A) : M S A := fun s => (Ok a, s).
(** [raise] in such a function, as in __init__.py 43. *)
Definition mraise {S A} (e : exn) : M S A := fun s => (Err e, s).
(** One statement after another in such a function, as in client/knxnet_ip.py
    98-99. *)
Definition mbind {S A B} (m : M S A) (f : A -> M S B) : M S B :=
  fun s => match m s with
           | (Ok a, s') => f a s'
           | (Err e, s') => (Err e, s')
           end.
(** Reading the State object, as in state.py 96-109. *)
Definition mget {S} : M S S := fun s => (Ok s, s).
(** Assigning to it, as in state.py 111-113 and 143-145. *)
Definition mmodify {S} (f : S -> S) : M S unit := fun s => (Ok tt, f s).
(** Run a computation that does not touch the state. For example make_from_str
    in client/knxnet_ip.py 115. *)
Definition mlift {S A} (r : res A) : M S A := fun s => (r, s).

Notation "'act' p <- m ; k" := (mbind m (fun p => k))
  (at level 200, p pattern, m at level 100, k at level 200).

(** Store of a Python int into an unsigned ctypes field of [w] bits
    (c_uint8/16/32 or a bit field): reduction modulo 2^w, negative and
    oversized ints included. *)
Definition cuint (w x : Z) : Z := x mod 2 ^ w.

(** Read and write the bit field of width [w] at bit offset [o] of a
    LittleEndianStructure seen through a union as the integer [v]. The
    structures of msg.py 89-90, definition/layer/link/ldata.py 55-109 and
    datapointtypes.py 107-109. *)
Definition get (v o w : Z) : Z := Z.land (Z.shiftr v o) (Z.ones w).
Definition set (v o w x : Z) : Z :=
  Z.lor (Z.ldiff v (Z.shiftl (Z.ones w) o)) (Z.shiftl (Z.land x (Z.ones w)) o).

(** [len(l)] as a Python int. Used in definition/layer/network/address_table.py
    107 and 136. *)
Definition zlen {A} (l : list A) : Z := Z.of_nat (length l).

(** Slices [l[0:n]] and [l[n:]] for a non-negative [n]. *)
Fixpoint ztake {A} (n : Z) (l : list A) : list A :=
  match l with
  | [] => []
  | x :: r => if n <=? 0 then [] else x :: ztake (n - 1) r
  end.
Fixpoint zdrop {A} (n : Z) (l : list A) : list A :=
  match l with
  | [] => []
  | x :: r => if n <=? 0 then l else zdrop (n - 1) r
  end.
(** [l[n]] for a non-negative [n]; [None] stands for IndexError. Used in msg.py
    56, 65-66 and 76-79 and definition/layer/network/address_table.py 115. *)
Fixpoint znth {A} (n : Z) (l : list A) : option A :=
  match l with
  | [] => None
  | x :: r => if n =? 0 then Some x else znth (n - 1) r
  end.

(** Insertion-ordered dictionaries as association lists; [eqb] is the key
    equality ([__eq__] together with a compatible [__hash__]). *)
Section Dict.
  Context {K V : Type} (eqb : K -> K -> bool).
  Fixpoint dget (k : K) (d : list (K * V)) : option V :=
    match d with
    | [] => None
    | (k', v) :: r => if eqb k' k then Some v else dget k r
    end.
  (** [d[k] = v]: an existing entry keeps its position and its key object. *)
  Fixpoint dset (k : K) (v : V) (d : list (K * V)) : list (K * V) :=
    match d with
    | [] => [(k, v)]
    | (k', v') :: r => if eqb k' k then (k', v) :: r else (k', v') :: dset k v r
    end.
  Fixpoint ddel (k : K) (d : list (K * V)) : list (K * V) :=
    match d with
    | [] => []
    | (k', v') :: r => if eqb k' k then r else (k', v') :: ddel k r
    end.
End Dict.

(** Equality of [Optional[int]] keys. The TSAP keys of
    definition/layer/transport/association_table.py, from get_tsap
    (definition/layer/network/address_table.py 119-126). *)
Definition oz_eqb (a b : option Z) : bool :=
  match a, b with
  | None, None => true
  | Some x, Some y => x =? y
  | _, _ => false
  end.
