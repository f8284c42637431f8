(** Model of knx_stack/msg.py. *)
From Coq Require Import String Ascii ZArith List Bool.
From Verif Require Import Py.
Import ListNotations.
Open Scope Z_scope.

(** msg.py 5-27: a Msg is a list of Octect; an Octect is its value 0..255. *)
Definition msg := list Z.

(** [int(nibble, 16)] on one character (msg.py 37,39).  Characters are code
    points 0..255; for those above, see Unicode.v. *)
Definition hexval (c : ascii) : option Z :=
  let n := Z.of_N (N_of_ascii c) in
  if (48 <=? n) && (n <=? 57) then Some (n - 48)
  else if (65 <=? n) && (n <=? 70) then Some (n - 55)
  else if (97 <=? n) && (n <=? 102) then Some (n - 87)
  else None.

(** msg.py 93,109: [Octect(Nibbles(high, low))], fields low 4 | high 4
    (msg.py 89-90). *)
Definition octect_of_nibbles (high low : Z) : Z := set (set 0 4 4 high) 0 4 low.
Definition nibble_low (o : Z) : Z := get o 0 4.
Definition nibble_high (o : Z) : Z := get o 4 4.

(** msg.py 35-39: the characters at even and at odd positions. *)
Fixpoint evens {A} (l : list A) : list A :=
  match l with
  | [] => []
  | [c] => [c]
  | c :: _ :: r => c :: evens r
  end.
Fixpoint odds {A} (l : list A) : list A :=
  match l with
  | [] => []
  | [_] => []
  | _ :: c :: r => c :: odds r
  end.

(** The list comprehensions of msg.py 36-39: ValueError on a character that is
    not a hexadecimal digit. *)
Fixpoint hexvals (l : list ascii) : res (list Z) :=
  match l with
  | [] => Ok []
  | c :: r => match hexval c with
              | None => Err ValueError
              | Some v => do vs <- hexvals r; Ok (v :: vs)
              end
  end.

(** [map(f, xs, ys)] stops at the shorter list (msg.py 41-47). *)
Fixpoint zipmap (hs ls : list Z) : list Z :=
  match hs, ls with
  | h :: hs', l :: ls' => octect_of_nibbles h l :: zipmap hs' ls'
  | _, _ => []
  end.

(** msg.py 34-48 stringtooctects. *)
Definition stringtooctects (s : string) : res (list Z) :=
  let cs := list_ascii_of_string s in
  do highs <- hexvals (evens cs);
  do lows <- hexvals (odds cs);
  Ok (zipmap highs lows).

(** msg.py 29-32 make_from_str. *)
Definition make_from_str (s : string) : res msg := stringtooctects s.

(** One upper-case hexadecimal digit. Of "%02X", msg.py 85. *)
Definition hexdigit (n : Z) : ascii :=
  ascii_of_N (Z.to_N (if n <? 10 then 48 + n else 55 + n)).

(** msg.py 82-86 __repr__: "%02X" of every octet, concatenated. *)
Fixpoint msg_str (m : msg) : string :=
  match m with
  | [] => EmptyString
  | o :: r => String (hexdigit (o / 16)) (String (hexdigit (o mod 16)) (msg_str r))
  end.

(** msg.py 50-56 octect. *)
Definition octect (m : msg) : res (Z * msg) :=
  match m with
  | [] => Err IndexError
  | o :: r => Ok (o, r)
  end.

(** msg.py 58-67 short, with Short/Bytes of 115-139 (LSB 8 | MSB 8). *)
Definition short (m : msg) : res (Z * msg) :=
  match m with
  | b0 :: b1 :: r => Ok (set (set 0 8 8 b0) 0 8 b1, r)
  | _ => Err IndexError
  end.

(** msg.py 69-80 long, with Long/LBytes of 157-182 (B1 8 | B2 8 | B3 8 | B4 8). *)
Definition long (m : msg) : res (Z * msg) :=
  match m with
  | b0 :: b1 :: b2 :: b3 :: r =>
      Ok (set (set (set (set 0 24 8 b0) 16 8 b1) 8 8 b2) 0 8 b3, r)
  | _ => Err IndexError
  end.

(** [Octect(value=v)] (msg.py 109). *)
Definition Octect (v : Z) : Z := cuint 8 v.
(** [Short(value=v)] (msg.py 139) and its parts (msg.py 141-151). *)
Definition Short (v : Z) : Z := cuint 16 v.
Definition short_MSB (s : Z) : Z := Octect (get s 8 8).
Definition short_LSB (s : Z) : Z := Octect (get s 0 8).
Definition short_octects (s : Z) : list Z := [short_MSB s; short_LSB s].
(** [Long(value=v)] (msg.py 182) and its parts (msg.py 184-202). *)
Definition Long (v : Z) : Z := cuint 32 v.
Definition long_B1 (l : Z) : Z := Octect (get l 0 8).
Definition long_B2 (l : Z) : Z := Octect (get l 8 8).
Definition long_B3 (l : Z) : Z := Octect (get l 16 8).
Definition long_B4 (l : Z) : Z := Octect (get l 24 8).
Definition long_octects (l : Z) : list Z := [long_B4 l; long_B3 l; long_B2 l; long_B1 l].
