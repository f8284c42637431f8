(** Model of text beyond ASCII: [bytes.decode()] (client/usbhid.py 98) and
    [int(nibble, 16)] (msg.py 37 and 39) on any code points. *)
From Coq Require Import String Ascii ZArith List Bool.
From Verif Require Import Py Msg Address Dpt Tables State Encode Decode Client.
Import ListNotations.
Open Scope Z_scope.

(** [bytes.decode()] of client/usbhid.py 98: UTF-8 with strict errors, the code
    points of the text.  UnicodeDecodeError is a ValueError. *)
Definition within (a b x : Z) : bool := (a <=? x) && (x <=? b).
Fixpoint utf8 (l : list Z) : res (list Z) :=
  match l with
  | [] => Ok []
  | b1 :: r1 =>
      if b1 <? 0x80 then do t <- utf8 r1; Ok (b1 :: t)
      else match r1 with
      | [] => Err ValueError
      | b2 :: r2 =>
          if within 0xC2 0xDF b1 then
            if within 0x80 0xBF b2 then
              do t <- utf8 r2; Ok ((b1 - 0xC0) * 64 + (b2 - 0x80) :: t)
            else Err ValueError
          else match r2 with
          | [] => Err ValueError
          | b3 :: r3 =>
              if within 0xE0 0xEF b1 then
                if within (if b1 =? 0xE0 then 0xA0 else 0x80) (if b1 =? 0xED then 0x9F else 0xBF) b2
                   && within 0x80 0xBF b3 then
                  do t <- utf8 r3;
                  Ok ((b1 - 0xE0) * 4096 + (b2 - 0x80) * 64 + (b3 - 0x80) :: t)
                else Err ValueError
              else match r3 with
              | [] => Err ValueError
              | b4 :: r4 =>
                  if within 0xF0 0xF4 b1
                     && within (if b1 =? 0xF0 then 0x90 else 0x80) (if b1 =? 0xF4 then 0x8F else 0xBF) b2
                     && within 0x80 0xBF b3 && within 0x80 0xBF b4 then
                    do t <- utf8 r4;
                    Ok ((b1 - 0xF0) * 262144 + (b2 - 0x80) * 4096 + (b3 - 0x80) * 64 + (b4 - 0x80) :: t)
                  else Err ValueError
              end
          end
      end
  end.

(** [int(c, 16)] of one character (msg.py 37 and 39): the digits and letters of
    ASCII, and the decimal digits of other scripts, which Python replaces by
    those of ASCII first.  Which scripts there are depends on the Unicode
    version: [zeros] lists their digits zero. *)
Fixpoint other_digit (zeros : list Z) (c : Z) : option Z :=
  match zeros with
  | [] => None
  | z :: r => if within z (z + 9) c then Some (c - z) else other_digit r c
  end.
Definition hexval_point (zeros : list Z) (c : Z) : option Z :=
  if within 48 57 c then Some (c - 48)
  else if within 65 70 c then Some (c - 55)
  else if within 97 102 c then Some (c - 87)
  else other_digit zeros c.
(** The list comprehensions of msg.py 36-39. *)
Fixpoint hexval_points (zeros : list Z) (l : list Z) : res (list Z) :=
  match l with
  | [] => Ok []
  | c :: r => match hexval_point zeros c with
              | None => Err ValueError
              | Some v => do vs <- hexval_points zeros r; Ok (v :: vs)
              end
  end.
(** msg.py 34-48 stringtooctects and 29-32 make_from_str, of a text given by its
    code points. *)
Definition octects_of_points (zeros : list Z) (t : list Z) : res msg :=
  do highs <- hexval_points zeros (evens t);
  do lows <- hexval_points zeros (odds t);
  Ok (zipmap highs lows).

(** client/usbhid.py 96-98 and 89: the octets of a line given by its bytes;
    [0:-1] leaves the last character out. *)
Definition line_octects (zeros : list Z) (line : list Z) : res msg :=
  do t <- utf8 line; octects_of_points zeros (removelast t).
(** client/usbhid.py 86-91: one iteration of _knx_read on the bytes of a line. *)
Definition usb_read_bytes (zeros : list Z) (line : list Z) : M state dres :=
  act m <- mlift (line_octects zeros line);
  act data <- decode_msg CPlain m;
  act _ <- mlift (dres_repr data);
  mret data.
