(** Model of the way a line takes to the reader of client/usbhid.py: bytes arrive
    from the connection in pieces and [rsock.readline()] (line 97) takes lines
    off them. *)
From Coq Require Import String Ascii ZArith List Bool.
From Verif Require Import Py Msg Address Dpt Tables State Encode Decode Client.
Import ListNotations.
Open Scope Z_scope.

(** asyncio.open_connection (client/usbhid.py 76) without a limit: 2**16. *)
Definition stream_limit : Z := 0x10000.
(** bytearray.find(b'\n'). Inside readline, client/usbhid.py 97. *)
Fixpoint find_lf (l : list Z) : option nat :=
  match l with
  | [] => None
  | b :: r => if b =? 10 then Some O
              else match find_lf r with Some n => Some (S n) | None => None end
  end.
(** asyncio.StreamReader.readline on the bytes at hand: a line, an exception, or
    nothing yet; and the bytes that stay.  A line whose text is longer than the
    limit is taken off and ValueError raised; so is a text without end; at the
    end of the stream the rest counts as a line. Called in client/usbhid.py 97. *)
Definition readline (buf : list Z) (eof : bool) : option (res (list Z)) * list Z :=
  match find_lf buf with
  | Some n =>
      (Some (if Z.of_nat n >? stream_limit then Err ValueError else Ok (firstn (S n) buf)),
       skipn (S n) buf)
  | None =>
      if Z.of_nat (length buf) >? stream_limit then (Some (Err ValueError), [])
      else if eof then (Some (Ok buf), [])
      else (None, buf)
  end.
(** [msg.decode()] (98) for bytes below 128. *)
Definition decoded (l : list Z) : string :=
  string_of_list_ascii (map (fun b => ascii_of_N (Z.to_N b)) l).

(** The client and the stream. client/usbhid.py 75-98. *)
Record streamed := mkstreamed { sd_client : usbclient; sd_buf : list Z; sd_eof : bool }.
(** client/usbhid.py 65-71. *)
Definition sd_new (s : state) (msgs : list message) : streamed := mkstreamed (usb_new s msgs) [] false.
(** Bytes arrive; the connection ends; the reader looks for a line; the writer
    has slept. client/usbhid.py 78-98. *)
Inductive stream_event := SvData (bytes : list Z) | SvEnd | SvRead | SvWriter.
(** client/usbhid.py 86-98: the line goes on to make_from_str and decode_msg. *)
Definition sd_step (x : streamed) (e : stream_event) : streamed * usb_obs :=
  match e with
  | SvData b => (mkstreamed (sd_client x) (if sd_eof x then sd_buf x else sd_buf x ++ b) (sd_eof x), mkuobs None [])
  | SvEnd => (mkstreamed (sd_client x) (sd_buf x) true, mkuobs None [])
  | SvWriter =>
      let '(u, o) := usb_step (sd_client x) UvWriter in
      (mkstreamed u (sd_buf x) (sd_eof x), o)
  | SvRead =>
      match u_reader (sd_client x) with
      | Some _ => (x, mkuobs None [])
      | None =>
          match readline (sd_buf x) (sd_eof x) with
          | (None, _) => (x, mkuobs None [])
          | (Some (Ok line), b) =>
              let '(u, o) := usb_step (sd_client x) (UvLine (decoded line)) in
              (mkstreamed u b (sd_eof x), o)
          | (Some (Err err), b) =>
              (mkstreamed (mkusb (u_state (sd_client x)) (Some err) (u_writer (sd_client x))) b (sd_eof x),
               mkuobs (Some (Err err)) [])
          end
      end
  end.
(** client/usbhid.py 87-91, one event after another. *)
Fixpoint sd_run (x : streamed) (l : list stream_event) : streamed * list usb_obs :=
  match l with
  | [] => (x, [])
  | e :: r =>
      let '(x1, o) := sd_step x e in
      let '(x2, os) := sd_run x1 r in
      (x2, o :: os)
  end.
