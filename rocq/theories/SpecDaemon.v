(** Specification vocabulary for the daemon (C55-C58), written without reference
    to the model's functions. *)
From Coq Require Import String Ascii ZArith List Bool.
From Verif Require Import Py Daemon SpecMsg.
Import ListNotations.
Open Scope Z_scope.

(** The bytes of a text. *)
Definition bytes_of (s : string) : list Z :=
  map (fun c => Z.of_N (N_of_ascii c)) (list_ascii_of_string s).

(** [c] is the code of a hexadecimal digit, in either case, of value [v]. *)
Definition hex_code (c v : Z) : Prop :=
  (48 <= c <= 57 /\ v = c - 48) \/ (65 <= c <= 70 /\ v = c - 55) \/ (97 <= c <= 102 /\ v = c - 87).
(** [text] consists of two digits for each octet of [o]. *)
Inductive denotes : list Z -> list Z -> Prop :=
| denotes_nil : denotes [] []
| denotes_pair c1 c2 h l text o : hex_code c1 h -> hex_code c2 l -> denotes text o ->
    denotes (c1 :: c2 :: text) (16 * h + l :: o).
(** Carriage return or line feed. *)
Definition line_end (c : Z) : Prop := c = 10 \/ c = 13.
Definition no_digit (c : Z) : Prop := forall v, ~ hex_code c v.
Definition white (c : Z) : Prop := c = 32 \/ 9 <= c <= 13.

(** What the C standard says of [sscanf(text, "%2hhx", &octet)] on a text of at
    least two characters: white space is skipped; two digits are read as an octet; a digit followed by
    something else is read as that digit (unless the two are a 0x prefix); a
    character that cannot begin a number is a failure. *)
Record c_scanner (scan : scanner) : Prop := {
  scan_two : forall c1 c2 h l rest, hex_code c1 h -> hex_code c2 l -> scan (c1 :: c2 :: rest) = Some (16 * h + l);
  scan_one : forall c1 c2 h rest, hex_code c1 h -> no_digit c2 -> ~ (c1 = 48 /\ (c2 = 88 \/ c2 = 120)) ->
    scan (c1 :: c2 :: rest) = Some h;
  scan_bad : forall c rest, no_digit c -> ~ white c -> c <> 43 -> c <> 45 -> scan (c :: rest) = None;
  scan_white : forall c rest, white c -> scan (c :: rest) = scan rest;
  scan_octet : forall text v, scan text = Some v -> is_octet v
}.

(** The clients that are connected, and those that hold one of 64 places, after
    a history: a client gets a place when it connects and one is free, and
    loses it when its connection ends. *)
Definition leaves (e : devent) : option Z :=
  match e with DClient fd [] _ => Some fd | _ => None end.
Definition without (fd : Z) (l : list Z) : list Z := filter (fun x => negb (x =? fd)) l.
Definition connect1 (l : list Z) (e : devent) : list Z :=
  match e with
  | DAccept fd => fd :: l
  | _ => match leaves e with Some fd => without fd l | None => l end
  end.
Definition connected (es : list devent) : list Z := fold_left connect1 es [].
Definition register1 (l : list Z) (e : devent) : list Z :=
  match e with
  | DAccept fd => if zlen l <? 64 then l ++ [fd] else l
  | _ => match leaves e with Some fd => without fd l | None => l end
  end.
Definition registered (es : list devent) : list Z := fold_left register1 es [].

(** What can happen: accept() returns a descriptor that is not in use (not 0,
    which is the standard input), read() returns at most as many octets as the
    buffers hold, input comes from connected clients. *)
Definition possible1 (conn : list Z) (e : devent) : Prop :=
  match e with
  | DAccept fd => 0 < fd /\ ~ In fd conn
  | DBus data => octets data /\ zlen data <= 56
  | DClient fd chunk u => In fd conn /\ octets chunk /\ zlen chunk <= 113 /\ is_octet (ar_before u) /\ octets (ar_behind u)
  end.
Fixpoint possible (conn : list Z) (es : list devent) : Prop :=
  match es with
  | [] => True
  | e :: r => possible1 conn e /\ possible (connect1 conn e) r
  end.

(** An access that stays inside its array: 113 bytes of text, 56 octets. *)
Definition inside (a : access) : Prop :=
  match a with
  | RdBuf i | WrBuf i => 0 <= i < 113
  | WrPkt i => 0 <= i < 56
  end.

(** The lower-case text of octets, with its line feed. *)
Definition lower_digit (n : Z) : Z := nth (Z.to_nat n) (bytes_of "0123456789abcdef") 0.
Definition lower_line (o : list Z) : list Z :=
  flat_map (fun x => [lower_digit (x / 16); lower_digit (x mod 16)]) o ++ [10].
(** A packet buffer with new octets at its start. *)
Definition over (o packet : list Z) : list Z := o ++ skipn (length o) packet.
(** The daemon after a history that started with the given buffer content, and
    what it does on the next event. *)
Definition dafter (scan : scanner) (packet : list Z) (es : list devent) : daemon :=
  fst (daemon_run scan (daemon_new packet) es).
Definition answers (scan : scanner) (packet : list Z) (es : list devent) (e : devent) : list dout :=
  snd (daemon_step scan (dafter scan packet es) e).
