(** Model of daemon/usbhid.c: the conversion functions and the main loop.  Not
    modelled: option parsing, socket set-up, what is printed to stdout/stderr.
    Failing system calls are in DaemonLife.v. *)
From Coq Require Import Ascii ZArith List Bool.
From Verif Require Import Py.
Import ListNotations.
Open Scope Z_scope.

(** usbhid.c 16. *)
Definition KNXHIDPACKETLEN : Z := 56.

(** Memory accesses to the arrays the code indexes itself: reads of and writes
    to the 113-byte text buffer, writes to the 56-byte packet buffer. *)
Inductive access := RdBuf (i : Z) | WrBuf (i : Z) | WrPkt (i : Z).

(** The scanning of two characters, [sscanf(tail, "%2hhx", ...)]: [None] when it
    does not return 1.  It is given the bytes of memory from [&buffer[2i]] on. *)
Definition scanner := list Z -> option Z.

(** The memory around what read() stored: the byte before the buffer, and the
    bytes behind the stored ones (the rest of the 113-byte buffer, which nobody
    initialises, and then what follows it on the stack). *)
Record around := mkaround { ar_before : Z; ar_behind : list Z }.

(** Store into the packet buffer; an index outside it stores nothing here (and
    is reported by the access trace). usbhid.c 149 and 52. *)
Fixpoint upd (l : list Z) (i : Z) (v : Z) : list Z :=
  match l with
  | [] => []
  | x :: r => if i =? 0 then v :: r else x :: upd r (i - 1) v
  end.

Definition is_eol (c : Z) : bool := (c =? 10) || (c =? 13).

(** usbhid.c 148-152: the parsing loop from index [i]; [n] iterations left.
    Returns the return value of the function, the packet buffer and the trace. *)
Fixpoint parse_loop (scan : scanner) (n : nat) (i : Z) (buffer packet : list Z)
    : Z * list Z * list access :=
  match n with
  | O => (i, packet, [])
  | S n' =>
      match scan (zdrop (i * 2) buffer) with
      | None => (0, packet, [RdBuf (i * 2)])
      | Some v =>
          let '(r, p, t) := parse_loop scan n' (i + 1) buffer (upd packet i v) in
          (r, p, RdBuf (i * 2) :: WrPkt i :: t)
      end
  end.

(** usbhid.c 130-156 read_from_client.  [chunk] is what read() delivered: at
    most 113 bytes; an empty chunk is end of file (or a read error).  [u] is the
    memory around it; line 143 reads the byte before the buffer when the chunk is
    a single end-of-line character. *)
Definition read_from_client (scan : scanner) (u : around) (chunk packet : list Z)
    : Z * list Z * list access :=
  let buf i := if i =? -1 then ar_before u else match znth i chunk with Some c => c | None => 0 end in
  let nbytes := zlen chunk in
  if nbytes =? 0 then (-1, packet, [])
  else
    let t1 := [RdBuf (nbytes - 1)] in
    let nbytes := if is_eol (buf (nbytes - 1)) then nbytes - 1 else nbytes in
    let t2 := [RdBuf (nbytes - 1)] in
    let nbytes := if is_eol (buf (nbytes - 1)) then nbytes - 1 else nbytes in
    if negb (Z.rem nbytes 2 =? 0) then (0, packet, t1 ++ t2)
    else
      let '(r, p, t) := parse_loop scan (Z.to_nat (Z.quot nbytes 2)) 0 (chunk ++ ar_behind u) packet in
      (r, p, t1 ++ t2 ++ t).

(** Two lower-case hexadecimal digits, "%02x". usbhid.c 163. *)
Definition hexchar (n : Z) : Z := if n <? 10 then 48 + n else 87 + n.
Definition hex2 (v : Z) : list Z := [hexchar (v / 16); hexchar (v mod 16)].

(** usbhid.c 158-167 write_to_client: the text written to the client, and the
    accesses to its 113-byte buffer (sprintf stores two digits and a NUL). *)
Definition client_text (packet : list Z) : list Z := flat_map hex2 packet ++ [10].
Fixpoint sprintf_trace (n : nat) (i : Z) : list access :=
  match n with
  | O => []
  | S n' => WrBuf (i * 2) :: WrBuf (i * 2 + 1) :: WrBuf (i * 2 + 2) :: sprintf_trace n' (i + 1)
  end.
Definition write_to_client_trace (len : Z) : list access :=
  sprintf_trace (Z.to_nat len) 0 ++ [WrBuf (len * 2)].

(** The daemon's memory: the shared packet buffer (179, 219; malloc does not
    initialise it), the client slots (186, 225-227) and the descriptors of
    accepted clients that select() watches (221-223, 251, 269). *)
Record daemon := mkdaemon {
  dm_packet : list Z;
  dm_slots : list Z;
  dm_active : list Z
}.
(** 219-227; MAX_CLIENTS is 64 (19). *)
Definition daemon_new (packet : list Z) : daemon :=
  mkdaemon packet (repeat (-1) 64) [].

(** What select() reports, one descriptor at a time (236-280): a connection, a
    packet from the bus (read() stores its octets at the start of the shared
    buffer), or input from a client (an empty chunk is end of file) together with
    what happens to be in memory around the text. *)
Inductive devent :=
| DAccept (fd : Z)
| DBus (data : list Z)
| DClient (fd : Z) (chunk : list Z) (u : around).

(** What the daemon writes: a packet to the bus interface, text to a client.
    usbhid.c 68 and 166. *)
Inductive dout := ToBus (packet : list Z) | ToClient (fd : Z) (text : list Z).

(** 252-257: the first free slot takes the descriptor. *)
Fixpoint take_slot (fd : Z) (l : list Z) : list Z :=
  match l with
  | [] => []
  | x :: r => if x =? -1 then fd :: r else x :: take_slot fd r
  end.
(** 270-275: the first slot with the descriptor becomes free. *)
Fixpoint free_slot (fd : Z) (l : list Z) : list Z :=
  match l with
  | [] => []
  | x :: r => if x =? fd then -1 :: r else x :: free_slot fd r
  end.
(** read() of a bus packet into the shared buffer (48-63): it overwrites the
    first octets. *)
Definition overlay (data packet : list Z) : list Z := data ++ zdrop (zlen data) packet.

(** usbhid.c 236-280, the handling of one ready descriptor. *)
Definition daemon_step (scan : scanner) (d : daemon) (e : devent)
    : daemon * list dout :=
  match e with
  | DAccept fd =>
      (mkdaemon (dm_packet d) (take_slot fd (dm_slots d)) (fd :: dm_active d), [])
  | DBus data =>
      let p := overlay data (dm_packet d) in
      (mkdaemon p (dm_slots d) (dm_active d),
       map (fun fd => ToClient fd (client_text (ztake (zlen data) p)))
           (filter (fun fd => fd >? 0) (dm_slots d)))
  | DClient fd chunk u =>
      let '(r, p, _) := read_from_client scan u chunk (dm_packet d) in
      if r >=? 0 then (mkdaemon p (dm_slots d) (dm_active d), [ToBus (ztake KNXHIDPACKETLEN p)])
      else (mkdaemon p (free_slot fd (dm_slots d))
                     (filter (fun x => negb (x =? fd)) (dm_active d)), [])
  end.
Fixpoint daemon_run (scan : scanner) (d : daemon) (l : list devent)
    : daemon * list (list dout) :=
  match l with
  | [] => (d, [])
  | e :: r =>
      let '(d1, o) := daemon_step scan d e in
      let '(d2, os) := daemon_run scan d1 r in
      (d2, o :: os)
  end.

(** The array accesses of one step: read() stores the octets of a bus packet
    (52), write_to_client runs once per client (260-264), read_from_client once
    (266). *)
Fixpoint store_trace (n : nat) (i : Z) : list access :=
  match n with O => [] | S n' => WrPkt i :: store_trace n' (i + 1) end.
Definition daemon_trace (scan : scanner) (d : daemon) (e : devent) : list access :=
  match e with
  | DAccept fd => []
  | DBus data =>
      store_trace (length data) 0 ++
      flat_map (fun _ => write_to_client_trace (zlen data)) (filter (fun fd => fd >? 0) (dm_slots d))
  | DClient fd chunk u => snd (read_from_client scan u chunk (dm_packet d))
  end.

(** ** The bytes that library functions read of the text buffer *)

(** isspace() in the C locale, and what %x accepts as the first character. Of
    the sscanf of usbhid.c 149. *)
Definition c_space (c : Z) : bool := (c =? 32) || ((9 <=? c) && (c <=? 13)).
Definition c_starts (c : Z) : bool :=
  ((48 <=? c) && (c <=? 57)) || ((65 <=? c) && (c <=? 70)) || ((97 <=? c) && (c <=? 102)) ||
  (c =? 43) || (c =? 45).
(** How many bytes "%2hhx" looks at: the white space before the number, and one
    or two characters of it.  (A library may look at more, up to the NUL.)
    usbhid.c 149. *)
Fixpoint scan_reads (text : list Z) : Z :=
  match text with
  | [] => 0
  | c :: r => if c_space c then 1 + scan_reads r else if c_starts c then 2 else 1
  end.
Fixpoint reads_from (n : nat) (i : Z) : list access :=
  match n with O => [] | S n' => RdBuf i :: reads_from n' (i + 1) end.
(** usbhid.c 148-152: the bytes the calls of sscanf() look at, and whether the
    loop gets to its end. *)
Fixpoint scan_trace (scan : scanner) (n : nat) (i : Z) (buffer : list Z) : list access * bool :=
  match n with
  | O => ([], true)
  | S n' =>
      let t := reads_from (Z.to_nat (scan_reads (zdrop (i * 2) buffer))) (i * 2) in
      match scan (zdrop (i * 2) buffer) with
      | None => (t, false)
      | Some _ => let '(t', b) := scan_trace scan n' (i + 1) buffer in (t ++ t', b)
      end
  end.
(** "%s" (line 153) reads a string up to its NUL. *)
Fixpoint string_trace (text : list Z) (i : Z) : list access :=
  match text with
  | [] => []
  | c :: r => RdBuf i :: (if c =? 0 then [] else string_trace r (i + 1))
  end.
(** The number of bytes that lines 141-144 leave. *)
Definition left_bytes (u : around) (chunk : list Z) : Z :=
  let buf i := if i =? -1 then ar_before u else match znth i chunk with Some c => c | None => 0 end in
  let nbytes := zlen chunk in
  let nbytes := if is_eol (buf (nbytes - 1)) then nbytes - 1 else nbytes in
  if is_eol (buf (nbytes - 1)) then nbytes - 1 else nbytes.
(** usbhid.c 140-154: the bytes of the text buffer that sscanf() and fprintf()
    look at. *)
Definition library_trace (scan : scanner) (u : around) (chunk : list Z) : list access :=
  let nbytes := left_bytes u chunk in
  if (zlen chunk =? 0) || negb (Z.rem nbytes 2 =? 0) then []
  else
    let '(t, b) := scan_trace scan (Z.to_nat (Z.quot nbytes 2)) 0 (chunk ++ ar_behind u) in
    t ++ (if b then string_trace (chunk ++ ar_behind u) 0 else []).
