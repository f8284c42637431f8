(** Specification vocabulary for C109: what the daemon makes of any bytes that a
    client sends, digits or not. *)
From Coq Require Import String Ascii ZArith List Bool.
From Verif Require Import Py Daemon SpecMsg SpecDaemon.
Import ListNotations.
Open Scope Z_scope.

(** Besides what SpecDaemon.v takes from the C standard: a sign before one digit
    is accepted (the minus sign stores the negative number in an octet, as glibc
    does), a sign alone is not, and what a bare 0x gives depends on the library. *)
Record libc_scanner (zx : option Z) (scan : scanner) : Prop := {
  libc_c : c_scanner scan;
  libc_plus : forall c h rest, hex_code c h -> scan (43 :: c :: rest) = Some h;
  libc_minus : forall c h rest, hex_code c h -> scan (45 :: c :: rest) = Some ((256 - h) mod 256);
  libc_sign : forall s c rest, s = 43 \/ s = 45 -> no_digit c -> scan (s :: c :: rest) = None;
  libc_prefix : forall c rest, c = 88 \/ c = 120 -> scan (48 :: c :: rest) = zx
}.

(** The number at the beginning of a text, if there is one. *)
Inductive number (zx : option Z) : list Z -> option Z -> Prop :=
| n_white c t r : white c -> number zx t r -> number zx (c :: t) r
| n_two c1 c2 h l t : hex_code c1 h -> hex_code c2 l -> number zx (c1 :: c2 :: t) (Some (16 * h + l))
| n_prefix c t : c = 88 \/ c = 120 -> number zx (48 :: c :: t) zx
| n_one c1 c2 h t : hex_code c1 h -> no_digit c2 -> ~ (c1 = 48 /\ (c2 = 88 \/ c2 = 120)) -> number zx (c1 :: c2 :: t) (Some h)
| n_plus c h t : hex_code c h -> number zx (43 :: c :: t) (Some h)
| n_minus c h t : hex_code c h -> number zx (45 :: c :: t) (Some ((256 - h) mod 256))
| n_sign s c t : s = 43 \/ s = 45 -> no_digit c -> number zx (s :: c :: t) None
| n_other c t : no_digit c -> ~ white c -> c <> 43 -> c <> 45 -> number zx (c :: t) None.

(** At most [n] numbers, one from every second byte on, up to the first that is
    none.  The bytes may be those of a number that began before, and bytes behind
    the text that was sent. *)
Inductive numbers (zx : option Z) : nat -> list Z -> list Z -> Prop :=
| ns_end t : numbers zx 0 t []
| ns_stop n t : number zx t None -> numbers zx (S n) t []
| ns_next n c1 c2 t v o : number zx (c1 :: c2 :: t) (Some v) -> numbers zx n t o -> numbers zx (S n) (c1 :: c2 :: t) (v :: o).

(** A text and the line ends behind it, of which two at most count. *)
Definition line_of (chunk body eol : list Z) : Prop :=
  chunk = body ++ eol /\ Forall line_end eol /\ zlen eol <= 2 /\
  (zlen eol = 2 \/ body = [] \/ exists t x, body = t ++ [x] /\ ~ line_end x).

(** The octets read from a chunk, given the memory behind it: none from a text of
    odd length. *)
Inductive read_as (zx : option Z) (behind : list Z) (chunk : list Z) : list Z -> Prop :=
| ra_odd body eol : line_of chunk body eol -> Z.odd (zlen body) = true -> read_as zx behind chunk []
| ra_even body eol n o : line_of chunk body eol -> zlen body = 2 * Z.of_nat n ->
    numbers zx n (chunk ++ behind) o -> read_as zx behind chunk o.

(** The packet buffer after a history. *)
Inductive content (zx : option Z) (packet : list Z) : list devent -> list Z -> Prop :=
| co_start : content zx packet [] packet
| co_accept es fd p : content zx packet es p -> content zx packet (es ++ [DAccept fd]) p
| co_bus es data p : content zx packet es p -> content zx packet (es ++ [DBus data]) (over data p)
| co_gone es fd u p : content zx packet es p -> content zx packet (es ++ [DClient fd [] u]) p
| co_client es fd chunk u o p : content zx packet es p -> chunk <> [] -> read_as zx (ar_behind u) chunk o ->
    content zx packet (es ++ [DClient fd chunk u]) (over o p).
(** The memory behind each chunk ends a string somewhere. *)
Definition ended (e : devent) : Prop := match e with DClient _ _ u => In 0 (ar_behind u) | _ => True end.
