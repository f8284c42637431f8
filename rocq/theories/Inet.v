(** socket.inet_aton / inet_ntoa, used by the HPAI blocks.  inet_aton follows the
    GNU C library, on which Python's function rests. *)
From Coq Require Import String Ascii ZArith List Bool.
From Verif Require Import Py.
Import ListNotations.
Open Scope Z_scope.

(** Decimal digit. Of the text decode/knxnet_ip/core/search/res.py 29 makes. *)
Definition decdigit (n : Z) : ascii := ascii_of_N (Z.to_N (48 + n)).
(** Decimal text of 0..255 without leading zeros. *)
Definition dec3 (n : Z) : list ascii :=
  if n <? 10 then [decdigit n]
  else if n <? 100 then [decdigit (n / 10); decdigit (n mod 10)]
  else [decdigit (n / 100); decdigit (n / 10 mod 10); decdigit (n mod 10)].

Definition dot : ascii := "."%char.

(** [socket.inet_ntoa] of four octets. Called in
    decode/knxnet_ip/core/search/res.py 29. *)
Definition inet_ntoa (b3 b2 b1 b0 : Z) : string :=
  string_of_list_ascii (dec3 b3 ++ [dot] ++ dec3 b2 ++ [dot] ++ dec3 b1 ++ [dot] ++ dec3 b0).

(** The value of a digit 0-9, a-f, A-F, or nothing. *)
Definition digit_value (c : ascii) : option Z :=
  let n := Z.of_N (N_of_ascii c) in
  if (48 <=? n) && (n <=? 57) then Some (n - 48)
  else if (65 <=? n) && (n <=? 70) then Some (n - 55)
  else if (97 <=? n) && (n <=? 102) then Some (n - 87)
  else None.
(** isspace in the C locale: blank, \t, \n, \v, \f, \r. Part of inet_aton,
    called in encode/knxnet_ip/core/search/req.py 20. *)
Definition isspace (c : ascii) : bool :=
  let n := Z.of_N (N_of_ascii c) in (n =? 32) || ((9 <=? n) && (n <=? 13)).

(** The longest run of digits of a base: its value, and what follows. Part of
    inet_aton, called in encode/knxnet_ip/core/search/req.py 20. *)
Fixpoint run_of (base v : Z) (l : list ascii) : Z * list ascii :=
  match l with
  | c :: r => match digit_value c with
              | Some d => if d <? base then run_of base (base * v + d) r else (v, l)
              | None => (v, l)
              end
  | [] => (v, [])
  end.
(** [c] is a digit of the base. Part of inet_aton, called in
    encode/knxnet_ip/core/search/req.py 20. *)
Definition is_digit_of (base : Z) (c : ascii) : bool :=
  match digit_value c with Some d => d <? base | None => false end.

(** [strtoul(cp, &end, 0)] on text that begins with a decimal digit: 0x and a
    hexadecimal digit introduce base 16, another 0 base 8.  The value is not
    cut; the caller rejects what does not fit. *)
Definition strtoul (l : list ascii) : Z * list ascii :=
  match l with
  | z :: x :: h :: r =>
      if Ascii.eqb z "0" && (Ascii.eqb x "x" || Ascii.eqb x "X") && is_digit_of 16 h
      then run_of 16 0 (h :: r)
      else run_of (if Ascii.eqb z "0" then 8 else 10) 0 l
  | z :: _ => run_of (if Ascii.eqb z "0" then 8 else 10) 0 l
  | [] => (0, [])
  end.

(** The octets of a number, most significant first. Part of inet_aton, called in
    encode/knxnet_ip/core/search/req.py 20. *)
Fixpoint be_octets (n : nat) (v : Z) : list Z :=
  match n with O => [] | S n' => be_octets n' (v / 256) ++ [v mod 256] end.

(** The loop of inet_aton: [n] more dots may follow; every part but the last is
    an octet, the last one fills the rest of the address.  Behind it the text
    ends or white space follows, and then anything. Part of inet_aton, called in
    encode/knxnet_ip/core/search/req.py 20. *)
Fixpoint aton_parts (n : nat) (l : list ascii) : option (list Z) :=
  match l with
  | [] => None
  | c :: _ =>
      if is_digit_of 10 c then
        let '(v, rest) := strtoul l in
        if v >? 0xFFFFFFFF then None else
        match rest with
        | [] => if v <? 256 ^ (Z.of_nat n + 1) then Some (be_octets (S n) v) else None
        | d :: r =>
            if Ascii.eqb d dot then
              match n with
              | O => None
              | S n' => if v >? 0xFF then None
                        else match aton_parts n' r with Some l' => Some (v :: l') | None => None end
              end
            else if isspace d then
              if v <? 256 ^ (Z.of_nat n + 1) then Some (be_octets (S n) v) else None
            else None
        end
      else None
  end.

(** [socket.inet_aton]: ValueError on an embedded null character, OSError on any
    other text that is not an address. Called in
    encode/knxnet_ip/core/search/req.py 20, encode/knxnet_ip/core/connect/req.py
    29-30, encode/knxnet_ip/core/connectionstate/req.py 21 and
    encode/knxnet_ip/core/disconnect/req.py 21. *)
Definition inet_aton (s : string) : res (list Z) :=
  let l := list_ascii_of_string s in
  if existsb (Ascii.eqb zero) l then Err ValueError
  else match aton_parts 3 l with
       | Some ip => Ok ip
       | None => Err OSError
       end.
