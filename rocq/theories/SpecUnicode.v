(** Specification of UTF-8 (RFC 3629) and of digits, for C102. *)
From Coq Require Import ZArith List.
Import ListNotations.
Open Scope Z_scope.

(** A character: a code point that is not a surrogate. *)
Definition scalar (c : Z) : Prop := 0 <= c <= 0x10FFFF /\ ~ (0xD800 <= c <= 0xDFFF).
(** The bytes of a character. *)
Definition utf8_of (c : Z) : list Z :=
  if c <? 0x80 then [c]
  else if c <? 0x800 then [0xC0 + c / 64; 0x80 + c mod 64]
  else if c <? 0x10000 then [0xE0 + c / 4096; 0x80 + c / 64 mod 64; 0x80 + c mod 64]
  else [0xF0 + c / 262144; 0x80 + c / 4096 mod 64; 0x80 + c / 64 mod 64; 0x80 + c mod 64].
(** The bytes of a text. *)
Definition written (t : list Z) : list Z := flat_map utf8_of t.

(** The digits zero of other scripts: ten code points each, none of them twice,
    none of ASCII. *)
Definition scripts (zeros : list Z) : Prop :=
  (forall z, In z zeros -> 0x80 <= z) /\
  (forall y z, In y zeros -> In z zeros -> y < z -> y + 10 <= z).
(** A hexadecimal digit and what it is worth. *)
Inductive worth (zeros : list Z) (c : Z) : Z -> Prop :=
| Worth_decimal v : 0 <= v <= 9 -> c = 0x30 + v -> worth zeros c v
| Worth_upper v : 10 <= v <= 15 -> c = 0x41 + (v - 10) -> worth zeros c v
| Worth_lower v : 10 <= v <= 15 -> c = 0x61 + (v - 10) -> worth zeros c v
| Worth_other z v : In z zeros -> 0 <= v <= 9 -> c = z + v -> worth zeros c v.
(** Digits taken two by two; one left over is dropped. *)
Fixpoint pairs (vs : list Z) : list Z :=
  match vs with
  | h :: l :: r => 16 * h + l :: pairs r
  | _ => []
  end.
