(** Specification vocabulary for C72: which texts denote an IPv4 address. *)
From Coq Require Import String Ascii ZArith List Bool.
From Verif Require Import SpecMsg.
Import ListNotations.
Open Scope Z_scope.

(** A digit of a base up to 16, in either case. *)
Definition digit_of (base : Z) (c : ascii) (d : Z) : Prop :=
  0 <= d < base /\
  (nth_error (list_ascii_of_string "0123456789abcdef") (Z.to_nat d) = Some c \/
   nth_error (list_ascii_of_string "0123456789ABCDEF") (Z.to_nat d) = Some c).
(** A run of digits of a base, and its value. *)
Definition reads (base : Z) (text : list ascii) (v : Z) : Prop :=
  exists ds, Forall2 (digit_of base) text ds /\ v = fold_left (fun n d => base * n + d) ds 0.
(** Numbers as in C: decimal, octal after 0, hexadecimal after 0x. *)
Definition numeral (text : list ascii) (v : Z) : Prop :=
  (exists c r, text = c :: r /\ c <> "0"%char /\ reads 10 text v) \/
  (exists r, text = "0"%char :: r /\ reads 8 r v) \/
  (exists x r, text = "0"%char :: x :: r /\ (x = "x"%char \/ x = "X"%char) /\ r <> [] /\ reads 16 r v).
(** Parts separated by dots. *)
Fixpoint dots (parts : list (list ascii)) : list ascii :=
  match parts with
  | [] => []
  | [p] => p
  | p :: r => p ++ "."%char :: dots r
  end.
(** White space in C. *)
Definition white (c : ascii) : Prop := In (N_of_ascii c) [9; 10; 11; 12; 13; 32]%N.

(** One to four numbers separated by dots: all but the last one are octets, the
    last one gives the remaining octets of the [n].  White space and anything
    after it is ignored. *)
Definition octets_text (n : nat) (text : list ascii) (ip : list Z) : Prop :=
  exists parts init rest tail,
    text = dots parts ++ tail /\ (tail = [] \/ exists c r, tail = c :: r /\ white c) /\
    length ip = n /\ octets ip /\ ip = init ++ rest /\ rest <> [] /\
    Forall2 numeral parts (init ++ [big_endian rest]).
Definition address_text (s : string) (ip : list Z) : Prop := octets_text 4 (list_ascii_of_string s) ip.
