(** Specification vocabulary for C110: a value described at one application and
    described again at another. *)
From Coq Require Import String ZArith List Bool.
From Verif Require Import Py Msg Address Dpt Tables State Encode Decode.
From Verif Require Import SpecMsg SpecTables SpecWire SpecDecode SpecAcross.
Import ListNotations.
Open Scope Z_scope.

(** The application in state [st] sends writes of [a], which has the type [c], to
    the address [x]. *)
Definition sends_as (st : state) (a : asap) (c : dpt_class) (x : Z) : Prop :=
  exists s go y r, st_assoc st = Some s /\ st_gobj st = Some go /\
    sends_to s a = Ok (y :: r) /\ a_val y = x /\ type_of go (asap_value a) = Some c.
(** In the application in state [st], the group object [b] of type [c] is reached
    by the address [x], and the number [n] sent there can be shown. *)
Definition shown_at (st : state) (b : asap) (c : dpt_class) (x n : Z) : Prop :=
  exists tb l h s go, built tb l h s /\ st_assoc st = Some s /\ st_gobj st = Some go /\
    audible tb l h s go (x, Some n) /\ In x (vals (at_addrs (as_table s))) /\ In (b, c) (reaches tb l h x go).
(** The first application encodes a write of [d] to [a]; whatever the bus makes of
    the frame, the second one, when it decodes it, reports for [b] a value of
    which [P] holds. *)
Definition passed_on (st1 : state) (a : asap) (d : dpt) (st2 : state) (b : asap) (P : dpt -> Prop) : Prop :=
  exists request, fst (encode_msg (MGroupValueWriteReq a d) st1) = wire st1 request /\
  forall indication cl ch pad, carried request indication -> proper_class st2 cl -> octets pad -> room st2 indication ->
  exists ms e, fst (decode_msg cl (delivered st2 ch pad indication) st2) = Ok (reported st2 ms) /\
    In (MGroupValueWriteInd b e) ms /\ P e.
