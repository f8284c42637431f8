(** Specification vocabulary for C118: the classes whose objects stand for a number. *)
From Coq Require Import String List.
Import ListNotations.
Open Scope string_scope.

Definition two_octet_numbers : list string := ["DPT_Float_16"; "DPT_Value_Wsp"; "DPT_Value_Temp"; "DPT_Value_Lux"].
Definition four_octet_numbers : list string := ["DPT_Float_32"; "DPT_Value_Power"].
