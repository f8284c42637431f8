(** Vocabulary for the statements about datapoint types (C43-C51). *)
From Coq Require Import String ZArith QArith Qabs List Bool SpecFloat.
From Verif Require Import Py Float Dpt.
Import ListNotations.
Open Scope string_scope.
Open Scope list_scope.
Open Scope Z_scope.

(** A raw value of a class: an integer of the width of the union. *)
Definition raw_value (c : dpt_class) (v : Z) : Prop := 0 <= v < 2 ^ (8 * dpt_size c).

(** ** Fields *)

(** A field by the position of its lowest bit and its width. *)
Definition field (v at_bit width : Z) : Z := v / 2 ^ at_bit mod 2 ^ width.
(** [v] with another content of the field. *)
Definition with_field (v at_bit width x : Z) : Z :=
  v + (x mod 2 ^ width - field v at_bit width) * 2 ^ at_bit.

(** Where the fields of the classes are: scenes have their number in the low six
    bits, the dimming direction follows a three-bit step, the 2-octet float has
    its sign in the top bit, ... *)
Definition position (c : dpt_class) (n : string) : option (Z * Z) :=
  match c with
  | Switch | Alarm | Info_Switch | Start => if n =? "action" then Some (0, 1) else None
  | UpDown => if n =? "direction" then Some (0, 1) else None
  | VimarScene =>
      if n =? "index" then Some (0, 6) else if n =? "command" then Some (6, 2) else None
  | SceneControl =>
      if n =? "number" then Some (0, 6) else if n =? "reserved" then Some (6, 1)
      else if n =? "command" then Some (7, 1) else None
  | Control_Dimming =>
      if n =? "step" then Some (0, 3) else if n =? "direction" then Some (3, 1) else None
  | SetupClima =>
      if n =? "temporizzazione" then Some (0, 8) else if n =? "setpoint" then Some (8, 8)
      else if n =? "differenziale" then Some (16, 5) else if n =? "variazione_setpoint" then Some (21, 2)
      else if n =? "unita_misura" then Some (23, 1) else if n =? "funzionamento" then Some (24, 4)
      else if n =? "centralizzato" then Some (28, 1) else if n =? "stagione" then Some (29, 1)
      else if n =? "terziario" then Some (30, 1) else if n =? "riservato" then Some (31, 1) else None
  | InfoClimaReport =>
      if n =? "temperatura_lsb" then Some (0, 8) else if n =? "temperatura_msb" then Some (8, 1)
      else if n =? "temporizzazione" then Some (9, 7) else if n =? "setpoint" then Some (16, 8)
      else if n =? "funzionamento" then Some (24, 4) else if n =? "centralizzato" then Some (28, 1)
      else if n =? "stagione" then Some (29, 1) else if n =? "terziario" then Some (30, 1)
      else if n =? "stato_rele" then Some (31, 1) else None
  | Float_16 | Value_Wsp | Value_Temp | Value_Lux =>
      if n =? "_mantissa_lsb" then Some (0, 8) else if n =? "_mantissa_msb" then Some (8, 3)
      else if n =? "exponent" then Some (11, 4) else if n =? "_sign" then Some (15, 1) else None
  | Brightness | Float_32 | Value_Power => None
  end%string.

(** ** Names *)

(** The names of an enumerated property and what they stand for. *)
Definition names (c : dpt_class) (n : string) : option (list (string * Z)) :=
  match c with
  | Switch | Info_Switch => if n =? "action" then Some [("off", 0); ("on", 1)] else None
  | Alarm => if n =? "action" then Some [("no_alarm", 0); ("alarm", 1)] else None
  | Start => if n =? "action" then Some [("stop", 0); ("start", 1)] else None
  | UpDown => if n =? "direction" then Some [("up", 0); ("down", 1)] else None
  | VimarScene =>
      if n =? "command"
      then Some [("attiva", 0); ("cancella", 1); ("memorizza", 2); ("identifica", 3)] else None
  | SceneControl => if n =? "command" then Some [("activate", 0); ("learn", 1)] else None
  | Control_Dimming => if n =? "direction" then Some [("down", 0); ("up", 1)] else None
  | SetupClima | InfoClimaReport =>
      if n =? "funzionamento" then
        Some [("off", 0); ("forced_off", 1); ("off_a_tempo", 2); ("antigelo", 3);
              ("riduzione_notturna", 4); ("riduzione_notturna_a_tempo", 5); ("manuale", 6);
              ("manuale_a_tempo", 7); ("automatico", 8);
              ("automatico_invio_temperatura_abilitato", 8);
              ("automatico_invio_temperatura_disabilitato", 14)]
      else if n =? "stagione" then Some [("inverno", 0); ("estate", 1)]
      else if n =? "unita_misura" then
        match c with SetupClima => Some [("celsius", 0); ("farenheit", 1)] | _ => None end
      else None
  | _ => None
  end%string.
(** The name under which a code reads back; one name has an alias. *)
Definition canonical (s : string) : string :=
  if (s =? "automatico_invio_temperatura_abilitato")%string then "automatico" else s.
(** The plain integer properties. *)
Definition numbers (c : dpt_class) : list string :=
  match c with
  | VimarScene => ["index"] | SceneControl => ["number"] | Control_Dimming => ["step"]
  | SetupClima => ["centralizzato"; "differenziale"; "setpoint"; "temporizzazione"; "terziario"; "variazione_setpoint"]
  | InfoClimaReport => ["setpoint"]
  | _ => []
  end.

(** ** Descriptions *)

(** The part of a raw value that a description shows. *)
Definition described_part (c : dpt_class) (v : Z) : Z :=
  match c with
  | Switch | Alarm | UpDown | Start | Info_Switch => field v 0 1
  | VimarScene | Brightness => v
  | SceneControl => field v 0 6 + 2 ^ 7 * field v 7 1
  | Control_Dimming => field v 0 4
  | SetupClima => field v 0 31
  | InfoClimaReport => field v 0 9 + 2 ^ 16 * field v 16 12 + 2 ^ 29 * field v 29 1
  | _ => v
  end.

(** ** Floats *)

(** The rational number a finite float stands for. *)
Definition f_value (x : float) : Q :=
  match x with
  | S754_finite s m e => (if s then - (inject_Z (Z.pos m)) else inject_Z (Z.pos m)) * (2 # 1) ^ e
  | _ => 0
  end%Q.
Definition f_finite (x : float) : bool :=
  match x with S754_zero _ | S754_finite _ _ _ => true | _ => false end.
(** The fields of a 2-octet float: sign bit, exponent, and the mantissa as a
    12-bit two's complement number whose top bit is the sign. *)
Definition knx_sign (v : Z) : Z := field v 15 1.
Definition knx_exponent (v : Z) : Z := field v 11 4.
Definition knx_mantissa (v : Z) : Z := field v 0 11 - 2048 * knx_sign v.
Definition knx_value (v : Z) : Q := (inject_Z (knx_mantissa v) * (2 # 1) ^ knx_exponent v * (1 # 100))%Q.

(** *** Rounding *)

(** The numbers of a binary format with [prec] bits and exponents below [emax]
    (doubles: 53 and 1024, singles: 24 and 128), as rationals ... *)
Definition representable (prec emax : Z) (z : Q) : Prop :=
  exists m e, Z.abs m < 2 ^ prec /\ 3 - emax - prec <= e <= emax - prec /\ (z == inject_Z m * (2 # 1) ^ e)%Q.
(** ... and as floats, with the mantissa as long as possible. *)
Definition in_format (prec emax : Z) (x : float) : Prop :=
  match x with
  | S754_finite _ m e =>
      Z.pos m < 2 ^ prec /\ 3 - emax - prec <= e <= emax - prec /\ (2 ^ (prec - 1) <= Z.pos m \/ e = 3 - emax - prec)
  | _ => True
  end.
Definition even_mantissa (x : float) : bool :=
  match x with S754_finite _ m _ => Z.even (Z.pos m) | _ => true end.
(** Beyond the middle of the largest number and the next power of two. *)
Definition overflows (prec emax : Z) (x : Q) : Prop :=
  ((2 # 1) ^ emax - (2 # 1) ^ (emax - prec - 1) <= Qabs x)%Q.
(** [r] is [x] rounded to nearest, ties to even, with the sign bit [s]. *)
Definition rounded (prec emax : Z) (x : Q) (s : bool) (r : float) : Prop :=
  (overflows prec emax x /\ r = S754_infinity s) \/
  (~ overflows prec emax x /\ f_finite r = true /\ in_format prec emax r /\ f_signbit r = s /\
   forall z, representable prec emax z ->
     (Qabs (x - f_value r) <= Qabs (x - z))%Q /\
     ((Qabs (x - f_value r) == Qabs (x - z))%Q -> (z == f_value r)%Q \/ even_mantissa r = true)).
Notation is_double := (in_format 53 1024).
Notation is_single := (in_format 24 128).

(** ** 2-octet floats: encoding *)

(** [k] is [x] rounded to an integer, ties to even. *)
Definition nearest_int (x : Q) (k : Z) : Prop :=
  (Qabs (x - inject_Z k) <= 1 # 2)%Q /\ ((Qabs (x - inject_Z k) == 1 # 2)%Q -> Z.even k = true).
(** [q] is the quotient, in doubles, of [x] by the double nearest to 0.01. *)
Definition cents (x q : float) : Prop :=
  exists cent, rounded 53 1024 (1 # 100) false cent /\ rounded 53 1024 (f_value x / f_value cent) (f_signbit x) q.
(** [n] is the integer part of the magnitude of that quotient, rounded to two
    decimals. *)
Definition whole_cents (x : float) (n : Z) : Prop :=
  exists q k, cents x q /\ f_finite q = true /\ nearest_int (100 * Qabs (f_value q)) k /\ n = k / 100.

(** ** 4-octet floats *)

(** The value of a 32-bit pattern whose exponent field is not 255. *)
Definition single_value (v : Z) : Q :=
  ((if (field v 31 1 =? 1)%Z then - (1) else 1) *
   inject_Z (field v 0 23 + (if field v 23 8 =? 0 then 0 else 2 ^ 23)) * (2 # 1) ^ (Z.max 1 (field v 23 8) - 150))%Q.
(** A 32-bit pattern stands for a float. *)
Definition pattern (v : Z) (x : float) : Prop :=
  match x with
  | S754_nan => field v 23 8 = 255 /\ field v 0 23 <> 0
  | S754_infinity s => field v 23 8 = 255 /\ field v 0 23 = 0 /\ field v 31 1 = (if s then 1 else 0)
  | _ => field v 23 8 <> 255 /\ (single_value v == f_value x)%Q /\ field v 31 1 = (if f_signbit x then 1 else 0)
  end.
Definition is_nan_pattern (v : Z) : Prop := field v 23 8 = 255 /\ field v 0 23 <> 0.
