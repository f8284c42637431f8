(** Model of knx_stack/datapointtypes.py. *)
From Coq Require Import String Ascii ZArith List Bool SpecFloat.
From Verif Require Import Py Float.
Import ListNotations.
Open Scope string_scope.
Open Scope list_scope.
Open Scope Z_scope.

(** The classes of datapointtypes.py a group object can have (107-142, 145-166,
    174-204, 212-242, 245-246, 254-291, 302-337, 345-380, 383-392, 411-521,
    539-590, 626-702, 705, 718, 731, 750-777, 780). *)
Inductive dpt_class :=
| Switch | Alarm | UpDown | Start | Info_Switch
| VimarScene | SceneControl | Control_Dimming | Brightness
| SetupClima | InfoClimaReport
| Float_16 | Value_Wsp | Value_Temp | Value_Lux
| Float_32 | Value_Power.

(** Class names as in datapointtypes.py. *)
Definition class_name (c : dpt_class) : string :=
  match c with
  | Switch => "DPT_Switch" | Alarm => "DPT_Alarm" | UpDown => "DPT_UpDown"
  | Start => "DPT_Start" | Info_Switch => "DPT_Info_Switch"
  | VimarScene => "DPTVimarScene" | SceneControl => "DPT_SceneControl"
  | Control_Dimming => "DPT_Control_Dimming" | Brightness => "DPT_Brightness"
  | SetupClima => "DPTSetupClima" | InfoClimaReport => "DPTInfoClimaReport"
  | Float_16 => "DPT_Float_16" | Value_Wsp => "DPT_Value_Wsp"
  | Value_Temp => "DPT_Value_Temp" | Value_Lux => "DPT_Value_Lux"
  | Float_32 => "DPT_Float_32" | Value_Power => "DPT_Value_Power"
  end.

Definition all_classes : list dpt_class :=
  [Switch; Alarm; UpDown; Start; Info_Switch; VimarScene; SceneControl;
   Control_Dimming; Brightness; SetupClima; InfoClimaReport; Float_16;
   Value_Wsp; Value_Temp; Value_Lux; Float_32; Value_Power].

(** [cls.value.size]: octets of the union's [value] member (lines 142, 166,
    204, 242, 291, 337, 380, 392, 521, 590, 657, 765). *)
Definition dpt_size (c : dpt_class) : Z :=
  match c with
  | Switch | Alarm | UpDown | Start | Info_Switch
  | VimarScene | SceneControl | Control_Dimming | Brightness => 1
  | Float_16 | Value_Wsp | Value_Temp | Value_Lux => 2
  | SetupClima | InfoClimaReport | Float_32 | Value_Power => 4
  end.

(** [cls.length == LESS_THAN_A_BYTE] (lines 104, 127, 160, 189, 227, 659, 767;
    DPT_Info_Switch inherits). *)
Definition dpt_small (c : dpt_class) : bool :=
  match c with
  | Switch | Alarm | UpDown | Start | Info_Switch => true
  | _ => false
  end.

(** A datapoint object: its class and the raw content of the union. The unions
    of datapointtypes.py, such as 112-140. *)
Record dpt := mkdpt { d_class : dpt_class; d_value : Z }.

(** [cls()]: all octets zero. As in datapointtypes.py 33. *)
Definition dpt_new (c : dpt_class) : dpt := mkdpt c 0.
(** [dpt.value = v]. The field value of the unions, such as datapointtypes.py
    657 and 765. *)
Definition dpt_set_value (d : dpt) (v : Z) : dpt :=
  mkdpt (d_class d) (cuint (8 * dpt_size (d_class d)) v).

(** Bit fields of the [bits] member: name, offset, width (lines 109, 171, 209,
    251, 295-299, 342, 397-408, 526-536, 595-600).  DPT_Brightness and the
    4-octet float have a plain c_uint8/c_float there, i.e. no bit fields. *)
Definition layout (c : dpt_class) : list (string * Z * Z) :=
  match c with
  | Switch | Alarm | Info_Switch | Start => [("action", 0, 1)]
  | UpDown => [("direction", 0, 1)]
  | VimarScene => [("index", 0, 6); ("command", 6, 2)]
  | SceneControl => [("number", 0, 6); ("reserved", 6, 1); ("command", 7, 1)]
  | Control_Dimming => [("step", 0, 3); ("direction", 3, 1)]
  | Brightness => []
  | SetupClima =>
      [("temporizzazione", 0, 8); ("setpoint", 8, 8); ("differenziale", 16, 5);
       ("variazione_setpoint", 21, 2); ("unita_misura", 23, 1);
       ("funzionamento", 24, 4); ("centralizzato", 28, 1); ("stagione", 29, 1);
       ("terziario", 30, 1); ("riservato", 31, 1)]
  | InfoClimaReport =>
      [("temperatura_lsb", 0, 8); ("temperatura_msb", 8, 1);
       ("temporizzazione", 9, 7); ("setpoint", 16, 8); ("funzionamento", 24, 4);
       ("centralizzato", 28, 1); ("stagione", 29, 1); ("terziario", 30, 1);
       ("stato_rele", 31, 1)]
  | Float_16 | Value_Wsp | Value_Temp | Value_Lux =>
      [("_mantissa_lsb", 0, 8); ("_mantissa_msb", 8, 3); ("exponent", 11, 4);
       ("_sign", 15, 1)]
  | Float_32 | Value_Power => []
  end.

Fixpoint find_field (n : string) (l : list (string * Z * Z)) : option (Z * Z) :=
  match l with
  | [] => None
  | (n', o, w) :: r => if String.eqb n' n then Some (o, w) else find_field n r
  end.

(** [dpt.bits.<name>]; AttributeError for a name that is no bit field. As in
    datapointtypes.py 135. *)
Definition bits_get (d : dpt) (n : string) : res Z :=
  match find_field n (layout (d_class d)) with
  | Some (o, w) => Ok (get (d_value d) o w)
  | None => Err AttributeError
  end.
(** [dpt.bits.<name> = x]. As in datapointtypes.py 140. *)
Definition bits_set (d : dpt) (n : string) (x : Z) : dpt :=
  match find_field n (layout (d_class d)) with
  | Some (o, w) => mkdpt (d_class d) (set (d_value d) o w x)
  | None => d
  end.

(** Enumerations: names and codes, in definition order (lines 129-131,
    162-164, 191-193, 229-231, 268-272, 316-318, 359-361, 425-444). *)
Definition funzionamento_enum : list (string * Z) :=
  [("off", 0); ("forced_off", 1); ("off_a_tempo", 2); ("antigelo", 3);
   ("riduzione_notturna", 4); ("riduzione_notturna_a_tempo", 5); ("manuale", 6);
   ("manuale_a_tempo", 7); ("automatico", 8);
   ("automatico_invio_temperatura_abilitato", 8);
   ("automatico_invio_temperatura_disabilitato", 14)].
Definition stagione_enum : list (string * Z) := [("inverno", 0); ("estate", 1)].
Definition unita_enum : list (string * Z) := [("celsius", 0); ("farenheit", 1)].

(** How the Python properties of a class access its bits. As in
    datapointtypes.py 133-140 (enumerated) and 602-623 (computed). *)
Inductive accessor :=
| AInt                                   (* plain bit field *)
| AEnum (e : list (string * Z))          (* IntEnum over a bit field *)
| ATemp.                                 (* DPTInfoClimaReport.temperatura *)

(** The properties of each class (lines 133-140, 195-202, 233-240, 274-289,
    320-335, 363-378, 446-519, 555-588), in alphabetical order. *)
Definition properties (c : dpt_class) : list (string * accessor) :=
  match c with
  | Switch | Info_Switch => [("action", AEnum [("off", 0); ("on", 1)])]
  | Alarm => [("action", AEnum [("no_alarm", 0); ("alarm", 1)])]
  | UpDown => [("direction", AEnum [("up", 0); ("down", 1)])]
  | Start => [("action", AEnum [("stop", 0); ("start", 1)])]
  | VimarScene =>
      [("command", AEnum [("attiva", 0); ("cancella", 1); ("memorizza", 2); ("identifica", 3)]);
       ("index", AInt)]
  | SceneControl =>
      [("command", AEnum [("activate", 0); ("learn", 1)]); ("number", AInt)]
  | Control_Dimming =>
      [("direction", AEnum [("down", 0); ("up", 1)]); ("step", AInt)]
  | Brightness => []
  | SetupClima =>
      [("centralizzato", AInt); ("differenziale", AInt);
       ("funzionamento", AEnum funzionamento_enum); ("setpoint", AInt);
       ("stagione", AEnum stagione_enum); ("temporizzazione", AInt);
       ("terziario", AInt); ("unita_misura", AEnum unita_enum);
       ("variazione_setpoint", AInt)]
  | InfoClimaReport =>
      [("funzionamento", AEnum funzionamento_enum); ("setpoint", AInt);
       ("stagione", AEnum stagione_enum); ("temperatura", ATemp)]
  | _ => []
  end.

(** Values that travel through properties and descriptions. datapointtypes.py
    34-38 and 78-87. *)
Inductive pyval := VInt (z : Z) | VName (s : string) | VFloat (f : float).

(** Search by name in the tables that stand for the class bodies of
    datapointtypes.py. *)
Fixpoint sfind {A} (n : string) (l : list (string * A)) : option A :=
  match l with
  | [] => None
  | (n', a) :: r => if String.eqb n' n then Some a else sfind n r
  end.

(** [Enum(code)]: the member with that code; the canonical name of an alias is
    the first one defined.  ValueError for an unknown code. As in
    datapointtypes.py 135 and 140. *)
Fixpoint enum_of_code (e : list (string * Z)) (z : Z) : res string :=
  match e with
  | [] => Err ValueError
  | (n, c) :: r => if c =? z then Ok n else enum_of_code r z
  end.
(** [getattr(Enum, name)] with a str; AttributeError for an unknown name.
    (Names of other attributes of the Enum class, such as "mro", end in a
    ValueError instead, or set a code when CPython keeps a suitable integer under
    them, as under "__itemsize__"; they are not distinguished.) As in
    datapointtypes.py 139. *)
Definition enum_of_name (e : list (string * Z)) (n : string) : res Z :=
  match sfind n e with
  | Some c => Ok c
  | None => Err AttributeError
  end.

(** datapointtypes.py 581-583 temperatura getter: int / 10. *)
Definition temperatura_get (v : Z) : float :=
  fdiv (f_of_Z (Z.shiftl (get v 8 1) 8 + get v 0 8)) f_10.
(** datapointtypes.py 585-588 temperatura setter, once [int(value * 10)] is
    known: msb first, then lsb. *)
Definition temperatura_store (v t : Z) : Z :=
  set (set v 8 1 (Z.shiftr t 8)) 0 8 t.

(** Reading a property of a datapoint object.  An enumerated property returns
    the member, represented by its name. As in datapointtypes.py 133-135. *)
Definition prop_get (d : dpt) (n : string) : res pyval :=
  match sfind n (properties (d_class d)) with
  | None => Err AttributeError
  | Some AInt => do z <- bits_get d n; Ok (VInt z)
  | Some (AEnum e) => do z <- bits_get d n; do s <- enum_of_code e z; Ok (VName s)
  | Some ATemp => Ok (VFloat (temperatura_get (d_value d)))
  end.

(** Python's [int(text)], for datapointtypes.py 587-588: blanks, a sign, digits
    with single underscores between them, blanks.  [ready]: the last character
    was a digit.  (Pythons from 3.11 on refuse more than 4300 digits, and text
    that is not ASCII may hold other digits and blanks: not modelled.) *)
Definition int_blank (c : ascii) : bool :=
  let n := Z.of_N (N_of_ascii c) in (n =? 32) || ((9 <=? n) && (n <=? 13)).
Fixpoint int_digits (acc : Z) (ready : bool) (l : list ascii) : option Z :=
  match l with
  | [] => if ready then Some acc else None
  | c :: r =>
      let n := Z.of_N (N_of_ascii c) in
      if (48 <=? n) && (n <=? 57) then int_digits (acc * 10 + (n - 48)) true r
      else if (n =? 95) && ready then int_digits acc false r
      else if ready && forallb int_blank l then Some acc
      else None
  end.
Fixpoint int_strip (l : list ascii) : list ascii :=
  match l with
  | [] => []
  | c :: r => if int_blank c then int_strip r else l
  end.
Definition int_of_text (l : list ascii) : option Z :=
  match int_strip l with
  | [] => None
  | c :: r =>
      let n := Z.of_N (N_of_ascii c) in
      if n =? 43 then int_digits 0 false r
      else if n =? 45 then match int_digits 0 false r with Some z => Some (- z) | None => None end
      else int_digits 0 false (c :: r)
  end.
(** [text * n], as in datapointtypes.py 587. *)
Definition text_times (n : nat) (s : string) : list ascii := concat (repeat (list_ascii_of_string s) n).

(** Assigning a property.  Wrong value types raise TypeError, except that a str
    times 10 is accepted by Python, being repeated, and then given to int().
    As in datapointtypes.py 137-140, 585-588. *)
Definition prop_set (d : dpt) (n : string) (x : pyval) : res dpt :=
  match sfind n (properties (d_class d)) with
  | None => Err AttributeError
  | Some AInt =>
      match x with VInt z => Ok (bits_set d n z) | _ => Err TypeError end
  | Some (AEnum e) =>
      match x with
      | VName s => do z <- enum_of_name e s; Ok (bits_set d n z)
      | _ => Err TypeError
      end
  | Some ATemp =>
      match x with
      | VInt z => Ok (mkdpt (d_class d) (temperatura_store (d_value d) (z * 10)))
      | VFloat f =>
          do t <- f_trunc (fmul f f_10);
          Ok (mkdpt (d_class d) (temperatura_store (d_value d) t))
      | VName s =>
          match int_of_text (text_times 10 s) with
          | Some t => Ok (mkdpt (d_class d) (temperatura_store (d_value d) t))
          | None => Err ValueError
          end
      end
  end.

(** ** 2-octet floats, datapointtypes.py 593-702 *)

(** lines 694-698 twos_comp. *)
Definition twos_comp (v bits : Z) : Z := Z.abs (Z.shiftl 1 bits - 1 - v) + 1.

(** lines 614-618 mantissa getter. *)
Definition f16_mantissa (v : Z) : Z := Z.shiftl (get v 8 3) 8 + get v 0 8.

(** lines 602-605 and 661-668 decode: sign * (0.01 * mantissa) * 2**exponent,
    evaluated left to right in doubles. *)
Definition f16_decode (v : Z) : float :=
  let sign := if get v 15 1 =? 0 then 1 else -1 in
  let mantissa := if sign =? 1 then f16_mantissa v else twos_comp (f16_mantissa v) 11 in
  fmul (fmul (f_of_Z sign) (fmul f_001 (f_of_Z mantissa))) (f_of_Z (2 ^ get v 11 4)).

(** lines 682-684: the exponent loop, [fuel] bounding the iterations. *)
Fixpoint f16_scale (fuel : nat) (mantissa exp : Z) : Z * Z :=
  match fuel with
  | O => (mantissa, exp)
  | S f => if mantissa >? 2047 then f16_scale f (Z.shiftr mantissa 1) (exp + 1)
           else (mantissa, exp)
  end.

(** lines 670-692 encode, on the raw content [v] of the union.  The fuel is the
    bit length of the mantissa, which the loop never exhausts
    (theorem f16_scale_stops in KnxFloatProofs.v). *)
Definition f16_encode (v : Z) (x : float) : res Z :=
  do k <- round2 (fdiv x f_001);
  let m := k / 100 in
  let '(mantissa, exp) := f16_scale (Z.to_nat (Z.log2 m + 1)) m 0 in
  if exp >? 15 then Err PyException
  else
    let neg := f_signbit x in
    let mantissa' := if neg then Z.shiftl 1 11 - mantissa else mantissa in
    let v1 := set v 11 4 exp in
    let v2 := set (set v1 8 3 (Z.shiftr mantissa' 8)) 0 8 mantissa' in
    Ok (set v2 15 1 (if neg then 1 else 0)).

(** ** 4-octet floats, datapointtypes.py 750-777 *)
Definition f32_decode (v : Z) : float := to_double (single_of_bits v).
Definition f32_encode (x : float) : Z := bits_of_single (to_single x).

Definition is_f16 (c : dpt_class) : bool :=
  match c with Float_16 | Value_Wsp | Value_Temp | Value_Lux => true | _ => false end.
Definition is_f32 (c : dpt_class) : bool :=
  match c with Float_32 | Value_Power => true | _ => false end.

(** [dpt.decode()]; only the float classes have the method. datapointtypes.py
    661-668 and 769-770. *)
Definition dpt_decode (d : dpt) : res float :=
  if is_f16 (d_class d) then Ok (f16_decode (d_value d))
  else if is_f32 (d_class d) then Ok (f32_decode (d_value d))
  else Err AttributeError.
(** [dpt.encode(x)]. datapointtypes.py 670-692 and 772-773. *)
Definition dpt_encode (d : dpt) (x : float) : res dpt :=
  if is_f16 (d_class d) then
    do v <- f16_encode (d_value d) x; Ok (mkdpt (d_class d) v)
  else if is_f32 (d_class d) then Ok (mkdpt (d_class d) (f32_encode x))
  else Err AttributeError.

(** ** Factories, datapointtypes.py 8-88 *)

(** lines 43-88 Description_Factory.make.  The Python dictionary follows the
    iteration order of a set; here the properties come in alphabetical order. *)
Fixpoint describe_props (d : dpt) (l : list (string * accessor)) : res (list (string * pyval)) :=
  match l with
  | [] => Ok []
  | (n, _) :: r =>
      do v <- prop_get d n; do vs <- describe_props d r; Ok ((n, v) :: vs)
  end.
Definition describe (d : dpt) : res (string * list (string * pyval)) :=
  let c := d_class d in
  do fs <- describe_props d (properties c);
  if is_f16 c || is_f32 c then
    do x <- dpt_decode d; Ok (class_name c, fs ++ [("decoded_value", VFloat x)])
  else
    match properties c with
    | [] => Ok (class_name c, [("value", VInt (d_value d))])
    | _ => Ok (class_name c, fs)
    end.

(** lines 33-38: one entry of the dictionary given to DPT_Factory.make.
    setattr of a name that is neither a property nor [value] just adds an
    attribute to the Python object ([bits] is not modelled).  A float value may
    be given as an int, which is converted; OverflowError beyond the doubles. *)
Definition factory_set (d : dpt) (kv : string * pyval) : res dpt :=
  let '(k, x) := kv in
  if String.eqb k "decoded_value" then
    match x with
    | VFloat f => dpt_encode d f
    | VInt z => match f_of_Z z with
                | S754_infinity _ => if is_f16 (d_class d) || is_f32 (d_class d) then Err OverflowError
                                     else Err AttributeError
                | f => dpt_encode d f
                end
    | VName _ => if is_f16 (d_class d) || is_f32 (d_class d) then Err TypeError
                 else Err AttributeError
    end
  else if String.eqb k "value" then
    match x with VInt z => Ok (dpt_set_value d z) | _ => Err TypeError end
  else
    match sfind k (properties (d_class d)) with
    | None => Ok d
    | Some _ => prop_set d k x
    end.
Fixpoint factory_sets (d : dpt) (l : list (string * pyval)) : res dpt :=
  match l with
  | [] => Ok d
  | kv :: r => do d' <- factory_set d kv; factory_sets d' r
  end.
Fixpoint find_class (n : string) (l : list dpt_class) : option dpt_class :=
  match l with
  | [] => None
  | c :: r => if String.eqb (class_name c) n then Some c else find_class n r
  end.
(** lines 8-40 DPT_Factory.make.  Names of other attributes of the module
    (classes that are no datapoint types, imported modules) are not modelled:
    every name that is no datapoint class gives AttributeError. *)
Definition factory_make (name : string) (fields : list (string * pyval)) : res dpt :=
  match find_class name all_classes with
  | None => Err AttributeError
  | Some c => factory_sets (dpt_new c) fields
  end.

(** Formatting a datapoint object ([__repr__], lines 100-102, 700-702, 775-777)
    raises exactly when its description does. *)
Definition dpt_repr (d : dpt) : res unit :=
  match describe d with Ok _ => Ok tt | Err e => Err e end.
