(** Python floats (IEEE binary64) and c_float (binary32) as [spec_float] of the
    standard library: pure Gallina, round to nearest even. *)
From Coq Require Import ZArith Bool SpecFloat.
From Verif Require Import Py.
Open Scope Z_scope.

(** The values of datapointtypes.py 661-692 and 769-773. *)
Definition float := spec_float.

(** datapointtypes.py 667 (multiplication) and 674 (division). *)
Definition fmul (x y : float) : float := SFmul 53 1024 x y.
Definition fdiv (x y : float) : float := SFdiv 53 1024 x y.
(** [float(z)] for an int (round to nearest even; ints beyond the range, which
    raise OverflowError in Python, become infinities here, see factory_set). The
    conversions in datapointtypes.py 667 and 674. *)
Definition f_of_Z (z : Z) : float := binary_normalize 53 1024 z 0 false.
(** The literal 0.01. *)
Definition f_001 : float := S754_finite false 5764607523034235 (-59).
Definition f_10 : float := f_of_Z 10.

(** [int(x)]: truncation toward zero; OverflowError on infinities, ValueError
    on NaN. Used in datapointtypes.py 676. *)
Definition f_trunc (x : float) : res Z :=
  match x with
  | S754_zero _ => Ok 0
  | S754_infinity _ => Err OverflowError
  | S754_nan => Err ValueError
  | S754_finite s m e =>
      let a := if 0 <=? e then Z.pos m * 2 ^ e else Z.pos m / 2 ^ (- e) in
      Ok (if s then - a else a)
  end.

(** [math.copysign(1, x)] as a sign bit (true = negative).  The sign bit of a
    NaN is not recorded by [spec_float]; it is not used (encode raises). *)
Definition f_signbit (x : float) : bool :=
  match x with
  | S754_zero s | S754_infinity s | S754_finite s _ _ => s
  | S754_nan => false
  end.

(** Half-even rounding of the non-negative rational p/q to an integer. Used for
    the round() of datapointtypes.py 676. *)
Definition div_half_even (p q : Z) : Z :=
  let d := p / q in
  let r := p mod q in
  if 2 * r <? q then d
  else if q <? 2 * r then d + 1
  else if Z.even d then d else d + 1.

(** [int(round(decimal.Decimal(x), 2))] up to its sign: Decimal(x) is exact,
    round quantizes half-even to hundredths under the default context of 28
    digits (InvalidOperation when they do not suffice, or for infinities),
    int truncates.  [round2] gives the number of hundredths. *)
Definition round2 (x : float) : res Z :=
  match x with
  | S754_zero _ => Ok 0
  | S754_infinity _ => Err InvalidOperation
  | S754_nan => Err ValueError
  | S754_finite _ m e =>
      let k := if 0 <=? e then 100 * (Z.pos m * 2 ^ e)
               else div_half_even (100 * Z.pos m) (2 ^ (- e)) in
      if k >=? 10 ^ 28 then Err InvalidOperation else Ok k
  end.

(** Reading a c_float field: bit pattern to value (ctypes returns the double
    with the same value).  NaN payloads are not recorded. datapointtypes.py 765
    and 770. *)
Definition single_of_bits (p : Z) : float :=
  let s := negb (get p 31 1 =? 0) in
  let ex := get p 23 8 in
  let fr := get p 0 23 in
  if ex =? 255 then (if fr =? 0 then S754_infinity s else S754_nan)
  else
    let m := if ex =? 0 then fr else fr + 2 ^ 23 in
    let e := if ex =? 0 then -149 else ex - 150 in
    match m with
    | Zpos q => S754_finite s q e
    | _ => S754_zero s
    end.

(** The pattern of a value that is already a (canonical) single.
    datapointtypes.py 765 and 773. *)
Definition bits_of_single (x : float) : Z :=
  match x with
  | S754_zero s => if s then 2 ^ 31 else 0
  | S754_infinity s => (if s then 2 ^ 31 else 0) + 255 * 2 ^ 23
  | S754_nan => 255 * 2 ^ 23 + 2 ^ 22
  | S754_finite s m e =>
      (if s then 2 ^ 31 else 0) +
      (if Z.pos m <? 2 ^ 23 then Z.pos m else (e + 150) * 2 ^ 23 + (Z.pos m - 2 ^ 23))
  end.

(** C cast between float and double: round the value to the target format.
    datapointtypes.py 770 and 773. *)
Definition fconv (prec emax : Z) (x : float) : float :=
  match x with
  | S754_finite s m e => binary_normalize prec emax (if s then Z.neg m else Z.pos m) e s
  | _ => x
  end.
(** The store into the c_float of datapointtypes.py 773. *)
Definition to_single (x : float) : float := fconv 24 128 x.
Definition to_double (x : float) : float := fconv 53 1024 x.
