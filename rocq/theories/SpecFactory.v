(** Specification vocabulary for C107: what DPT_Factory.make builds. *)
From Coq Require Import String ZArith List Bool SpecFloat.
From Verif Require Import Py Float Dpt SpecDpt SpecClima.
Import ListNotations.
Open Scope string_scope.
Open Scope list_scope.
Open Scope Z_scope.

(** The double a dictionary value stands for. *)
Definition as_number (x : pyval) : res float :=
  match x with
  | VFloat f => Ok f
  | VInt z => match f_of_Z z with S754_infinity _ => Err OverflowError | f => Ok f end
  | VName _ => Err TypeError
  end.
Definition member (s : string) (l : list string) : bool := existsb (fun n => (n =? s)%string) l.

(** One entry of the dictionary: the field it writes (position, width, content),
    nothing, or the exception. [f16_encode] and [f32_encode] are the subject of
    C45-C49. *)
Definition entry_effect (c : dpt_class) (k : string) (x : pyval) : res (option (Z * Z * Z)) :=
  let at_ place z := match place with Some (o, w) => Ok (Some (o, w, z)) | None => Ok None end in
  if (k =? "decoded_value")%string then
    if is_f16 c then do f <- as_number x; do v <- f16_encode 0 f; Ok (Some (0, 16, v))
    else if is_f32 c then do f <- as_number x; Ok (Some (0, 32, f32_encode f))
    else Err AttributeError
  else if (k =? "value")%string then
    match x with VInt z => Ok (Some (0, 8 * dpt_size c, z)) | _ => Err TypeError end
  else if member k (numbers c) then
    match x with VInt z => at_ (position c k) z | _ => Err TypeError end
  else match names c k with
  | Some e =>
      match x with
      | VName s => match find (fun p => (fst p =? s)%string) e with
                   | Some (_, z) => at_ (position c k) z
                   | None => Err AttributeError
                   end
      | _ => Err TypeError
      end
  | None =>
      match c with
      | InfoClimaReport =>
          if (k =? "temperatura")%string then
            match x with
            | VInt z => Ok (Some (0, 9, 10 * z))
            | VFloat f => do t <- f_trunc (fmul f f_10); Ok (Some (0, 9, t))
            | VName s => match tenths_of_text s with Some t => Ok (Some (0, 9, t)) | None => Err ValueError end
            end
          else Ok None
      | _ => Ok None
      end
  end.
Definition write (v : Z) (e : option (Z * Z * Z)) : Z :=
  match e with Some (o, w, z) => with_field v o w z | None => v end.
(** The entries in order, beginning with a value of zeros; the first exception
    ends it. *)
Fixpoint built_from (c : dpt_class) (v : Z) (fs : list (string * pyval)) : res Z :=
  match fs with
  | [] => Ok v
  | (k, x) :: r => match entry_effect c k x with Ok e => built_from c (write v e) r | Err e => Err e end
  end.
(** The exception of the first entry that has one. *)
Fixpoint first_failure (c : dpt_class) (fs : list (string * pyval)) : option exn :=
  match fs with
  | [] => None
  | (k, x) :: r => match entry_effect c k x with Ok _ => first_failure c r | Err e => Some e end
  end.
(** Keys that write the whole value. *)
Definition whole_key (k : string) : bool := ((k =? "value") || (k =? "decoded_value"))%string.
