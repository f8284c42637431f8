(** Specification vocabulary for C82: what of a message can be told from its text. *)
From Coq Require Import String Ascii ZArith List Bool Permutation.
From Verif Require Import Py Msg Float Dpt Tables State SpecMsg SpecInet SpecText.
Import ListNotations.
Open Scope Z_scope.

Definition chars (s : string) : list ascii := list_ascii_of_string s.
(** Texts of floats as Python writes them: digits, point, exponent, inf, nan;
    never just an integer. *)
Definition float_texts (ft : float -> string) : Prop := forall x,
  Forall (fun c => In c (chars "0123456789.+-einfa")) (chars (ft x)) /\
  ~ Forall (fun c => In c (chars "-0123456789")) (chars (ft x)).

(** Messages whose own texts keep clear of the separators: hosts without colon,
    data without blank, addresses of 16 bits. *)
Definition host (s : string) : Prop := ~ In ":"%char (chars s).
Definition legible (m : message) : Prop :=
  match m with
  | MConnectReq ca _ da _ => host ca /\ host da
  | MConnectionstateReq ca _ | MDisconnectReq ca _ | MSearchReq ca _ => host ca
  | MConnectRes ip _ ia _ =>
      ~ In ","%char (chars ip) /\ match ia with Some v => 0 <= v < 65536 | None => True end
  | MSearchRes ip _ v => ~ In ","%char (chars ip) /\ 0 <= v < 65536
  | MPropertyValueResponseInd _ _ _ _ _ data | MPropertyValueWriteInd _ _ _ _ _ data
  | MPropertyValueResponseCon _ _ _ _ _ data _ | MPropertyValueWriteCon _ _ _ _ _ data _ => octets data
  | MPropertyValueWriteReq _ _ _ _ _ data => ~ In " "%char (chars data)
  | _ => True
  end.

(** A message without its datapoint, and with no name in place of an empty one. *)
Definition bare_asap (a : asap) : asap :=
  mkasap (asap_value a) (match asap_name a with Some EmptyString => None | n => n end).
Definition nothing : dpt := mkdpt Switch 0.
Definition bare (m : message) : message :=
  match m with
  | MGroupValueReadReq a => MGroupValueReadReq (bare_asap a)
  | MGroupValueReadInd a _ => MGroupValueReadInd (bare_asap a) nothing
  | MGroupValueReadCon a _ st => MGroupValueReadCon (bare_asap a) nothing st
  | MGroupValueResponseInd a _ => MGroupValueResponseInd (bare_asap a) nothing
  | MGroupValueResponseCon a _ st => MGroupValueResponseCon (bare_asap a) nothing st
  | MGroupValueWriteReq a _ => MGroupValueWriteReq (bare_asap a) nothing
  | MGroupValueWriteInd a _ => MGroupValueWriteInd (bare_asap a) nothing
  | MGroupValueWriteCon a _ st => MGroupValueWriteCon (bare_asap a) nothing st
  | MPropertyValueReadReq a oi pid ne si => MPropertyValueReadReq (bare_asap a) oi pid ne si
  | MPropertyValueReadInd a oi pid ne si => MPropertyValueReadInd (bare_asap a) oi pid ne si
  | MPropertyValueReadCon a oi pid ne si st => MPropertyValueReadCon (bare_asap a) oi pid ne si st
  | MPropertyValueResponseInd a oi pid ne si data => MPropertyValueResponseInd (bare_asap a) oi pid ne si data
  | MPropertyValueResponseCon a oi pid ne si data st => MPropertyValueResponseCon (bare_asap a) oi pid ne si data st
  | MPropertyValueWriteReq a oi pid ne si data => MPropertyValueWriteReq (bare_asap a) oi pid ne si data
  | MPropertyValueWriteInd a oi pid ne si data => MPropertyValueWriteInd (bare_asap a) oi pid ne si data
  | MPropertyValueWriteCon a oi pid ne si data st => MPropertyValueWriteCon (bare_asap a) oi pid ne si data st
  | m => m
  end.
(** Values that look the same; floats are compared by their texts. *)
Definition looks (ft : float -> string) (v w : res pyval) : Prop :=
  match v, w with
  | Ok (VFloat x), Ok (VFloat y) => ft x = ft y
  | _, _ => v = w
  end.
Definition looks_float (ft : float -> string) (v w : res float) : Prop :=
  match v, w with
  | Ok x, Ok y => ft x = ft y
  | _, _ => v = w
  end.
(** Datapoints of one class that read alike in every property; floats with the
    same text; the same number when there is neither. *)
Definition same_reading (ft : float -> string) (d e : dpt) : Prop :=
  d_class d = d_class e /\
  (forall n, looks ft (prop_get d n) (prop_get e n)) /\
  looks_float ft (dpt_decode d) (dpt_decode e) /\
  (d_class d = Brightness -> d_value d = d_value e).
(** The datapoint a message carries. *)
Inductive carries : message -> dpt -> Prop :=
| c_read_ind a d : carries (MGroupValueReadInd a d) d
| c_read_con a d st : carries (MGroupValueReadCon a d st) d
| c_response_ind a d : carries (MGroupValueResponseInd a d) d
| c_response_con a d st : carries (MGroupValueResponseCon a d st) d
| c_write_req a d : carries (MGroupValueWriteReq a d) d
| c_write_ind a d : carries (MGroupValueWriteInd a d) d
| c_write_con a d st : carries (MGroupValueWriteCon a d st) d.
(** Messages that nobody can tell apart by what they show. *)
Definition alike (ft : float -> string) (m n : message) : Prop :=
  bare m = bare n /\ forall d e, carries m d -> carries n e -> same_reading ft d e.

(** Python's str.format: each {} of a template is replaced by the next text. *)
Fixpoint fill (t : string) (l : list string) : string :=
  match t with
  | EmptyString => EmptyString
  | String c r =>
      if Ascii.eqb c "{" then
        match r, l with
        | String _ r, x :: l => x ++ fill r l
        | _, _ => EmptyString
        end
      else String c (fill r l)
  end%string.
(** What can stand in a hole: a number, a text, the datapoint, an ASAP (its
    number, then its name in parentheses if it has one), an address or octets in
    hexadecimal. *)
Inductive piece := PNumber (z : Z) | PText (s : string) | PDatapoint | PAsap (a : asap)
  | PAddress (z : Z) | POctets (m : msg).
Local Open Scope string_scope.
Definition at_position (first : string) : string :=
  first ++ " (object index {}, property id {}, number of elements {}, start index {} for asap {})".
(** The text of each kind of message and what fills its holes. *)
Definition template (m : message) : string * list piece :=
  match m with
  | MConnectReq ca cp da dp =>
      ("ConnectReq (control endpoint = {}:{} data endpoint {}:{})", [PText ca; PNumber cp; PText da; PNumber dp])
  | MConnectRes ip port (Some ia) st =>
      ("ConnectRes(ip={}, port={}, individual address={}, status={})", [PText ip; PNumber port; PAddress ia; PNumber st])
  | MConnectRes ip port None st =>
      ("ConnectRes(ip={}, port={}, individual address=None, status={})", [PText ip; PNumber port; PNumber st])
  | MConnectionstateReq a p => ("ConnectionstateReq (control endpoint = {}:{})", [PText a; PNumber p])
  | MConnectionstateRes st => ("ConnectionstateRes(status={})", [PNumber st])
  | MDisconnectReq a p => ("DisconnectReq (control endpoint = {}:{})", [PText a; PNumber p])
  | MDisconnectRes ch st => ("DisconnectRes(communication_channel_id={}, status={})", [PNumber ch; PNumber st])
  | MSearchReq a p => ("SearchReq ({}:{})", [PText a; PNumber p])
  | MSearchRes ip port ia => ("SearchRes(ip={}, port={}, individual address={})", [PText ip; PNumber port; PAddress ia])
  | MTunnelingReq seq st =>
      ("TunnelingReq(sequence counter={}, status=<ErrorCodes.{}: {}>)",
       [PNumber seq;
        PText (match find (fun e => (fst e =? st)%Z)
                 [(0, "E_NO_ERROR"); (1, "E_HOST_PROTOCOL_TYPE"); (2, "E_VERSION_NOT_SUPPORTED")] with
               | Some e => snd e
               | None => "E_SEQUENCE_NUMBER"
               end);
        PNumber st])
  | MTunnelingAck seq st => ("TunnelingAck(sequence counter={}, status={})", [PNumber seq; PNumber st])
  | MGroupValueReadReq a => ("GroupValueReadReq (for asap {})", [PAsap a])
  | MGroupValueReadInd a _ => ("GroupValueReadInd ({} for asap {})", [PDatapoint; PAsap a])
  | MGroupValueReadCon a _ st => ("GroupValueReadCon status {} ({} for asap {})", [PNumber st; PDatapoint; PAsap a])
  | MGroupValueResponseInd a _ => ("GroupValueResponseInd ({} for asap {})", [PDatapoint; PAsap a])
  | MGroupValueResponseCon a _ st => ("GroupValueResponseCon status {} ({} for asap {})", [PNumber st; PDatapoint; PAsap a])
  | MGroupValueWriteReq a _ => ("GroupValueWriteReq ({} for asap {})", [PDatapoint; PAsap a])
  | MGroupValueWriteInd a _ => ("GroupValueWriteInd ({} for asap {})", [PDatapoint; PAsap a])
  | MGroupValueWriteCon a _ st => ("GroupValueWriteCon status {} ({} for asap {})", [PNumber st; PDatapoint; PAsap a])
  | MPropertyValueReadReq a oi pid ne si =>
      (at_position "PropertyValueReadReq", [PNumber oi; PNumber pid; PNumber ne; PNumber si; PAsap a])
  | MPropertyValueReadInd a oi pid ne si =>
      (at_position "PropertyValueReadInd", [PNumber oi; PNumber pid; PNumber ne; PNumber si; PAsap a])
  | MPropertyValueReadCon a oi pid ne si st =>
      (at_position "PropertyValueReadCon status {}", [PNumber st; PNumber oi; PNumber pid; PNumber ne; PNumber si; PAsap a])
  | MPropertyValueResponseInd a oi pid ne si data =>
      (at_position "PropertyValueResponseInd {}", [POctets data; PNumber oi; PNumber pid; PNumber ne; PNumber si; PAsap a])
  | MPropertyValueResponseCon a oi pid ne si data st =>
      (at_position "PropertyValueResponseCon {} status {}",
       [POctets data; PNumber st; PNumber oi; PNumber pid; PNumber ne; PNumber si; PAsap a])
  | MPropertyValueWriteReq a oi pid ne si data =>
      (at_position "PropertyValueWriteReq {}", [PText data; PNumber oi; PNumber pid; PNumber ne; PNumber si; PAsap a])
  | MPropertyValueWriteInd a oi pid ne si data =>
      (at_position "PropertyValueWriteInd {}", [POctets data; PNumber oi; PNumber pid; PNumber ne; PNumber si; PAsap a])
  | MPropertyValueWriteCon a oi pid ne si data st =>
      (at_position "PropertyValueWriteCon {} status {}",
       [POctets data; PNumber st; PNumber oi; PNumber pid; PNumber ne; PNumber si; PAsap a])
  | MConnectionStatus s => ("ConnectionStatus(status='{}')", [PText s])
  | MEMIType s => ("EMIType(type='{}')", [PText s])
  end.
(** The text of a piece; [dt] is the text of the datapoint. *)
Definition piece_text (dt : string) (p : piece) (s : string) : Prop :=
  match p with
  | PNumber z => decimal s z
  | PText u => s = u
  | PDatapoint => s = dt
  | PAsap a => exists n, decimal n (asap_value a) /\
      s = match asap_name a with
          | Some (String c r) => n ++ " (" ++ String c r ++ ")"
          | _ => n
          end
  | PAddress z => exists hi lo, octets [hi; lo] /\ z = big_endian [hi; lo] /\ s = "0x" ++ text_of [hi; lo]
  | POctets m => s = text_of m
  end.
(** The text of a value: a number in decimal, a name in quotes, a float as
    Python writes it. *)
Definition shown_value (ft : float -> string) (v : pyval) (s : string) : Prop :=
  match v with
  | VInt z => decimal s z
  | VName u => s = "'" ++ u ++ "'"
  | VFloat x => s = ft x
  end.
(** The text of a datapoint: the name of its class, a colon for the float
    classes, and its fields in any order as a Python dictionary. *)
Definition shown_dpt (ft : float -> string) (d : dpt) (t : string) : Prop :=
  exists name fields order texts,
    describe d = Ok (name, fields) /\ Permutation fields order /\
    Forall2 (fun e s => exists v, shown_value ft (snd e) v /\ s = "'" ++ fst e ++ "': " ++ v) order texts /\
    t = name ++ (if is_f16 (d_class d) || is_f32 (d_class d) then ": {" else " {") ++ String.concat ", " texts ++ "}".
