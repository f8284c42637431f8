(** Specification vocabulary for C89: lines in a stream of bytes. *)
From Coq Require Import String Ascii ZArith List Bool.
From Verif Require Import Py State Decode Client ClientStream SpecMsg SpecClient SpecDaemon.
Import ListNotations.
Open Scope Z_scope.

(** The bytes that have arrived, in whatever pieces. *)
Definition bytes_in (es : list stream_event) : list Z :=
  flat_map (fun e => match e with SvData b => b | _ => [] end) es.
(** The connection has not ended. *)
Definition open_still (es : list stream_event) : Prop := ~ In SvEnd es.
(** A line with its line feed; the text is at most 65536 long. *)
Definition a_line (l : list Z) : Prop := exists text, l = text ++ [10] /\ ~ In 10 text /\ zlen text <= 65536.
(** The text of bytes below 128. *)
Definition text_is (l : list Z) (s : string) : Prop := bytes_of s = l /\ Forall (fun b => b < 128) l.
(** What the daemon writes to a client, as one text. *)
Definition text_to (fd : Z) (outs : list Daemon.dout) : list Z :=
  flat_map (fun o => match o with Daemon.ToClient fd' t => if fd' =? fd then t else [] | _ => [] end) outs.
(** The packets of the bus. *)
Definition packets (es : list Daemon.devent) : list (list Z) :=
  flat_map (fun e => match e with Daemon.DBus data => [data] | _ => [] end) es.
(** What a packet gives when decoded on its own and displayed. *)
Definition packet_result (s : state) (data : list Z) : res dres :=
  match fst (decode_msg CPlain data s) with
  | Ok (RList l) => if forallb displayable l then Ok (RList l) else Err ValueError
  | r => r
  end.
