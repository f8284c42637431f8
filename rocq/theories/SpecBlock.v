(** Specification vocabulary for C79 and C80: the telegrams that stop a tunnel
    and the lines that end the reader of the USB client, written from the frame
    formats and the history of the tables. *)
From Coq Require Import String Ascii ZArith List Bool.
From Verif Require Import Py Msg Address Dpt Tables State Decode Client SpecMsg SpecTables SpecWire SpecDecode SpecClient Props_Decode SpecFail.
Import ListNotations.
Open Scope Z_scope.

(** A cEMI frame that ends too early; a service of a group in the address table
    with which no object is associated; one whose first receiver is a clima
    object and whose value has no name for the operation code. *)
Inductive harmful tb l h (s : assoc_table) (go : gobj_table) (cemi : list Z) : exn -> Prop :=
| Harm_cut : cut_cemi s cemi -> harmful tb l h s go cemi IndexError
| Harm_unassociated k t svc : cemi_telegram cemi = Some (k, t) -> group_telegram t ->
    In (t_dst t) (vals (at_addrs (as_table s))) -> group_service t = Some svc ->
    (forall v, balance tb l h v (t_dst t) = 0) -> harmful tb l h s go cemi KeyError
| Harm_display k t svc p rest : cemi_telegram cemi = Some (k, t) -> group_telegram t ->
    In (t_dst t) (vals (at_addrs (as_table s))) -> group_service t = Some svc ->
    receivers tb l h (t_dst t) go = p :: rest -> undisplayable (snd p) (raw (snd p) t) = true ->
    harmful tb l h s go cemi ValueError.
Definition harmless tb l h s go cemi : Prop := forall e, ~ harmful tb l h s go cemi e.

(** Two hexadecimal digits for each octet; an odd digit at the end is dropped. *)
Definition spells (text : string) (m : list Z) : Prop :=
  octets m /\ exists digits rest, text = String.append digits rest /\ all_hex text /\
  upper digits = text_of m /\ (String.length rest <= 1)%nat.
(** A line that ends the reader, and the exception. *)
Inductive ends tb l h (st : state) (s : assoc_table) (go : gobj_table) (line : string) : exn -> Prop :=
| Ends_text : ~ all_hex (line_text line) -> ends tb l h st s go line ValueError
| Ends_report m e : spells (line_text line) m -> failure tb l h st s go m e -> ends tb l h st s go line e
| Ends_display m k t svc p : spells (line_text line) m -> on_bus st m = Some (k, t) -> group_telegram t ->
    In (t_dst t) (vals (at_addrs (as_table s))) -> group_service t = Some svc ->
    In p (receivers tb l h (t_dst t) go) -> undisplayable (snd p) (raw (snd p) t) = true ->
    ends tb l h st s go line ValueError.
