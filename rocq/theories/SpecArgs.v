(** Specification vocabulary for C81: how a command line reads. *)
From Coq Require Import String Ascii ZArith List Bool.
Import ListNotations.
Local Open Scope string_scope.

Definition option_names : list string := ["help"; "host"; "port"; "dev-hidraw"].
(** [n] stands for option [o]: its name begins so, and no other name does. *)
Definition abbreviates (n o : string) : Prop :=
  In o option_names /\ forall o', In o' option_names -> ((exists t, o' = n ++ t) <-> o' = o).
Definition without_equals (n : string) : Prop := ~ In "="%char (list_ascii_of_string n).

(** The items of a command line: a word that is no option, letters behind one
    hyphen, the long option help, a long option with its value, something the
    C library complains about. *)
Inductive item :=
| Word (w : string)
| Letters (l : list ascii)
| Help
| Named (o v : string)
| Wrong (t : string).

Inductive command_line : list string -> list item -> Prop :=
| Cl_end : command_line [] []
| Cl_stop r : command_line ("--" :: r) []
| Cl_word w r is : (forall t, w = "-" ++ t -> t = "") -> command_line r is ->
    command_line (w :: r) (Word w :: is)
| Cl_letters c l r is : c <> "-"%char -> command_line r is ->
    command_line (("-" ++ String c l) :: r) (Letters (c :: list_ascii_of_string l) :: is)
| Cl_help n r is : abbreviates n "help" -> command_line r is ->
    command_line (("--" ++ n) :: r) (Help :: is)
| Cl_joined n o v r is : abbreviates n o -> o <> "help" -> command_line r is ->
    command_line (("--" ++ n ++ "=" ++ v) :: r) (Named o v :: is)
| Cl_next n o v r is : abbreviates n o -> o <> "help" -> command_line r is ->
    command_line (("--" ++ n) :: v :: r) (Named o v :: is)
| Cl_unknown n t r is : without_equals n -> (forall o, ~ abbreviates n o) ->
    (t = n /\ n <> "" \/ exists v, t = n ++ "=" ++ v) -> command_line r is ->
    command_line (("--" ++ t) :: r) (Wrong t :: is)
| Cl_help_value n v r is : abbreviates n "help" -> command_line r is ->
    command_line (("--" ++ n ++ "=" ++ v) :: r) (Wrong (n ++ "=" ++ v) :: is)
| Cl_no_value n o : abbreviates n o -> o <> "help" ->
    command_line ["--" ++ n] [Wrong n].

(** Which items ask for the usage. *)
Definition asks_help (i : item) : Prop :=
  match i with Help => True | Letters l => In "h"%char l | _ => False end.
(** Which items set the device, and to what: the letter d to nothing. *)
Definition sets_device (i : item) (d : option string) : Prop :=
  match i with
  | Named o v => o = "dev-hidraw" /\ d = Some v
  | Letters l => In "d"%char l /\ d = None
  | _ => False
  end.
(** The device after all items: the last one set, else the default. *)
Definition device (is : list item) (d : option string) : Prop :=
  (exists before i after, is = before ++ i :: after /\ sets_device i d /\
     forall j d', In j after -> ~ sets_device j d')%list \/
  (d = Some "/dev/hidraw1" /\ forall j d', In j is -> ~ sets_device j d').
(** Items that do not matter: everything but these. *)
Definition matters (i : item) : Prop := asks_help i \/ exists d, sets_device i d.
