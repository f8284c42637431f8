(** The command line of the daemon, daemon/usbhid.c 169-226: getopt_long() of the
    GNU C library in its default mode (arguments that are no options are passed
    over, long names may be abbreviated), without POSIXLY_CORRECT. *)
From Coq Require Import String Ascii ZArith List Bool.
Import ListNotations.
Open Scope Z_scope.
Local Open Scope string_scope.

(** 172: the short options.  No colon follows any of them: none takes an
    argument. *)
Definition shortopts : string := "hdpi".
(** 173-175: the long options; has_arg and the value returned. *)
Definition longopts : list (string * bool * ascii) :=
  [("help", false, "h"%char); ("host", true, "s"%char); ("port", true, "p"%char); ("dev-hidraw", true, "d"%char)].

(** 176-178: the variables set by options; [None] is the null pointer. *)
Record settings := mksettings { s_dev : option string; s_port : option string; s_host : option string }.
Definition default_settings : settings :=
  mksettings (Some "/dev/hidraw1") (Some "8765") (Some "172.20.35.81").

(** 189-209: the switch, with optarg; [None]: the usage was printed and exit(0)
    called.  Every other value ('i' and '?') is passed over. *)
Definition option_step (c : ascii) (optarg : option string) (s : settings) : option settings :=
  if Ascii.eqb c "h" then None
  else if Ascii.eqb c "d" then Some (mksettings optarg (s_port s) (s_host s))
  else if Ascii.eqb c "p" then Some (mksettings (s_dev s) optarg (s_host s))
  else if Ascii.eqb c "s" then Some (mksettings (s_dev s) (s_port s) optarg)
  else Some s.

(** A member of the short options. usbhid.c 172. *)
Fixpoint has_char (c : ascii) (s : string) : bool :=
  match s with
  | EmptyString => false
  | String d r => Ascii.eqb c d || has_char c r
  end.
(** One argument of the form -abc: letter by letter; an unknown letter gives '?'.
    getopt_long in usbhid.c 188. *)
Fixpoint letters_step (l : string) (s : settings) : option settings :=
  match l with
  | EmptyString => Some s
  | String c r =>
      match option_step (if has_char c shortopts then c else "?") None s with
      | None => None
      | Some s' => letters_step r s'
      end
  end.

(** The text of a long option up to '=', and what follows it. getopt_long in
    usbhid.c 188. *)
Fixpoint split_value (t : string) : string * option string :=
  match t with
  | EmptyString => (EmptyString, None)
  | String c r =>
      if Ascii.eqb c "=" then (EmptyString, Some r)
      else let '(n, v) := split_value r in (String c n, v)
  end.
(** Abbreviated long options of usbhid.c 173-175. *)
Fixpoint begins (p s : string) : bool :=
  match p, s with
  | EmptyString, _ => true
  | String c p', String d s' => Ascii.eqb c d && begins p' s'
  | _, EmptyString => false
  end.
(** The long option meant: the one of that name, else the only one whose name
    begins so. usbhid.c 173-175 and 188. *)
Definition find_long (n : string) : option (string * bool * ascii) :=
  match find (fun o => String.eqb (fst (fst o)) n) longopts with
  | Some o => Some o
  | None =>
      match filter (fun o => begins n (fst (fst o))) longopts with
      | [o] => Some o
      | _ => None
      end
  end.

(** What an argument looks like: "--", a long option, letters behind a hyphen, or
    no option (a single hyphen is none). getopt_long in usbhid.c 188. *)
Inductive shape := SStop | SLong (t : string) | SLetters (l : string) | SWord.
(** getopt_long in usbhid.c 188. *)
Definition shape_of (a : string) : shape :=
  match a with
  | EmptyString => SWord
  | String c r =>
      if Ascii.eqb c "-" then
        match r with
        | EmptyString => SWord
        | String d t =>
            if Ascii.eqb d "-" then match t with EmptyString => SStop | _ => SLong t end
            else SLetters r
        end
      else SWord
  end.
(** 187-210: the loop over the arguments behind the program name. *)
Fixpoint read_options (args : list string) (s : settings) : option settings :=
  match args with
  | [] => Some s
  | a :: r =>
      match shape_of a with
      | SStop => Some s
      | SWord => read_options r s
      | SLetters l =>
          match letters_step l s with None => None | Some s' => read_options r s' end
      | SLong t =>
          let '(n, v) := split_value t in
          match find_long n with
          | None => read_options r s
          | Some (_, false, c) =>
              match v with
              | Some _ => read_options r s
              | None =>
                  match option_step c None s with None => None | Some s' => read_options r s' end
              end
          | Some (_, true, c) =>
              match v with
              | Some x =>
                  match option_step c (Some x) s with None => None | Some s' => read_options r s' end
              | None =>
                  match r with
                  | [] => Some s
                  | x :: r' =>
                      match option_step c (Some x) s with None => None | Some s' => read_options r' s' end
                  end
              end
          end
      end
  end.

(** What becomes of the process: exit(0) after the usage, exit(EXIT_FAILURE), or
    the loop, with the device open and listening on a port. *)
Inductive start := Usage | Stops | Runs (dev : string) (port : Z).
(** DEFAULT_PORT, line 18. *)
Definition DEFAULT_PORT : Z := 5555.
(** 187-219.  [ready]: the socket could be made, bound and listened on (90-109,
    212-216); [opens]: open() of that name succeeds (38-42; a null pointer gives
    EFAULT). *)
Definition daemon_start (ready : bool) (opens : string -> bool) (args : list string) : start :=
  match read_options args default_settings with
  | None => Usage
  | Some s =>
      if ready then
        match s_dev s with
        | None => Stops
        | Some d => if opens d then Runs d DEFAULT_PORT else Stops
        end
      else Stops
  end.
