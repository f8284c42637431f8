(** C81: which device the daemon opens, for every command line. *)
From Coq Require Import String Ascii ZArith List Bool.
From Verif Require Import DaemonArgs SpecArgs ArgsProofs.
Import ListNotations.
Local Open Scope string_scope.

(** Every command line can be read in one way. *)
Theorem C81_reading : forall args, exists is, command_line args is /\ forall is', command_line args is' -> is' = is.
Proof. intros args. exists (items_of args). split; [apply items_read|apply items_unique]. Qed.
Print Assumptions C81_reading.

(** The usage is printed exactly when an item asks for it. *)
Theorem C81_usage : forall ready opens args is, command_line args is ->
  (daemon_start ready opens args = Usage <-> Exists asks_help is).
Proof.
  intros ready opens args is C. rewrite (items_unique _ _ C), <- helps_any. destruct (options_items args default_settings) as [T F]. unfold daemon_start.
  destruct (existsb helps (items_of args)).
  - rewrite (T eq_refl). tauto.
  - destruct (F eq_refl) as (s & -> & _). split; [|discriminate]. destruct ready; [|discriminate]. destruct (s_dev s) as [d|]; [destruct (opens d)|]; discriminate.
Qed.
Print Assumptions C81_usage.

(** The daemon runs on a device exactly when no item asks for the usage and that
    device was named last (or is the default) and can be opened.  The port is
    5555, whatever was asked for. *)
Theorem C81_runs : forall ready opens args is d p, command_line args is ->
  (daemon_start ready opens args = Runs d p <->
   p = 5555%Z /\ ready = true /\ ~ Exists asks_help is /\ device is (Some d) /\ opens d = true).
Proof.
  intros ready opens args is d p C. rewrite (items_unique _ _ C), <- helps_any. destruct (options_items args default_settings) as [T F]. unfold daemon_start.
  destruct (existsb helps (items_of args)).
  - rewrite (T eq_refl). split; [discriminate|intros (_ & _ & N & _); destruct (N eq_refl)].
  - destruct (F eq_refl) as (s & -> & D). cbn [s_dev default_settings] in D. rewrite D.
    destruct ready; [|split; [discriminate|intros (_ & H & _); discriminate]]. split.
    + pose proof (devs_device (items_of args)) as V. destruct (devs _ _) as [d'|]; [|discriminate]. destruct (opens d') eqn:O; [|discriminate].
      intros H. injection H as <- <-. repeat split; auto; discriminate.
    + intros (-> & _ & _ & V & O). rewrite (device_devs _ _ V), O. reflexivity.
Qed.
Print Assumptions C81_runs.

(** When the letter d comes last, there is no device: the daemon ends, whichever
    devices there are. *)
Theorem C81_letter : forall ready opens args is, command_line args is -> ~ Exists asks_help is -> device is None ->
  daemon_start ready opens args = Stops.
Proof.
  intros ready opens args is C N V. destruct (daemon_start ready opens args) as [| |d p] eqn:E; [|reflexivity|].
  - destruct N. apply (C81_usage ready opens args is C), E.
  - apply (C81_runs ready opens args is d p C) in E. destruct E as (_ & _ & _ & V' & _).
    pose proof (device_devs _ _ V). pose proof (device_devs _ _ V'). congruence.
Qed.
Print Assumptions C81_letter.
(** The usage text says "-d, --dev-hidraw  The hidraw device": the short form
    never works. *)
Theorem C81_documented_refuted :
  ~ (forall opens dev, opens dev = true -> daemon_start true opens ["-d"; dev] = Runs dev 5555).
Proof. intros H. specialize (H (fun _ => true) "/dev/hidraw2" eq_refl). vm_compute in H. discriminate. Qed.
Print Assumptions C81_documented_refuted.

(** Everything else makes no difference: words, the options for port and host,
    the letters p and i, and what is refused. *)
Theorem C81_irrelevant : forall ready opens args args' before i after,
  command_line args (before ++ i :: after) -> command_line args' (before ++ after) -> ~ matters i ->
  daemon_start ready opens args = daemon_start ready opens args'.
Proof.
  intros ready opens args args' before i after C C' N. unfold daemon_start.
  destruct (options_items args default_settings) as [T F]. destruct (options_items args' default_settings) as [T' F'].
  rewrite <- (items_unique _ _ C) in T, F. rewrite <- (items_unique _ _ C') in T', F'.
  assert (existsb helps (before ++ i :: after) = existsb helps (before ++ after)) as Eh.
  { rewrite !existsb_app. cbn [existsb]. replace (helps i) with false; [reflexivity|]. symmetry. apply not_true_is_false. rewrite helps_spec. intros H. apply N. left. exact H. }
  assert (forall d, devs (before ++ i :: after) d = devs (before ++ after) d) as Ed.
  { intros d. unfold devs. rewrite !fold_left_app. cbn [fold_left]. rewrite dev_of_other; [reflexivity|]. intros d' S. apply N. right. eauto. }
  rewrite Eh in T, F. destruct (existsb helps (before ++ after)); [rewrite (T eq_refl), (T' eq_refl); reflexivity|].
  destruct (F eq_refl) as (s & -> & D). destruct (F' eq_refl) as (s' & -> & D'). rewrite Ed in D. rewrite D, D'. reflexivity.
Qed.
Print Assumptions C81_irrelevant.

(** An abbreviation, a value in the next argument that looks like an option, the
    letters p and i with d, an ambiguous abbreviation, an option behind "--". *)
Example C81_example :
  let run := daemon_start true (fun d => String.eqb d "/dev/hidraw2" || String.eqb d "-h") in
  command_line ["x"; "--dev=/dev/hidraw2"; "--port"; "5"; "--"; "-h"] [Word "x"; Named "dev-hidraw" "/dev/hidraw2"; Named "port" "5"] /\
  run ["x"; "--dev=/dev/hidraw2"; "--port"; "5"; "--"; "-h"] = Runs "/dev/hidraw2" 5555 /\
  run ["--dev-hidraw"; "-h"] = Runs "-h" 5555 /\
  run ["--dev-hidraw"; "/dev/hidraw2"; "-pid"] = Stops /\
  run ["-pdh"; "--dev-hidraw=/dev/hidraw2"] = Usage /\
  run ["--h"; "--dev-hidraw=/dev/hidraw2"] = Runs "/dev/hidraw2" 5555 /\
  ~ matters (Named "port" "5").
Proof.
  cbv zeta. split; [exact (items_read ["x"; "--dev=/dev/hidraw2"; "--port"; "5"; "--"; "-h"])|].
  do 5 (split; [vm_compute; reflexivity|]). intros [[]|[d [H _]]]. discriminate.
Qed.
