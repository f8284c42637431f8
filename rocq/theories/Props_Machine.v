(** C112: the tunnelling client is a machine with six registers. *)
From Coq Require Import String ZArith List Bool Lia ZifyBool.
From Verif Require Import Py Base Msg Address Dpt Tables LData Inet State Encode Decode Client.
From Verif Require Import SpecMsg SpecTables SpecWire SpecDecode SpecClient SpecMachine.
From Verif Require Import Props_Tables Props_Encode Props_Decode Props_Client MachineProofs.
Import ListNotations.
Open Scope Z_scope.

(** Whatever happens, in whatever order (datagrams of any octets, also without a
    transport; transports made and lost; turns of the writer with any messages),
    event by event the client sends the datagrams and delivers the messages of
    the machine. *)
Theorem C112_machine : forall ip port st ch msgs es, ipv4 ip -> startable st ch -> octet_events es ->
  map visible (observations (client_new (dotted ip) port st msgs) es) =
  snd (k_run ip port st (k_start ch (st_remote st) (st_local st) msgs) es).
Proof.
  intros ip port st ch msgs es Ip St O.
  exact (proj2 (run_together ip port st ch Ip St es _ _ (start_together ip port st ch msgs St) O)).
Qed.
Print Assumptions C112_machine.

(** The registers are the attributes of the client and of its State. *)
Theorem C112_registers : forall ip port st ch msgs es, ipv4 ip -> startable st ch -> octet_events es ->
  let c := after (client_new (dotted ip) port st msgs) es in
  let k := fst (k_run ip port st (k_start ch (st_remote st) (st_local st) msgs) es) in
  c_transport c = k_up k /\ c_connected c = k_answered k /\ st_channel (c_state c) = Some (k_channel k) /\
  st_remote (c_state c) = k_expected k /\ st_local (c_state c) = k_number k /\
  0 <= k_expected k < 256 /\ 0 <= k_number k < 256 /\ same_tables st (c_state c).
Proof.
  intros ip port st ch msgs es Ip St O c k.
  destruct (proj1 (run_together ip port st ch Ip St es _ _ (start_together ip port st ch msgs St) O))
    as [_ _ _ Up An _ ((M & A & G) & R & L & C) Ex Nu].
  exact (conj Up (conj An (conj C (conj R (conj L (conj Ex (conj Nu (conj M (conj A G))))))))).
Qed.
Print Assumptions C112_registers.

(** So the registers are all the past leaves behind: after two histories with
    the same registers the client shows the same, whatever comes next. *)
Theorem C112_future : forall ip port st ch msgs es1 es2, ipv4 ip -> startable st ch ->
  octet_events es1 -> octet_events es2 ->
  let c := client_new (dotted ip) port st msgs in
  let k es := fst (k_run ip port st (k_start ch (st_remote st) (st_local st) msgs) es) in
  k es1 = k es2 ->
  forall es, octet_events es ->
  map visible (observations (after c es1) es) = map visible (observations (after c es2) es).
Proof.
  intros ip port st ch msgs es1 es2 Ip St O1 O2 c k E es O.
  pose proof (start_together ip port st ch msgs St) as T.
  destruct (run_together ip port st ch Ip St es1 _ _ T O1) as [T1 _].
  destruct (run_together ip port st ch Ip St es2 _ _ T O2) as [T2 _].
  destruct (run_together ip port st ch Ip St es _ _ T1 O) as [_ E1].
  destruct (run_together ip port st ch Ip St es _ _ T2 O) as [_ E2].
  unfold c. rewrite E1, E2. unfold k in E. rewrite E. reflexivity.
Qed.
Print Assumptions C112_future.

(** The channel and the expected counter are not remembered in vain: as long as
    there is a transport, one datagram tells apart two histories that differ in
    one of them. *)
Lemma harmless_frame st ch : startable st ch -> meaning st [0x11; 0x00] = Ok [].
Proof.
  intros (M & A & G & C & R & L). unfold meaning.
  rewrite (C26_message_code CNetIP (st_set_remote 0 st) (tunnelling_request 0 0 [0x11; 0x00]) 0x11 0x00 []);
    [|octets_tac|right; reflexivity|discriminate|discriminate|right; split; [exact M|reflexivity]].
  unfold reported. cbn. rewrite M. reflexivity.
Qed.
Theorem C112_apart : forall ip port st ch msgs es1 es2, ipv4 ip -> startable st ch ->
  octet_events es1 -> octet_events es2 ->
  let c := client_new (dotted ip) port st msgs in
  let k es := fst (k_run ip port st (k_start ch (st_remote st) (st_local st) msgs) es) in
  k_up (k es1) = true -> k_up (k es2) = true ->
  k_expected (k es1) <> k_expected (k es2) \/ k_channel (k es1) mod 256 <> k_channel (k es2) mod 256 ->
  exists d, octets d /\
    map visible (observations (after c es1) [EvData d]) <> map visible (observations (after c es2) [EvData d]).
Proof.
  intros ip port st ch msgs es1 es2 Ip St O1 O2 c k U1 U2 D.
  pose proof (start_together ip port st ch msgs St) as T.
  destruct (run_together ip port st ch Ip St es1 _ _ T O1) as [T1 _].
  destruct (run_together ip port st ch Ip St es2 _ _ T O2) as [T2 _].
  fold c in T1, T2. fold (k es1) in T1. fold (k es2) in T2.
  pose proof (tg_exp _ _ _ _ _ T1) as E1. pose proof (tg_exp _ _ _ _ _ T2) as E2.
  pose (d := tunnelling_request 0 (k_expected (k es1)) [0x11; 0x00]).
  assert (Od : octets d).
  { unfold d. apply ClientProofs.request_octets. octets_tac. }
  assert (Oe : octet_events [EvData d]) by (intros x [X|[]]; injection X as <-; exact Od).
  exists d. split; [exact Od|].
  rewrite (proj2 (run_together ip port st ch Ip St _ _ _ T1 Oe)), (proj2 (run_together ip port st ch Ip St _ _ _ T2 Oe)).
  cbn [k_run k_step]. unfold k_data. cbv zeta.
  assert (connect_answer d = false) as -> by reflexivity.
  assert (tunnelled d = Some (k_expected (k es1), [0x11; 0x00])) as ->.
  { unfold d. cbn. rewrite Z.mod_small by exact E1. reflexivity. }
  rewrite (harmless_frame st ch St), Z.eqb_refl, U1, U2.
  destruct (k_expected (k es1) =? k_expected (k es2)) eqn:E; cbn [fst snd].
  - intros X. injection X as X. lia.
  - rewrite andb_true_r. destruct (k_expected (k es1) + 1 =? k_expected (k es2)); [|discriminate].
    intros X. injection X as X X'. revert X'. rewrite !Z.mod_small by lia. lia.
Qed.
Print Assumptions C112_apart.

(** A client that is accepted, loses its transport, is given a request all the
    same (which counts and is lost), gets a transport again, and is given the
    next request and a repetition; then the writer begins. *)
Definition mc_events : list event :=
  [EvMade; EvWriter; EvData ex_accept; EvLost; EvData (ex_request 0); EvMade; EvData (ex_request 1); EvData (ex_request 1);
   EvWriter; EvData (ex_ack 0); EvWriter; EvLost; EvWriter; EvWriter].
Example C112_example :
  ipv4 ex_ip /\ startable ex_cst 0 /\ octet_events mc_events /\
  snd (k_run ex_ip 3671 ex_cst (k_start 0 0 0 ex_msgs) mc_events) =
    [([connect_request ex_ip 3671], []); silent; ([connectionstate_request 0x15 ex_ip 3671], []); silent; silent;
     ([connect_request ex_ip 3671], []); ([tunnelling_ack 0x15 1 0], ex_delivered); ([tunnelling_ack 0x15 2 0], []);
     ([tunnelling_request 0x15 0 (group_frame data_req 0x0900 read_tpdu)], []); silent;
     ([tunnelling_request 0x15 1 (group_frame data_req 0x0100 [0x00; 0x80; 0x0C; 0x1A])], []); silent; silent; silent] /\
  fst (k_run ex_ip 3671 ex_cst (k_start 0 0 0 ex_msgs) mc_events) = mkmachine false true 0x15 2 1 (Broken KeyError).
Proof.
  split; [exact ex_ip_ok|]. split; [repeat split; discriminate || reflexivity|]. split.
  - intros d I. unfold mc_events in I. cbn [In] in I.
    repeat destruct I as [I|I]; try discriminate I; try contradiction; injection I as <-; vm_compute; octets_tac.
  - vm_compute. auto.
Qed.

(** A repetition, a request out of order and a stale acknowledgement leave no
    trace in the registers; a request that is taken does. *)
Example C112_example_registers :
  let k es := fst (k_run ex_ip 3671 ex_cst (k_start 0 0 0 ex_msgs) es) in
  k [EvMade; EvData ex_accept; EvData (ex_request 0); EvData (ex_request 0); EvData (ex_request 9); EvData (ex_ack 7)] =
  k [EvMade; EvData ex_accept; EvData (ex_request 0)] /\
  k_up (k [EvMade; EvData ex_accept]) = true /\ k_up (k [EvMade; EvData ex_accept; EvData (ex_request 0)]) = true /\
  k_expected (k [EvMade; EvData ex_accept]) = 0 /\ k_expected (k [EvMade; EvData ex_accept; EvData (ex_request 0)]) = 1.
Proof. vm_compute. auto. Qed.
