(** C87: the client in time. *)
From Coq Require Import String Ascii ZArith List Bool Lia ZifyBool.
From Verif Require Import Py Base Msg Address Dpt Tables LData Inet State Encode Decode Client ClientTime.
From Verif Require Import SpecMsg SpecTables SpecWire SpecDecode SpecClient SpecSystem SpecTime.
From Verif Require Import EncodeProofs ClientProofs SystemProofs TimeProofs.
From Verif Require Import Props_Tables Props_Encode Props_Decode Props_Client Props_System.
Import ListNotations.
Open Scope Z_scope.

(** The client of the examples with two messages. *)
Definition ex_two : list message := firstn 2 ex_msgs.
Definition ex_short : client := client_new (dotted ex_ip) 3671 ex_cst ex_two.
Lemma ex_short_linked : linked ex_ip ex_short ex_two [EvMade; EvData ex_accept] 0x15.
Proof.
  split.
  { exists 3671, ex_cst. split; [reflexivity|]. split; [exact ex_ip_ok|]. repeat split; try discriminate. repeat constructor. }
  split; [orderly_tac|]. split; [vm_compute; reflexivity|]. split; [vm_compute; reflexivity|].
  split; [lia|]. vm_compute. reflexivity.
Qed.

Ltac timely_tac :=
  vm_compute; repeat split; try discriminate;
  intros since H; repeat (destruct H as [<-|H]; [vm_compute; discriminate|]); destruct H.

(** When the network loses nothing and needs less than 1.5 s for each datagram,
    the three seconds of sleep are enough: before each turn of the writer
    everything written has been acknowledged. *)
Theorem C87_paced : forall ip c0 msgs es0 ch frame d t0 es, linked ip c0 msgs es0 ch -> sendable frame ->
  st_local (c_state (after c0 es0)) = 0 -> 2 * d < 3000 ->
  timely d frame (ti_start (after c0 es0) ch t0) es ->
  paced frame 0 (sy_start (after c0 es0) ch) (map snd es).
Proof.
  intros ip c0 msgs es0 ch frame d t0 es L Mf El Hd P. exact (proj2 (ti_linked ip c0 msgs es0 ch frame d t0 es L Mf El Hd P)).
Qed.
Print Assumptions C87_paced.
(** So at any time all that was written is on the bus, in order and once, except
    possibly the last message; and when the writer stops, that one too. *)
Theorem C87_bus : forall ip c0 msgs es0 ch frame d t0 es, linked ip c0 msgs es0 ch -> sendable frame ->
  st_local (c_state (after c0 es0)) = 0 -> 2 * d < 3000 ->
  timely d frame (ti_start (after c0 es0) ch t0) es ->
  let s := ti_sys (ti_run frame (ti_start (after c0 es0) ch t0) es) in
  exists rest, written s = gw_bus (sy_gw s) ++ rest /\ zlen rest <= 1 /\
  (c_writer (sy_client s) = WStopped -> rest = []).
Proof.
  intros ip c0 msgs es0 ch frame d t0 es L Mf El Hd P s. destruct (ti_linked ip c0 msgs es0 ch frame d t0 es L Mf El Hd P) as [(a & T) Pc].
  destruct (C66_paced ip c0 msgs es0 ch frame (map snd es) L Mf El Pc) as (rest & E & Lr & X). cbv zeta in X.
  assert (Es : s = sy_run frame (sy_start (after c0 es0) ch) (map snd es)) by apply ti_run_sys.
  rewrite <- Es in *. exists rest. split; [exact E|]. split; [exact Lr|]. intros St. apply X. destruct T. fold s in q_sim, q_ack.
  destruct q_ack as [Ea|[N _]]; [|contradiction]. rewrite (m_l _ _ _ _ _ _ q_sim), (m_wr _ _ _ _ _ _ q_sim), Ea. unfold zlen. rewrite map_length. reflexivity.
Qed.
Print Assumptions C87_bus.
(** It stops after one turn more than it has messages, if each can be displayed
    and encoded, whatever the network does. *)
Theorem C87_stops : forall ip c0 msgs es0 ch frame hs, linked ip c0 msgs es0 ch -> sendable frame ->
  Forall (transmissible (c_state c0)) msgs -> answered es0 = true -> ~ In EvWriter es0 ->
  (length msgs < how_often hs)%nat ->
  c_writer (sy_client (sy_run frame (sy_start (after c0 es0) ch) hs)) = WStopped.
Proof.
  intros ip c0 msgs es0 ch frame hs L Mf Tr An Nw Ln. pose proof (local_range ip c0 msgs es0 ch L) as R. pose proof L as (W & O & _).
  destruct (sim_start ip c0 msgs es0 ch frame (st_local (c_state (after c0 es0))) L ltac:(lia)) as (S & F & Hch).
  apply (turns_stop ip ch (c_state c0) frame hs Hch F Mf _ _ msgs S Tr). left. split; [|exact Ln].
  exact (hand_start ip c0 msgs es0 W O An Nw).
Qed.
Print Assumptions C87_stops.
(** When the loop has been stopped, every message has reached the bus: the frames
    on it are those of the messages, in order. *)
Theorem C87_messages : forall ip c0 msgs es0 ch frame d t0 es, linked ip c0 msgs es0 ch -> sendable frame ->
  st_local (c_state (after c0 es0)) = 0 -> 2 * d < 3000 ->
  Forall (fun m => link_request m = true) msgs -> writer_sent (trace c0 es0) = [] ->
  timely d frame (ti_start (after c0 es0) ch t0) es ->
  let s := ti_sys (ti_run frame (ti_start (after c0 es0) ch t0) es) in
  c_writer (sy_client s) = WStopped -> Forall2 (frame_of (c_state c0)) msgs (gw_bus (sy_gw s)).
Proof.
  intros ip c0 msgs es0 ch frame d t0 es L Mf El Hd Lk Ws P s St.
  destruct (C87_bus ip c0 msgs es0 ch frame d t0 es L Mf El Hd P) as (rest & E & _ & X). fold s in E, X. rewrite (X St), app_nil_r in E. rewrite <- E.
  assert (Es : s = sy_run frame (sy_start (after c0 es0) ch) (map snd es)) by apply ti_run_sys.
  rewrite Es in *. exact (stopped_all ip c0 msgs es0 ch frame (map snd es) L Mf Lk Ws St).
Qed.
Print Assumptions C87_messages.
(** Messages are three seconds apart: by any time after [t0] no more of them have
    been written than one and one for each three seconds. *)
Theorem C87_rate : forall ip c0 msgs es0 ch frame d t0 es, linked ip c0 msgs es0 ch -> sendable frame ->
  st_local (c_state (after c0 es0)) = 0 -> 2 * d < 3000 ->
  timely d frame (ti_start (after c0 es0) ch t0) es ->
  let x := ti_run frame (ti_start (after c0 es0) ch t0) es in
  zlen (written (ti_sys x)) <= 1 + (ti_now x - t0) / 3000.
Proof.
  intros ip c0 msgs es0 ch frame d t0 es L Mf El Hd P x. destruct (ti_linked ip c0 msgs es0 ch frame d t0 es L Mf El Hd P) as [(a & T) _].
  fold x in T. destruct T. rewrite (m_wr _ _ _ _ _ _ q_sim). unfold zlen in *. rewrite map_length. clear -q_now. lia.
Qed.
Print Assumptions C87_rate.
(** It takes three seconds for each message written before the loop stops. *)
Theorem C87_duration : forall ip c0 msgs es0 ch frame d t0 es, linked ip c0 msgs es0 ch -> sendable frame ->
  st_local (c_state (after c0 es0)) = 0 -> 2 * d < 3000 ->
  timely d frame (ti_start (after c0 es0) ch t0) es ->
  let x := ti_run frame (ti_start (after c0 es0) ch t0) es in
  c_writer (sy_client (ti_sys x)) = WStopped -> t0 + 3000 * zlen (written (ti_sys x)) <= ti_now x.
Proof.
  intros ip c0 msgs es0 ch frame d t0 es L Mf El Hd P x St. destruct (ti_linked ip c0 msgs es0 ch frame d t0 es L Mf El Hd P) as [(a & T) _].
  fold x in T. destruct T. rewrite (m_wr _ _ _ _ _ _ q_sim). unfold zlen in *. rewrite map_length. exact (q_stop St).
Qed.
Print Assumptions C87_duration.
(** With 1.5 s for each datagram it need not be enough: a message is lost although
    the network loses nothing. *)
Definition ex_late : list (Z * happening) :=
  [(0, Turn); (1500, Arrive_up); (3000, Turn); (3000, Arrive_down); (4500, Arrive_up); (6000, Arrive_down); (6000, Turn)].
Theorem C87_slow_refuted : exists ip c0 msgs es0 ch frame d t0 es, linked ip c0 msgs es0 ch /\ sendable frame /\
  st_local (c_state (after c0 es0)) = 0 /\ 2 * d = 3000 /\
  timely d frame (ti_start (after c0 es0) ch t0) es /\
  let s := ti_sys (ti_run frame (ti_start (after c0 es0) ch t0) es) in
  c_writer (sy_client s) = WStopped /\ sy_up s = [] /\ sy_down s = [] /\
  length (written s) = 2%nat /\ length (gw_bus (sy_gw s)) = 1%nat.
Proof.
  exists ex_ip, ex_short, ex_two, [EvMade; EvData ex_accept], 0x15, ex_frames, 1500, 0, ex_late.
  split; [exact ex_short_linked|]. split; [exact (meaningful_sendable _ _ ex_meaningful)|]. split; [vm_compute; reflexivity|]. split; [reflexivity|].
  split; [|vm_compute; repeat split]. timely_tac.
Qed.
Print Assumptions C87_slow_refuted.
(** Two messages, telegrams from the gateway in between, a repetition, and a
    network that needs up to 1.4 s. *)
Definition ex_timed : list (Z * happening) :=
  [(0, Turn); (10, Transmit); (1000, Arrive_down); (1300, Repeat_up 0); (1400, Arrive_up); (1400, Arrive_up); (2300, Arrive_up); (2800, Arrive_down); (2800, Arrive_down);
   (3001, Turn); (4401, Arrive_up); (5500, Transmit); (5801, Arrive_down); (6000, Arrive_down); (6002, Turn)].
Lemma ex_two_transmissible : Forall (transmissible (c_state ex_short)) ex_two.
Proof.
  constructor; [|constructor; [|constructor]]; (split; [reflexivity|]); intros s (M & A & G) C; (destruct (st_channel s) as [ch|] eqn:E; [|congruence]).
  - rewrite (read_frame s ex_assoc) by exact A.
    destruct (sends_to ex_assoc (mkasap 1 None)) as [[|x l]|] eqn:Es; try (vm_compute in Es; discriminate Es).
    unfold wire. cbn [fst]. rewrite M. cbn. rewrite E. eauto.
  - rewrite (write_frame s ex_assoc ex_go _ _ Value_Temp) by (exact A || exact G || reflexivity).
    destruct (sends_to ex_assoc (mkasap 2 None)) as [[|x l]|] eqn:Es; try (vm_compute in Es; discriminate Es).
    unfold wire. cbn [fst]. rewrite M. cbn. rewrite E. eauto.
Qed.
Example C87_example :
  linked ex_ip ex_short ex_two [EvMade; EvData ex_accept] 0x15 /\ sendable ex_frames /\
  st_local (c_state (after ex_short [EvMade; EvData ex_accept])) = 0 /\ 2 * 1400 < 3000 /\
  Forall (fun m => link_request m = true) ex_two /\ writer_sent (trace ex_short [EvMade; EvData ex_accept]) = [] /\
  Forall (transmissible (c_state ex_short)) ex_two /\ answered [EvMade; EvData ex_accept] = true /\
  ~ In EvWriter [EvMade; EvData ex_accept] /\ (length ex_two < how_often (map snd ex_timed))%nat /\
  timely 1400 ex_frames (ti_start (after ex_short [EvMade; EvData ex_accept]) 0x15 0) ex_timed /\
  let x := ti_run ex_frames (ti_start (after ex_short [EvMade; EvData ex_accept]) 0x15 0) ex_timed in
  c_writer (sy_client (ti_sys x)) = WStopped /\ ti_now x = 6002 /\ ti_down x = [] /\ ti_up x = [6000] /\
  gw_bus (sy_gw (ti_sys x)) =
    [[0x11; 0x00; 0x96; 0xE0; 0x00; 0x00; 0x09; 0x00; 0x01; 0x00; 0x00];
     [0x11; 0x00; 0x96; 0xE0; 0x00; 0x00; 0x01; 0x00; 0x03; 0x00; 0x80; 0x0C; 0x1A]] /\ client_taken (ti_sys x) = 2.
Proof.
  split; [exact ex_short_linked|]. split; [exact (meaningful_sendable _ _ ex_meaningful)|]. split; [vm_compute; reflexivity|]. split; [lia|].
  split; [repeat constructor|]. split; [vm_compute; reflexivity|].
  split; [exact ex_two_transmissible|]. split; [vm_compute; reflexivity|]. split; [intros [A|[A|[]]]; discriminate A|]. split; [vm_compute; lia|].
  split; [timely_tac|]. vm_compute. repeat split.
Qed.
