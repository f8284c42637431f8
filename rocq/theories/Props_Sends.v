(** C85: everything the tunnelling client ever sends. *)
From Coq Require Import String Ascii ZArith List Bool Lia ZifyBool.
From Verif Require Import Py Base Msg Address Dpt Tables LData Inet State Encode Decode Client.
From Verif Require Import SpecMsg SpecTables SpecWire SpecDecode SpecClient SpecSends.
From Verif Require Import MsgProofs EncodeProofs DecodeProofs ClientProofs DeliveryProofs SendsProofs.
From Verif Require Import Props_Encode Props_Decode Props_Client.
Import ListNotations.
Open Scope Z_scope.

(** A datagram is answered by the specified answer and nothing else, whatever
    came before; [k] is the number of requests taken since the last connect
    response. *)
Theorem C85_data : forall ip c msgs es d, well_made ip c msgs -> orderly false (es ++ [EvData d]) ->
  exists ch, fold_left channel_step es (st_channel (c_state c)) = Some ch /\
  o_sent (shown c es (EvData d)) =
  answer (c_state c) ip (c_lport c) ch (taken (st_remote (c_state c)) (trace c es)) d.
Proof.
  intros ip c msgs es d W O. destruct (channel_now ip c msgs es W (orderly_prefix _ _ _ O)) as [ch E].
  exists ch. split; [exact E|]. apply (answer_sent ip c msgs); assumption.
Qed.
Print Assumptions C85_data.
(** No amplification: a datagram is answered by one datagram at most, and the
    answer is never longer than what it answers. *)
Theorem C85_no_amplification : forall ip c msgs es d, well_made ip c msgs -> orderly false (es ++ [EvData d]) ->
  o_sent (shown c es (EvData d)) = [] \/
  exists b, o_sent (shown c es (EvData d)) = [b] /\ zlen b <= zlen d /\ zlen b <= 16.
Proof.
  intros ip c msgs es d W O. destruct (C85_data ip c msgs es d W O) as (ch & _ & E). rewrite E.
  assert (Li : zlen ip = 4) by (destruct W as (port & st & _ & (H & _) & _); unfold zlen; rewrite H; reflexivity).
  assert (Len : forall service body, ip_service d = Some (service, body) -> zlen d = zlen body + 4).
  { intros service body. unfold ip_service. destruct d as [|a [|b [|x [|y r]]]]; try discriminate.
    repeat match goal with |- context [if ?q then _ else _] => destruct q end; try discriminate. intros X. injection X as _ <-. rewrite !zlen_cons. lia. }
  unfold answer. destruct (connect_answer d) eqn:A.
  - destruct (channel_after d (Some ch)) as [ch'|]; [|left; reflexivity]. right. eexists. split; [reflexivity|].
    assert (zlen (connectionstate_request ch' ip (c_lport c)) = 16) as ->
      by (unfold connectionstate_request, endpoint; rewrite !zlen_app, Li; reflexivity).
    revert A. unfold connect_answer. destruct (ip_service d) as [[service [|a1 [|a2 [|a3 [|sta r]]]]]|] eqn:S; try discriminate.
    specialize (Len _ _ eq_refl). rewrite !zlen_cons in Len. intros A. apply andb_true_iff in A. destruct A as [_ A].
    destruct (sta =? 0); [lia|]. apply andb_true_iff in A. lia.
  - assert (Ack : forall x y z, zlen (tunnelling_ack x y z) = 10) by reflexivity.
    destruct (tunnelled d) as [[n cemi]|] eqn:Tn; [|left; reflexivity].
    assert (Ld : 10 <= zlen d).
    { revert Tn. unfold tunnelled. do 10 (destruct d as [|? d]; [discriminate|]). intros _. rewrite !zlen_cons. pose proof (zlen_nonneg d). lia. }
    repeat match goal with |- context [if ?q then _ else _] => destruct q end; try (left; reflexivity);
      repeat match goal with |- context [match ?q with Ok _ => _ | Err _ => _ end] => destruct q end; try (left; reflexivity);
      (right; eexists; split; [reflexivity|]; rewrite Ack; lia).
Qed.
Print Assumptions C85_no_amplification.

(** A new transport makes it send one connect request, the loss of the transport
    nothing.  A turn of the writer sends nothing or, for one message of the list,
    one tunnelling request with the channel id and the outgoing counter. *)
Theorem C85_others : forall ip c msgs es, well_made ip c msgs -> orderly false es ->
  Forall (fun m => link_request m = true) msgs ->
  o_sent (shown c es EvMade) = [connect_request ip (c_lport c)] /\
  o_sent (shown c es EvLost) = [] /\
  (o_sent (shown c es EvWriter) = [] \/
   exists m ch cemi, In m msgs /\ fold_left channel_step es (st_channel (c_state c)) = Some ch /\
     let request := tunnelling_request ch (fold_left local_step es (st_local (c_state c))) cemi in
     fst (encode_msg m (c_state (after c es))) = Ok request /\ o_sent (shown c es EvWriter) = [request]).
Proof.
  intros ip c msgs es W O L. split; [apply (made_sent ip c msgs); assumption|]. split; [reflexivity|].
  exact (writer_sent_one ip c msgs es W O L).
Qed.
Print Assumptions C85_others.

(** In every history it sends connect requests, connection state requests,
    tunnelling requests and acknowledgements only: one connect request for each
    new transport, and one connection state request for each connect response.
    There is no heartbeat and no disconnect request. *)
Theorem C85_services : forall ip c msgs es, well_made ip c msgs -> orderly false es ->
  Forall (fun m => link_request m = true) msgs ->
  Forall (fun d => of_services [0x0205; 0x0207; 0x0420; 0x0421] d = true) (sent c es) /\
  how_many (of_service 0x0205) (sent c es) = how_many is_made es /\
  how_many (of_service 0x0207) (sent c es) = how_many is_answer es.
Proof.
  intros ip c msgs es W O L. split; [apply (sent_services ip c msgs)|apply (sent_counts ip c msgs)]; assumption.
Qed.
Print Assumptions C85_services.

(** So after the connect response, however long the connection lasts, the
    gateway hears no connection state request any more. *)
Theorem C85_no_heartbeat : forall ip c msgs es1 es2, well_made ip c msgs -> orderly false (es1 ++ es2) ->
  Forall (fun m => link_request m = true) msgs ->
  (forall d, In (EvData d) es2 -> connect_answer d = false) ->
  forall d, In d (sent (after c es1) es2) -> of_service 0x0207 d = false.
Proof.
  intros ip c msgs es1 es2 W O L N d I.
  destruct (C85_services ip c msgs _ W O L) as (_ & _ & H2).
  pose proof O as O1. apply orderly_app in O1. destruct O1 as [O1 _].
  destruct (C85_services ip c msgs _ W O1 L) as (_ & _ & H1).
  unfold sent in H2. rewrite observations_app, flat_map_app in H2. fold (sent c es1) (sent (after c es1) es2) in H2.
  rewrite !how_many_app, H1 in H2.
  assert (how_many is_answer es2 = 0%nat) as Z.
  { unfold how_many. destruct (filter is_answer es2) as [|e r] eqn:E; [reflexivity|].
    assert (In e (filter is_answer es2)) as J by (rewrite E; left; reflexivity). apply filter_In in J. destruct J as [J1 J2].
    destruct e as [| |x|]; try discriminate J2. cbn in J2. rewrite (N x J1) in J2. discriminate J2. }
  assert (how_many (of_service 0x0207) (sent (after c es1) es2) = 0%nat) as Y by lia.
  destruct (of_service 0x0207 d) eqn:E; [|reflexivity]. exfalso.
  assert (In d (filter (of_service 0x0207) (sent (after c es1) es2))) as J by (apply filter_In; auto).
  unfold how_many in Y. destruct (filter _ _); [contradiction|discriminate Y].
Qed.
Print Assumptions C85_no_heartbeat.

(** A datagram of any other service than the six it listens to - a disconnect
    request of the gateway, for one - is not answered and changes nothing: the
    rest of the history goes on as if it had not come. *)
Theorem C85_unheard : forall ip c msgs es1 d es2, well_made ip c msgs -> orderly false (es1 ++ EvData d :: es2) ->
  (4 <= length d)%nat -> of_services heard d = false ->
  observations c (es1 ++ EvData d :: es2) =
    observations c es1 ++ mkobs [] (Some (Ok (RList []))) :: observations (after c es1) es2 /\
  after c (es1 ++ EvData d :: es2) = after c (es1 ++ es2).
Proof.
  intros ip c msgs es1 d es2 W O Hl N.
  assert (orderly false (es1 ++ [EvData d])) as O2.
  { apply orderly_app in O. destruct O as [Oa Ob]. apply orderly_app. split; [exact Oa|]. cbn in Ob |- *. tauto. }
  destruct (well_made_allowed ip c msgs es1 _ W O2) as [_ Od].
  pose proof (s_good _ _ _ _ (well_made_history ip c msgs es1 W (orderly_prefix _ _ _ O2))) as G.
  pose proof (step_unheard ip _ d G Od Hl N) as X.
  destruct (run_cons (after c es1) (EvData d) es2) as [R1 R2]. rewrite X in R1, R2. cbn [fst snd] in R1, R2.
  rewrite observations_app, !after_app, R1, R2. split; reflexivity.
Qed.
Print Assumptions C85_unheard.
Theorem C85_disconnect : forall channel ip port, octets [channel] -> ipv4 ip ->
  octets (disconnect_request channel ip port) /\ (4 <= length (disconnect_request channel ip port))%nat /\
  of_services heard (disconnect_request channel ip port) = false.
Proof.
  intros channel ip port O I. unfold disconnect_request. split; [|split; [cbn; lia|reflexivity]].
  rewrite octets_app. split; [|apply endpoint_octets; exact I]. rewrite octets_cons in O. rewrite !octets_cons. unfold is_octet in *.
  repeat split; try lia. constructor.
Qed.
Print Assumptions C85_disconnect.

(** After a disconnect response with status 0 the client still counts as
    connected; until the next connect response its tunnelling requests are sent
    on channel 0. *)
Theorem C85_closed : forall ip c msgs es1 channel es2 e b r, well_made ip c msgs ->
  let es := es1 ++ EvData (disconnect_response channel 0) :: es2 in
  orderly false (es ++ [e]) -> (forall d, In (EvData d) es2 -> connect_answer d = false) ->
  c_connected (after c (es1 ++ [EvData (disconnect_response channel 0)])) = c_connected (after c es1) /\
  (In b (o_sent (shown c es e)) -> ip_service b = Some (0x0420, r) ->
   exists cemi, b = tunnelling_request 0 (fold_left local_step es (st_local (c_state c))) cemi).
Proof.
  intros ip c msgs es1 channel es2 e b r W es O N. pose proof (orderly_prefix _ _ _ O) as O0. unfold es in O0.
  assert (orderly false (es1 ++ [EvData (disconnect_response channel 0)])) as O2.
  { apply orderly_app in O0. destruct O0 as [Oa Ob]. apply orderly_app. split; [exact Oa|]. cbn in Ob |- *. tauto. }
  split.
  - rewrite (s_conn _ _ _ _ (well_made_history ip c msgs _ W O2)).
    rewrite (s_conn _ _ _ _ (well_made_history ip c msgs es1 W (orderly_prefix _ _ _ O2))).
    unfold answered. rewrite existsb_app. cbn. rewrite orb_false_r. reflexivity.
  - intros I S. destruct (C38_requests ip c msgs es e b r W O I S) as (ch & cemi & E1 & E2). exists cemi.
    assert (ch = 0) as ->; [|exact E2].
    unfold es in E1. rewrite fold_left_app in E1. cbn [fold_left] in E1. rewrite channel_zero in E1 by (exact N || reflexivity). congruence.
Qed.
Print Assumptions C85_closed.

(** The client of the examples is connected on channel 15h; the gateway sends a
    request, then a disconnect request, which is ignored: the next message is
    sent on channel 15h.  After a disconnect response it is sent on channel 0. *)
Example C85_example :
  let msgs := [MGroupValueReadReq (mkasap 1 None); MGroupValueReadReq (mkasap 1 None)] in
  let c := client_new (dotted ex_ip) 3671 ex_cst msgs in
  let start := [EvMade; EvData ex_accept; EvData (ex_request 0); EvWriter] in
  let bye := EvData (disconnect_request 0x15 [192; 168; 0; 1] 3671) in
  well_made ex_ip c msgs /\ Forall (fun m => link_request m = true) msgs /\
  orderly false (start ++ [bye; EvWriter]) /\
  map (firstn 9) (sent c (start ++ [bye; EvWriter])) =
    [[0x06; 0x10; 0x02; 0x05; 0x00; 0x1A; 0x08; 0x01; 192]; [0x06; 0x10; 0x02; 0x07; 0x00; 0x10; 0x15; 0x00; 0x08];
     [0x06; 0x10; 0x04; 0x21; 0x00; 0x0A; 0x04; 0x15; 0x00]; [0x06; 0x10; 0x04; 0x20; 0x00; 0x15; 0x04; 0x15; 0x00];
     [0x06; 0x10; 0x04; 0x20; 0x00; 0x15; 0x04; 0x15; 0x00]] /\
  c_connected (after c (start ++ [bye])) = true /\
  map (firstn 9) (sent (after c (start ++ [EvData (disconnect_response 0x15 0)])) [EvWriter]) =
    [[0x06; 0x10; 0x04; 0x20; 0x00; 0x15; 0x04; 0x00; 0x00]].
Proof.
  intros msgs c start bye. split.
  { exists 3671, ex_cst. split; [reflexivity|]. split; [exact ex_ip_ok|]. repeat split; try discriminate. repeat constructor. }
  split; [repeat constructor|]. split; [orderly_tac|]. split; [vm_compute; reflexivity|]. split; vm_compute; reflexivity.
Qed.
