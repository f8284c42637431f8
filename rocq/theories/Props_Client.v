(** C35-C42, C52-C54: the clients. *)
From Coq Require Import String Ascii ZArith List Bool Lia ZifyBool.
From Verif Require Import Py Base Msg Address Dpt Tables LData Inet State Encode Decode Client.
From Verif Require Import SpecMsg SpecTables SpecWire SpecDecode SpecClient.
From Verif Require Import MsgProofs TablesProofs AssocProofs EncodeProofs DecodeProofs SimProofs IpProofs OctetsProofs ClientProofs DeliveryProofs.
From Verif Require Import Props_Tables Props_Encode Props_Decode.
Import ListNotations.
Open Scope Z_scope.

(** ** The client of the examples: address 192.168.0.10, the tables of the
    examples for C24, four messages to send; its connection is accepted on
    channel 15h. *)
Definition ex_ip : list Z := [192; 168; 0; 10].
Definition ex_cst : state := netip_state_new Knxnet_ip (Some ex_assoc) (Some ex_go).
Definition ex_msgs : list message :=
  [MGroupValueReadReq (mkasap 1 None); MGroupValueWriteReq (mkasap 2 None) (mkdpt Value_Temp 0x0C1A);
   MGroupValueReadReq (mkasap 77 None); MGroupValueReadReq (mkasap 1 None)].
Definition ex_client : client := client_new (dotted ex_ip) 3671 ex_cst ex_msgs.
Definition ex_accept : list Z :=
  [0x06; 0x10; 0x02; 0x06; 0x00; 0x14; 0x15; 0x00; 0x08; 0x01; 192; 168; 0; 1; 0x0E; 0x57; 0x04; 0x04; 0x11; 0xFF].
Definition ex_refuse : list Z :=
  [0x06; 0x10; 0x02; 0x06; 0x00; 0x10; 0x00; 0x24; 0x08; 0x01; 192; 168; 0; 1; 0x0E; 0x57].
Definition ex_request (n : Z) : list Z := tunnelling_request 0x15 n ex_frame.
(** The same write with operation code 9, which has no name. *)
Definition ex_poison : list Z :=
  [0x29; 0x00; 0xBC; 0xE0; 0x11; 0x02; 0x09; 0x00; 0x05; 0x00; 0x80; 0x09; 0x00; 0x00; 0x81].
Definition ex_ack (n : Z) : list Z := tunnelling_ack 0x15 n 0.
Lemma ex_ip_ok : ipv4 ex_ip.
Proof. split; [reflexivity|]. repeat constructor; discriminate. Qed.
Lemma ex_well_made : well_made ex_ip ex_client ex_msgs.
Proof.
  exists 3671, ex_cst. split; [reflexivity|]. split; [exact ex_ip_ok|]. repeat split; try discriminate. repeat constructor.
Qed.
Ltac orderly_tac := cbn; repeat split; try reflexivity; vm_compute; octets_tac.

(** ** C35 *)

(** The expected counter is the number of requests taken since the last connect
    response, modulo 256. *)
Theorem C35_counter : forall ip c msgs es, well_made ip c msgs -> orderly false es ->
  st_remote (c_state (after c es)) = taken (st_remote (c_state c)) (trace c es) mod 256.
Proof. exact well_made_remote. Qed.
Print Assumptions C35_counter.
(** A request with this counter: if its telegram means something, that is
    delivered, and exactly one datagram is sent, an acknowledgement with the
    counter of the request, the channel id and status 0; the request is taken.
    Otherwise nothing is sent. *)
Theorem C35_due : forall ip c msgs es d n cemi, well_made ip c msgs -> orderly false (es ++ [EvData d]) ->
  tunnelled d = Some (n, cemi) ->
  let k := taken (st_remote (c_state c)) (trace c es) in
  n = k mod 256 ->
  let o := shown c es (EvData d) in
  match meaning (c_state c) cemi with
  | Ok l =>
      deliveries o = l /\
      (exists ch, fold_left channel_step es (st_channel (c_state c)) = Some ch /\ o_sent o = [tunnelling_ack ch n 0]) /\
      taken (st_remote (c_state c)) (trace c (es ++ [EvData d])) = k + 1
  | Err e =>
      o_result o = Some (Err e) /\ deliveries o = [] /\ o_sent o = [] /\
      taken (st_remote (c_state c)) (trace c (es ++ [EvData d])) = k
  end.
Proof.
  intros ip c msgs es d n cemi W O Ht k En o. pose proof (due_request ip c msgs es d n cemi W O Ht En) as X.
  cbv zeta in X. fold o in X. destruct (well_made_allowed ip c msgs es _ W O) as [_ Od].
  pose proof (s_good _ _ _ _ (well_made_history ip c msgs es W (orderly_prefix _ _ _ O))) as (_ & _ & F & _).
  destruct (decode_request d n cemi _ Od F Ht) as [Na _].
  rewrite taken_snoc. cbn [taken_step]. fold k o. rewrite Na, Ht. assert (n =? k mod 256 = true) as -> by lia. cbn [andb].
  destruct (meaning (c_state c) cemi) as [l|e].
  - destruct X as (_ & X1 & ch & X2 & X3). split; [exact X1|]. split; [exists ch; auto|]. unfold acked. rewrite X3. reflexivity.
  - destruct X as (X0 & X1 & X2). unfold acked. rewrite X2. auto.
Qed.
Print Assumptions C35_due.
(** Requests with any other counter, all other datagrams and all other events
    deliver nothing. *)
Theorem C35_undue : forall ip c msgs es d n cemi, well_made ip c msgs -> orderly false (es ++ [EvData d]) ->
  tunnelled d = Some (n, cemi) ->
  let k := taken (st_remote (c_state c)) (trace c es) in
  n <> k mod 256 ->
  deliveries (shown c es (EvData d)) = [] /\ taken (st_remote (c_state c)) (trace c (es ++ [EvData d])) = k.
Proof.
  intros ip c msgs es d n cemi W O Ht k En. destruct (undue_request ip c msgs es d n cemi W O Ht En) as [X _]. split; [exact X|].
  destruct (well_made_allowed ip c msgs es _ W O) as [_ Od].
  pose proof (s_good _ _ _ _ (well_made_history ip c msgs es W (orderly_prefix _ _ _ O))) as (_ & _ & F & _).
  destruct (decode_request d n cemi _ Od F Ht) as [Na _].
  rewrite taken_snoc. cbn [taken_step]. fold k. rewrite Na, Ht. destruct (n =? k mod 256) eqn:E; [lia|reflexivity].
Qed.
Print Assumptions C35_undue.
Theorem C35_others : forall ip c msgs es e, well_made ip c msgs -> orderly false (es ++ [e]) ->
  (forall d, e = EvData d -> tunnelled d = None) -> deliveries (shown c es e) = [].
Proof.
  intros ip c msgs es e W O N. destruct e as [| |d|]; try (apply (no_datagram ip c msgs es _ W O I)).
  apply (no_request ip c msgs es d W O (N d eq_refl)).
Qed.
Print Assumptions C35_others.
(** What a taken group telegram delivers: one message per receiving entry. *)
Theorem C35_receivers : forall ip c msgs es d n cemi tb l h s go k t svc, well_made ip c msgs -> orderly false (es ++ [EvData d]) ->
  tunnelled d = Some (n, cemi) -> n = taken (st_remote (c_state c)) (trace c es) mod 256 ->
  st_assoc (c_state c) = Some s -> st_gobj (c_state c) = Some go -> built tb l h s ->
  cemi_telegram cemi = Some (k, t) -> group_telegram t ->
  In (t_dst t) (vals (at_addrs (as_table s))) -> group_service t = Some svc ->
  (exists v, 0 < balance tb l h v (t_dst t)) ->
  first_displayable t (receivers tb l h (t_dst t) go) ->
  deliveries (shown c es (EvData d)) = group_messages k svc t (receivers tb l h (t_dst t) go).
Proof.
  intros ip c msgs es d n cemi tb l h s go k t svc W O Ht En Ha Hg B Hc G L S V F.
  destruct (well_made_allowed ip c msgs es _ W O) as [_ Od]. destruct (tunnelled_octets d n cemi Od Ht) as [Oc _].
  pose proof (due_request ip c msgs es d n cemi W O Ht En) as X. cbv zeta in X.
  assert (M : meaning (c_state c) cemi = Ok (group_messages k svc t (receivers tb l h (t_dst t) go))).
  { unfold meaning. destruct (well_made_start ip c msgs W) as (_ & _ & _ & _ & Fi).
    rewrite (C24_receivers tb l h (st_set_remote 0 (c_state c)) s go CNetIP (tunnelling_request 0 0 cemi) k t svc); try assumption.
    - unfold reported. cbn [st_medium st_set_remote]. rewrite (proj1 Fi). reflexivity.
    - split; [exact Ha|]. split; [exact Hg|]. split; [apply request_octets; exact Oc|]. split; [right; reflexivity|].
      unfold on_bus. cbn [st_medium st_set_remote]. rewrite (proj1 Fi), request_tunnelled. exact Hc. }
  rewrite M in X. apply X.
Qed.
Print Assumptions C35_receivers.
(** Requests numbered 0, 1, 2, ... on the gateway's side arrive repeatedly and
    mixed with other events, after any history that ends with nothing taken
    (such as one ending in a connect response), never newer than the next one
    due and at most 255 behind it.  Then the client has delivered the meanings
    of exactly the requests before the next one due, once each, in order. *)
Theorem C35_exactly_once : forall ip c msgs es0 channel frame l, well_made ip c msgs ->
  taken (st_remote (c_state c)) (trace c es0) = 0 ->
  (forall i, exists m, meaning (c_state c) (frame i) = Ok m) ->
  Forall (fun a => match a with Noise e => other_event e | Request i => octets (frame i) end) l ->
  orderly false (es0 ++ map (arrives channel frame) l) -> in_window 0 l ->
  flat_map deliveries (observations (after c es0) (map (arrives channel frame) l)) =
  flat_map (fun i => match meaning (c_state c) (frame i) with Ok m => m | Err _ => [] end)
           (upto (fold_left due l 0)).
Proof. intros ip c msgs es0 channel frame l W T M N O Wi. exact (proj2 (exactly_once ip c msgs es0 channel frame W T M l N O Wi)). Qed.
Print Assumptions C35_exactly_once.
(** Without the window: a request that is 256 behind is taken for the next. *)
Theorem C35_window_refuted : exists ip c msgs es0 channel frame l, well_made ip c msgs /\
  taken (st_remote (c_state c)) (trace c es0) = 0 /\
  (forall i, exists m, meaning (c_state c) (frame i) = Ok m) /\
  Forall (fun a => match a with Noise e => other_event e | Request i => octets (frame i) end) l /\
  orderly false (es0 ++ map (arrives channel frame) l) /\
  flat_map deliveries (observations (after c es0) (map (arrives channel frame) l)) <>
  flat_map (fun i => match meaning (c_state c) (frame i) with Ok m => m | Err _ => [] end)
           (upto (fold_left due l 0)).
Proof.
  exists ex_ip, ex_client, ex_msgs, [EvMade; EvData ex_accept], 0x15, (fun _ => ex_frame), [Request (-256)].
  split; [exact ex_well_made|]. split; [vm_compute; reflexivity|]. split; [intros i; eexists; vm_compute; reflexivity|].
  split; [constructor; [octets_tac|constructor]|]. split; [orderly_tac|]. vm_compute. discriminate.
Qed.
Print Assumptions C35_window_refuted.

(** The connection is accepted; requests 0 and 1 are taken, with a repetition of 0
    and an early request 5 in between. *)
Definition ex_history : list event :=
  [EvMade; EvData ex_accept; EvData (ex_request 0); EvData (ex_request 0); EvData (ex_request 5); EvData (ex_request 1)].
Definition ex_delivered : list message :=
  [MGroupValueWriteInd (mkasap 3 None) (mkdpt InfoClimaReport 0x02000081);
   MGroupValueWriteInd (mkasap 1 None) (mkdpt Switch 0x81)].
Example C35_example : well_made ex_ip ex_client ex_msgs /\ orderly false ex_history /\
  tunnelled (ex_request 1) = Some (1, ex_frame) /\ meaning ex_cst ex_frame = Ok ex_delivered /\
  taken 0 (trace ex_client ex_history) = 2 /\
  map o_sent (observations ex_client ex_history) =
    [[connect_request ex_ip 3671]; [connectionstate_request 0x15 ex_ip 3671];
     [tunnelling_ack 0x15 0 0]; [tunnelling_ack 0x15 1 0]; []; [tunnelling_ack 0x15 1 0]] /\
  map deliveries (observations ex_client ex_history) = [[]; []; ex_delivered; []; []; ex_delivered].
Proof. split; [exact ex_well_made|]. split; [orderly_tac|]. repeat split; vm_compute; reflexivity. Qed.
Example C35_arrivals_example :
  in_window 0 [Request 0; Request 0; Noise EvWriter; Request (-3); Request 1; Request 0; Request 2] /\
  fold_left due [Request 0; Request 0; Noise EvWriter; Request (-3); Request 1; Request 0; Request 2] 0 = 3.
Proof. split; [|reflexivity]. cbn. repeat split; discriminate. Qed.

(** ** C36 *)

(** decode_msg on any state: the request that is due aside, a counter one below
    the expected one is reported as fine, all others as out of sequence, none
    is delivered and the state stays. *)
Theorem C36_decode : forall st d n cemi, st_medium st = Knxnet_ip -> octets d ->
  tunnelled d = Some (n, cemi) -> n <> st_remote st ->
  decode_msg CNetIP d st = (Ok (RList [MTunnelingReq n (if n + 1 =? st_remote st then 0 else 3)]), st).
Proof.
  intros st d n cemi M O H N. rewrite decode_ip by exact M. rewrite (proj2 (tunnelled_some d n cemi st O H)).
  destruct (st_remote st =? n) eqn:E1; [lia|]. rewrite (Z.eqb_sym (n + 1)). destruct (st_remote st =? n + 1); reflexivity.
Qed.
Print Assumptions C36_decode.
(** The client: a repeated request is acknowledged and not delivered. *)
Theorem C36_repeated : forall ip c msgs es d n cemi, well_made ip c msgs -> orderly false (es ++ [EvData d]) ->
  tunnelled d = Some (n, cemi) ->
  n + 1 = taken (st_remote (c_state c)) (trace c es) mod 256 ->
  let o := shown c es (EvData d) in
  deliveries o = [] /\ acked o = true /\ length (o_sent o) = 1%nat /\ after c (es ++ [EvData d]) = after c es.
Proof.
  intros ip c msgs es d n cemi W O Ht En o. destruct (undue_request ip c msgs es d n cemi W O Ht) as (X1 & X2 & _ & ch & _ & X3); [lia|].
  fold o in X1, X3. rewrite <- En, Z.eqb_refl in X3. unfold acked. rewrite X3. auto.
Qed.
Print Assumptions C36_repeated.
(** Any other counter, in particular the repeated request 255 when 0 is expected,
    is not acknowledged. *)
Theorem C36_refused : forall ip c msgs es d n cemi, well_made ip c msgs -> orderly false (es ++ [EvData d]) ->
  tunnelled d = Some (n, cemi) ->
  let expected := taken (st_remote (c_state c)) (trace c es) mod 256 in
  n <> expected -> n + 1 <> expected ->
  let o := shown c es (EvData d) in
  o_result o = Some (Ok (RList [MTunnelingReq n 3])) /\ o_sent o = [] /\ after c (es ++ [EvData d]) = after c es.
Proof.
  intros ip c msgs es d n cemi W O Ht expected N1 N2 o.
  destruct (undue_request ip c msgs es d n cemi W O Ht N1) as (_ & X2 & X3 & ch & _ & X4). fold expected o in X3, X4.
  destruct (expected =? n + 1) eqn:E; [lia|]. auto.
Qed.
Print Assumptions C36_refused.
(** So the repetition of the request that was just taken is not always
    acknowledged: request 255 after 256 requests. *)
Definition ex_full : list event := EvMade :: EvData ex_accept :: map (fun i => EvData (ex_request i)) (upto 256).
Theorem C36_wrap_refuted : exists ip c msgs es d, well_made ip c msgs /\ orderly false (es ++ [EvData d; EvData d]) /\
  acked (shown c es (EvData d)) = true /\ acked (shown c (es ++ [EvData d]) (EvData d)) = false.
Proof.
  exists ex_ip, ex_client, ex_msgs, (EvMade :: EvData ex_accept :: map (fun i => EvData (ex_request i)) (upto 255)), (ex_request 255).
  split; [exact ex_well_made|]. split; [|split; vm_compute; reflexivity].
  apply orderly_app. split; [|split; [vm_compute; reflexivity|]; split; [vm_compute; octets_tac|split; [vm_compute; reflexivity|split; [vm_compute; octets_tac|exact I]]]].
  cbn [orderly]. split; [reflexivity|]. split; [vm_compute; octets_tac|].
  induction (upto 255) as [|i l IH]; [exact I|]. cbn [map orderly]. split; [reflexivity|]. split; [|exact IH].
  apply request_octets. octets_tac.
Qed.
Print Assumptions C36_wrap_refuted.
Example C36_example : orderly false (firstn 4 ex_history) /\
  0 + 1 = taken 0 (trace ex_client (firstn 3 ex_history)) mod 256 /\
  acked (shown ex_client (firstn 3 ex_history) (EvData (ex_request 0))) = true /\
  acked (shown ex_client (firstn 4 ex_history) (EvData (ex_request 5))) = false.
Proof. split; [orderly_tac|]. repeat split; vm_compute; reflexivity. Qed.

(** ** C37 *)

Theorem C37_due : forall ip c msgs es d n cemi, well_made ip c msgs -> orderly false (es ++ [EvData d]) ->
  tunnelled d = Some (n, cemi) -> n = taken (st_remote (c_state c)) (trace c es) mod 256 ->
  forall b, In b (o_sent (shown c es (EvData d))) -> exists ch,
    fold_left channel_step es (st_channel (c_state c)) = Some ch /\
    b = [0x06; 0x10; 0x04; 0x21; 0x00; 0x0A; 0x04; ch mod 256; n; 0x00].
Proof.
  intros ip c msgs es d n cemi W O Ht En b I. pose proof (due_request ip c msgs es d n cemi W O Ht En) as X. cbv zeta in X.
  destruct (well_made_allowed ip c msgs es _ W O) as [_ Od]. destruct (tunnelled_octets d n cemi Od Ht) as [_ Rn].
  destruct (meaning (c_state c) cemi).
  - destruct X as (_ & _ & ch & Hc & X). rewrite X in I. destruct I as [<-|[]]. exists ch. split; [exact Hc|].
    unfold tunnelling_ack. rewrite (Z.mod_small n) by lia. reflexivity.
  - destruct X as (_ & _ & X). rewrite X in I. contradiction.
Qed.
Print Assumptions C37_due.
(** The acknowledgement of a repeated request carries the next counter, not its
    own. *)
Theorem C37_repeated : forall ip c msgs es d n cemi, well_made ip c msgs -> orderly false (es ++ [EvData d]) ->
  tunnelled d = Some (n, cemi) -> n + 1 = taken (st_remote (c_state c)) (trace c es) mod 256 ->
  exists ch, fold_left channel_step es (st_channel (c_state c)) = Some ch /\
    o_sent (shown c es (EvData d)) = [[0x06; 0x10; 0x04; 0x21; 0x00; 0x0A; 0x04; ch mod 256; n + 1; 0x00]].
Proof.
  intros ip c msgs es d n cemi W O Ht En. destruct (undue_request ip c msgs es d n cemi W O Ht) as (_ & _ & _ & ch & Hc & X); [lia|].
  exists ch. split; [exact Hc|]. rewrite X, <- En, Z.eqb_refl. unfold tunnelling_ack. rewrite (Z.mod_small (n + 1)) by lia. reflexivity.
Qed.
Print Assumptions C37_repeated.
(** The encoder itself, on any state: the counter of the message plays no role
    for the octets. *)
Theorem C37_encode : forall seq status st, encode_msg (MTunnelingAck seq status) st =
  match st_channel st with
  | None => (Err AttributeError, st)
  | Some ch =>
      (Ok [0x06; 0x10; 0x04; 0x21; 0x00; 0x0A; 0x04; ch mod 256; st_remote st mod 256; status mod 256],
       if seq =? st_remote st then st_set_remote (st_remote st + 1) st else st)
  end.
Proof. exact ack_frame. Qed.
Print Assumptions C37_encode.
Example C37_example :
  o_sent (shown ex_client (firstn 2 ex_history) (EvData (ex_request 0))) = [[0x06; 0x10; 0x04; 0x21; 0x00; 0x0A; 0x04; 0x15; 0; 0x00]] /\
  o_sent (shown ex_client (firstn 3 ex_history) (EvData (ex_request 0))) = [[0x06; 0x10; 0x04; 0x21; 0x00; 0x0A; 0x04; 0x15; 1; 0x00]].
Proof. split; vm_compute; reflexivity. Qed.

(** ** C38 *)

Theorem C38_counter : forall ip c msgs es, well_made ip c msgs -> orderly false es ->
  st_local (c_state (after c es)) = fold_left local_step es (st_local (c_state c)).
Proof. intros ip c msgs es W O. exact (s_local _ _ _ _ (well_made_history ip c msgs es W O)). Qed.
Print Assumptions C38_counter.
(** Every tunnelling request sent, at any time, carries this counter and the
    channel id. *)
Theorem C38_requests : forall ip c msgs es e b r, well_made ip c msgs -> orderly false (es ++ [e]) ->
  In b (o_sent (shown c es e)) -> ip_service b = Some (0x0420, r) ->
  exists ch cemi, fold_left channel_step es (st_channel (c_state c)) = Some ch /\
    b = tunnelling_request ch (fold_left local_step es (st_local (c_state c))) cemi.
Proof.
  intros ip c msgs es e b r W O I S. pose proof (orderly_prefix _ _ _ O) as O1.
  pose proof (well_made_history ip c msgs es W O1) as St.
  destruct (sent_requests ip _ e b r (s_good _ _ _ _ St) (well_made_allowed ip c msgs es e W O) I S) as (_ & ch & cemi & H1 & H2).
  exists ch, cemi. rewrite <- (s_channel _ _ _ _ St), <- (s_local _ _ _ _ St). auto.
Qed.
Print Assumptions C38_requests.
(** The counter as a number of acknowledgements: those that carried the counter
    that was current when they came. *)
Fixpoint matching (start : Z) (es : list event) : Z :=
  match es with
  | [] => 0
  | EvData d :: r =>
      match ip_service d with
      | Some (service, _ :: _ :: _ :: _ :: counter :: _ :: _) =>
          if (service =? 0x0421) && (counter =? start mod 256) then 1 + matching (start + 1) r else matching start r
      | _ => matching start r
      end
  | _ :: r => matching start r
  end.
Theorem C38_acknowledgements : forall es start, 0 <= start < 256 ->
  fold_left local_step es start = (start + matching start es) mod 256.
Proof.
  assert (G : forall es k, fold_left local_step es (k mod 256) = (k + matching k es) mod 256).
  { induction es as [|e es IH]; intros k; [cbn; f_equal; lia|]. cbn [fold_left matching].
    destruct e as [| |d|]; cbn [local_step]; try apply IH. unfold local_after.
    destruct (ip_service d) as [[service r]|]; [|apply IH].
    destruct r as [|? [|? [|? [|? [|counter [|? ?]]]]]]; try apply IH.
    destruct ((service =? 1057) && (counter =? k mod 256)); [|apply IH].
    replace ((k mod 256 + 1) mod 256) with ((k + 1) mod 256) by lia. rewrite IH. f_equal. lia. }
  intros es start H. rewrite <- G. rewrite Z.mod_small by lia. reflexivity.
Qed.
Print Assumptions C38_acknowledgements.
(** Two requests with no matching acknowledgement between them. *)
Theorem C38_same : forall ip c msgs es1 es2 e1 e2 b1 b2 r1 r2, well_made ip c msgs ->
  orderly false (es1 ++ e1 :: es2 ++ [e2]) ->
  In b1 (o_sent (shown c es1 e1)) -> ip_service b1 = Some (0x0420, r1) ->
  In b2 (o_sent (shown c (es1 ++ e1 :: es2) e2)) -> ip_service b2 = Some (0x0420, r2) ->
  matching (fold_left local_step es1 (st_local (c_state c))) (e1 :: es2) = 0 ->
  nth 8 b1 0 = nth 8 b2 0.
Proof.
  intros ip c msgs es1 es2 e1 e2 b1 b2 r1 r2 W O I1 S1 I2 S2 M.
  change (es1 ++ e1 :: es2 ++ [e2]) with (es1 ++ [e1] ++ es2 ++ [e2]) in O.
  assert (O1 : orderly false (es1 ++ [e1])) by (rewrite app_assoc in O; apply orderly_app in O; tauto).
  assert (O2 : orderly false ((es1 ++ e1 :: es2) ++ [e2])) by (rewrite <- app_assoc; exact O).
  destruct (C38_requests ip c msgs es1 e1 b1 r1 W O1 I1 S1) as (ch1 & x1 & _ & ->).
  destruct (C38_requests ip c msgs _ e2 b2 r2 W O2 I2 S2) as (ch2 & x2 & _ & ->).
  rewrite fold_left_app. pose proof (s_good _ _ _ _ (well_made_history ip c msgs es1 W (orderly_prefix _ _ _ O1))) as (_ & _ & F & _).
  destruct F as (_ & _ & _ & _ & _ & F). rewrite (s_local _ _ _ _ (well_made_history ip c msgs es1 W (orderly_prefix _ _ _ O1))) in F.
  rewrite (C38_acknowledgements (e1 :: es2)) by exact F. rewrite M, Z.add_0_r.
  unfold tunnelling_request. cbn [app be nth]. rewrite Z.mod_mod by discriminate. reflexivity.
Qed.
Print Assumptions C38_same.
Definition ex_sending : list event := [EvMade; EvData ex_accept; EvWriter; EvWriter].
Definition ex_sending_acked : list event := [EvMade; EvData ex_accept; EvWriter; EvData (ex_ack 0); EvData (ex_ack 0); EvWriter].
Example C38_example : orderly false ex_sending_acked /\
  map (fun b => nth 8 b 0) (flat_map o_sent (skipn 2 (observations ex_client ex_sending))) = [0; 0] /\
  map (fun b => nth 8 b 0) (flat_map o_sent (skipn 2 (observations ex_client ex_sending_acked))) = [0; 1] /\
  matching 0 ex_sending_acked = 1.
Proof. split; [orderly_tac|]. repeat split; vm_compute; reflexivity. Qed.

(** ** C39 *)

Theorem C39_reconnect : forall ip c msgs es d, well_made ip c msgs -> orderly false (es ++ [EvData d]) ->
  connect_answer d = true ->
  st_remote (c_state (after c (es ++ [EvData d]))) = 0 /\
  st_local (c_state (after c (es ++ [EvData d]))) = st_local (c_state (after c es)) /\
  exists ch, fold_left channel_step (es ++ [EvData d]) (st_channel (c_state c)) = Some ch /\
    o_sent (shown c es (EvData d)) = [connectionstate_request ch ip (c_lport c)].
Proof.
  intros ip c msgs es d W O A. pose proof (orderly_prefix _ _ _ O) as O1. pose proof (well_made_history ip c msgs es W O1) as S.
  pose proof (well_made_history ip c msgs _ W O) as S2. destruct (well_made_allowed ip c msgs es _ W O) as [T Od].
  destruct (step_answer ip _ d (s_good _ _ _ _ S) T Od A) as (ch & Ec & X).
  rewrite <- (s_channel _ _ _ _ S2). unfold shown. rewrite after_snoc, X. cbn [fst snd connected_with c_state st_set_remote st_remote st_local st_channel o_sent].
  split; [reflexivity|]. split.
  - pose proof (s_good _ _ _ _ S) as (_ & _ & F & _). destruct (C31_netip d (c_state (after c es)) Od (proj1 F)) as (_ & _ & -> & _).
    unfold local_after. unfold connect_answer in A. destruct (ip_service d) as [[service r]|]; [|reflexivity].
    destruct r as [|? [|? [|? [|? [|? [|? ?]]]]]]; try reflexivity. destruct (service =? 518) eqn:E; [|discriminate A].
    destruct (service =? 1057) eqn:E2; [lia|reflexivity].
  - exists ch. rewrite (s_port _ _ _ _ S). auto.
Qed.
Print Assumptions C39_reconnect.
(** Reconnecting after requests and acknowledgements: 1 stays the outgoing counter. *)
Definition ex_reconnect : list event := [EvMade; EvData ex_accept; EvWriter; EvData (ex_ack 0); EvData (ex_request 0); EvLost; EvMade].
Example C39_example : orderly false (ex_reconnect ++ [EvData ex_accept]) /\ connect_answer ex_accept = true /\
  st_remote (c_state (after ex_client ex_reconnect)) = 1 /\ st_local (c_state (after ex_client ex_reconnect)) = 1 /\
  st_remote (c_state (after ex_client (ex_reconnect ++ [EvData ex_accept]))) = 0 /\
  st_local (c_state (after ex_client (ex_reconnect ++ [EvData ex_accept]))) = 1.
Proof. split; [orderly_tac|]. repeat split; vm_compute; reflexivity. Qed.

(** ** C40 *)

Theorem C40_connected : forall ip c msgs es, well_made ip c msgs -> orderly false es ->
  (c_connected (after c es) = true <-> exists d, In (EvData d) es /\ connect_answer d = true).
Proof.
  intros ip c msgs es W O. rewrite (s_conn _ _ _ _ (well_made_history ip c msgs es W O)).
  destruct (well_made_start ip c msgs W) as (_ & _ & -> & _). cbn [orb]. unfold answered. rewrite existsb_exists. split.
  - intros ([| |d|] & I & H); try discriminate H. eauto.
  - intros (d & I & H). exists (EvData d). auto.
Qed.
Print Assumptions C40_connected.
(** A refusal is among these answers; it leaves the channel id as it was. *)
Theorem C40_refusal : forall ip c msgs es l1 l2 ch sta r, well_made ip c msgs ->
  let d := [0x06; 0x10; 0x02; 0x06; l1; l2; ch; sta] ++ r in
  orderly false (es ++ [EvData d]) -> sta <> 0 -> connect_answer d = true ->
  st_channel (c_state (after c (es ++ [EvData d]))) = st_channel (c_state (after c es)) /\
  c_connected (after c (es ++ [EvData d])) = true.
Proof.
  intros ip c msgs es l1 l2 ch sta r W d O N A. split.
  - rewrite (s_channel _ _ _ _ (well_made_history ip c msgs _ W O)), fold_left_app.
    rewrite (s_channel _ _ _ _ (well_made_history ip c msgs _ W (orderly_prefix _ _ _ O))). cbn [fold_left channel_step].
    unfold d, channel_after. cbn [app ip_service]. change ((6 =? 6) && (16 =? 16)) with true. cbv iota beta.
    destruct (sta =? 0) eqn:E; [lia|]. rewrite !andb_false_r. reflexivity.
  - apply (C40_connected ip c msgs _ W O). exists d. split; [apply in_or_app; right; left; reflexivity|exact A].
Qed.
Print Assumptions C40_refusal.
Example C40_example : connect_answer ex_refuse = true /\ orderly false [EvMade; EvData ex_refuse; EvWriter] /\
  c_connected (after ex_client [EvMade; EvData ex_refuse]) = true /\
  length (o_sent (shown ex_client [EvMade; EvData ex_refuse] EvWriter)) = 1%nat /\
  (* the flag stays when the transport is lost *)
  c_connected (after ex_client [EvMade; EvData ex_refuse; EvLost]) = true.
Proof. split; [reflexivity|]. split; [orderly_tac|]. repeat split; vm_compute; reflexivity. Qed.

(** ** C41 *)

(** If the telegram that is due cannot be decoded, then as long as no connect
    response comes and every request with that counter carries that telegram,
    whatever else happens and however often it is repeated, nothing is taken and
    nothing is delivered. *)
Theorem C41_blocked : forall ip c msgs es0 cemi e, well_made ip c msgs -> meaning (c_state c) cemi = Err e ->
  let k := taken (st_remote (c_state c)) (trace c es0) in
  forall es, orderly false (es0 ++ es) ->
  (forall d, In (EvData d) es -> connect_answer d = false /\
     forall n x, tunnelled d = Some (n, x) -> n = k mod 256 -> x = cemi) ->
  taken (st_remote (c_state c)) (trace c (es0 ++ es)) = k /\
  forall o, In o (observations (after c es0) es) -> deliveries o = [].
Proof. exact poisoned. Qed.
Print Assumptions C41_blocked.
(** The repetitions themselves: no datagram is sent, and what later calls depend
    on is unchanged. *)
Theorem C41_repetition : forall ip c msgs es d n cemi e, well_made ip c msgs -> orderly false (es ++ [EvData d]) ->
  tunnelled d = Some (n, cemi) -> n = taken (st_remote (c_state c)) (trace c es) mod 256 ->
  meaning (c_state c) cemi = Err e ->
  o_sent (shown c es (EvData d)) = [] /\ o_result (shown c es (EvData d)) = Some (Err e) /\
  agree (c_state (after c es)) (c_state (after c (es ++ [EvData d]))) /\
  c_writer (after c (es ++ [EvData d])) = c_writer (after c es) /\
  c_connected (after c (es ++ [EvData d])) = c_connected (after c es).
Proof.
  intros ip c msgs es d n cemi e W O Ht En Hm. pose proof (due_request ip c msgs es d n cemi W O Ht En) as X. cbv zeta in X.
  rewrite Hm in X. destruct X as (X1 & _ & X2). split; [exact X2|]. split; [exact X1|].
  pose proof (orderly_prefix _ _ _ O) as O1. pose proof (well_made_history ip c msgs es W O1) as S.
  pose proof (well_made_allowed ip c msgs es _ W O) as Al. pose proof Al as [T Od].
  pose proof (step_facts ip _ _ (s_good _ _ _ _ S) Al) as F. rewrite <- after_snoc in F. pose proof (s_good _ _ _ _ S) as (_ & _ & Fi & _).
  rewrite <- (well_made_remote ip c msgs es W O1) in En.
  pose proof (step_taken ip _ d n cemi (s_good _ _ _ _ S) T Od Ht En) as Y. cbv zeta in Y.
  destruct (well_made_start ip c msgs W) as (_ & _ & _ & _ & F0).
  rewrite (decode_meaning d n cemi (c_state c) (c_state (after c es)) Od Ht F0 Fi (s_same _ _ _ _ S) En), Hm in Y. cbn [rbind] in Y.
  rewrite after_snoc, Y. cbn [fst with_state c_state c_writer c_connected].
  split; [|split; reflexivity].
  rewrite decode_ip by (apply Fi). rewrite (proj2 (tunnelled_some d n cemi _ Od Ht)). assert (st_remote (c_state (after c es)) =? n = true) as -> by lia.
  cbn [snd]. destruct (calm_msg_code cemi (c_state (after c es))) as [-> |[l ->]]; [apply agree_refl|repeat split].
Qed.
Print Assumptions C41_repetition.
Example C41_example : meaning ex_cst ex_poison = Err ValueError /\
  orderly false ([EvMade; EvData ex_accept; EvData (ex_request 0)] ++
                 [EvData (tunnelling_request 0x15 1 ex_poison); EvData (ex_request 2); EvData (tunnelling_request 0x15 1 ex_poison)]) /\
  map o_sent (observations (after ex_client [EvMade; EvData ex_accept; EvData (ex_request 0)])
                 [EvData (tunnelling_request 0x15 1 ex_poison); EvData (ex_request 2); EvData (tunnelling_request 0x15 1 ex_poison)]) = [[]; []; []].
Proof. split; [vm_compute; reflexivity|]. split; [orderly_tac|]. vm_compute. reflexivity. Qed.

(** ** C42 *)

Theorem C42_octets : forall h md a g, let s := fold_left counter_do h (netip_state_new md a g) in
  0 <= st_remote s < 256 /\ 0 <= st_local s < 256.
Proof. intros h md a g. apply counters. split; cbn; lia. Qed.
Print Assumptions C42_octets.
Theorem C42_plain : forall h md a g, let s := fold_left counter_do h (state_new md a g) in
  0 <= st_remote s < 256 /\ 0 <= st_local s < 256.
Proof. intros h md a g. apply counters. split; cbn; lia. Qed.
Print Assumptions C42_plain.
(** So the octets on the wire are the counters. *)
Theorem C42_wire : forall h md a g, let s := fold_left counter_do h (netip_state_new md a g) in
  (forall seq status b, fst (encode_msg (MTunnelingAck seq status) s) = Ok b -> nth 8 b 0 = st_remote s) /\
  (forall ch cemi, nth 8 (tunnelling_request ch (st_local s) cemi) 0 = st_local s).
Proof.
  intros h md a g s. destruct (C42_octets h md a g) as [R L]. fold s in R, L. split.
  - intros seq status b H. rewrite ack_frame in H. destruct (st_channel s); [|discriminate H]. injection H as <-. cbn. apply Z.mod_small. exact R.
  - intros ch cemi. cbn. apply Z.mod_small. exact L.
Qed.
Print Assumptions C42_wire.
Example C42_example :
  let h := [Assign_remote (-1); Api (Encode_msg (MTunnelingAck 255 0)); Assign_local 513; Api (Decode_msg CNetIP (ex_ack 1))] in
  let s := fold_left counter_do h (netip_state_new Knxnet_ip None None) in
  st_remote (fold_left counter_do (firstn 1 h) (netip_state_new Knxnet_ip None None)) = 255 /\ st_remote s = 0 /\ st_local s = 2.
Proof. repeat split; vm_compute; reflexivity. Qed.

(** ** C52 *)

Theorem C52_before : forall ip c msgs es, well_made ip c msgs -> orderly false es ->
  (forall d, In (EvData d) es -> connect_answer d = false) -> writer_sent (trace c es) = [].
Proof.
  intros ip c msgs es W O N. destruct (well_made_start ip c msgs W) as (G & T & K & Wr & _).
  assert (answered es = false) as A.
  { unfold answered. destruct (existsb _ es) eqn:E; [|reflexivity]. apply existsb_exists in E.
    destruct E as ([| |d|] & I & H); try discriminate H. rewrite (N d I) in H. discriminate H. }
  rewrite <- T in O. exact (proj1 (writer_before ip c es msgs G Wr K O A)).
Qed.
Print Assumptions C52_before.
(** What has been sent are encodings of a prefix of the list, in order. *)
Theorem C52_order : forall ip c msgs es, well_made ip c msgs -> orderly false es ->
  exists sent rest, msgs = sent ++ rest /\ Forall2 (sent_as c es) sent (writer_sent (trace c es)).
Proof.
  intros ip c msgs es W O. destruct (well_made_start ip c msgs W) as (G & T & K & Wr & _). rewrite <- T in O.
  destruct (writer_history ip c es msgs G Wr O) as (dn & rest & E & F & _). eauto.
Qed.
Print Assumptions C52_order.
(** A message that cannot be encoded keeps all from it on from being sent. *)
Theorem C52_stuck : forall ip c msgs es l1 m l2, well_made ip c msgs -> orderly false es -> msgs = l1 ++ m :: l2 ->
  (forall s b, same_tables (c_state c) s -> fst (encode_msg m s) <> Ok b) ->
  exists sent rest, l1 = sent ++ rest /\ Forall2 (sent_as c es) sent (writer_sent (trace c es)).
Proof.
  intros ip c msgs es l1 m l2 W O -> Hm. destruct (C52_order ip c _ es W O) as (sent & rest & E & F).
  exists sent. cut (exists r, l1 = sent ++ r); [intros [r H]; exists r; auto|].
  assert (NI : ~ In m sent).
  { intros I. apply in_split in I. destruct I as (a & b & ->). apply Forall2_app_inv_l in F. destruct F as (x & y & _ & F & _).
    inversion F as [|? z ? ? (es1 & es2 & -> & H)]; subst. apply orderly_app in O. destruct O as [O _].
    apply (Hm _ z (s_same _ _ _ _ (well_made_history ip c _ es1 W O)) H). }
  clear - E NI. revert sent E NI. induction l1 as [|a l1 IH]; intros [|b sent] E NI; cbn [app] in E.
  - exists []. reflexivity.
  - exfalso. injection E as <- _. apply NI. left. reflexivity.
  - exists (a :: l1). reflexivity.
  - injection E as <- E. destruct (IH sent E) as [r ->]; [intros I; apply NI; right; exact I|]. exists r. reflexivity.
Qed.
Print Assumptions C52_stuck.
(** Nothing else stops it: once connected, if every message can be encoded and
    displayed and the transport is not lost, n turns of the writer send at least
    n messages, or all. *)
Theorem C52_progress : forall ip c msgs es1 es2, well_made ip c msgs ->
  (forall m, In m msgs -> displayable m = true /\
     forall s, same_tables (c_state c) s -> st_channel s <> None -> exists b, fst (encode_msg m s) = Ok b) ->
  orderly false (es1 ++ es2) -> ~ In EvLost (es1 ++ es2) ->
  (exists d, In (EvData d) es1 /\ connect_answer d = true) ->
  (Nat.min (length msgs) (turns es2) <= length (writer_sent (trace c (es1 ++ es2))))%nat.
Proof.
  intros ip c msgs es1 es2 W Enc O N (d & I & A). destruct (well_made_start ip c msgs W) as (G & T & K & Wr & _).
  apply (writer_progress ip c es1 msgs); try assumption.
  - intros m Im. destruct (Enc m Im) as [D H]. split; [rewrite repr_displayable, D; reflexivity|exact H].
  - unfold answered. apply existsb_exists. exists (EvData d). auto.
Qed.
Print Assumptions C52_progress.
(** The third message of the example (an ASAP without association) is where it
    stops. *)
Example C52_example :
  let es := [EvMade; EvWriter; EvData ex_accept; EvWriter; EvWriter; EvWriter; EvWriter] in
  orderly false es /\ (forall s b, same_tables ex_cst s -> fst (encode_msg (MGroupValueReadReq (mkasap 77 None)) s) <> Ok b) /\
  map (fun x => length (o_sent x)) (observations ex_client es) = [1; 0; 1; 1; 1; 0; 0]%nat /\
  c_writer (after ex_client es) = WDead KeyError.
Proof.
  cbv zeta. split; [orderly_tac|]. split; [|split; vm_compute; reflexivity].
  intros s b (M & A & G). rewrite (read_frame s ex_assoc) by exact A. vm_compute. discriminate.
Qed.
Example C52_progress_example :
  let c := client_new (dotted ex_ip) 3671 ex_cst (firstn 2 ex_msgs) in
  let es1 := [EvMade; EvWriter; EvData ex_accept] in let es2 := [EvWriter; EvData (ex_ack 0); EvWriter; EvWriter] in
  well_made ex_ip c (firstn 2 ex_msgs) /\
  (forall m, In m (firstn 2 ex_msgs) -> displayable m = true /\
     forall s, same_tables ex_cst s -> st_channel s <> None -> exists b, fst (encode_msg m s) = Ok b) /\
  orderly false (es1 ++ es2) /\ length (writer_sent (trace c (es1 ++ es2))) = 2%nat.
Proof.
  cbv zeta. split; [|split; [|split; [orderly_tac|vm_compute; reflexivity]]].
  - exists 3671, ex_cst. split; [reflexivity|]. split; [exact ex_ip_ok|]. repeat split; try discriminate. repeat constructor.
  - intros m I. assert (displayable m = true) by (destruct I as [<-|[<-|[]]]; reflexivity). split; [assumption|].
    intros s (M & A & G) C. destruct (st_channel s) as [ch|] eqn:E; [|congruence]. destruct I as [<-|[<-|[]]].
    + rewrite (read_frame s ex_assoc) by exact A.
      destruct (sends_to ex_assoc (mkasap 1 None)) as [[|x l]|] eqn:Es; try (vm_compute in Es; discriminate Es).
      unfold wire. cbn [fst]. rewrite M. cbn. rewrite E. eauto.
    + rewrite (write_frame s ex_assoc ex_go _ _ Value_Temp) by (exact A || exact G || reflexivity).
      destruct (sends_to ex_assoc (mkasap 2 None)) as [[|x l]|] eqn:Es; try (vm_compute in Es; discriminate Es).
      unfold wire. cbn [fst]. rewrite M. cbn. rewrite E. eauto.
Qed.

(** ** C53 *)

(** What the reader reports is, whatever the writer does in between, what each
    line gives on the state the client was made with, up to and including the
    first failure. *)
Theorem C53_reads : forall st msgs es, st_medium st = Usb_hid -> Forall (fun m => is_ack_message m = false) msgs ->
  usb_reads (snd (usb_run (usb_new st msgs) es)) = until_failure (map (line_result st) (usb_lines es)).
Proof. intros st msgs es M N. apply (usb_history st msgs M N es). Qed.
Print Assumptions C53_reads.
(** What the writer has written after n turns are the first n lines. *)
Theorem C53_writes : forall st msgs es, st_medium st = Usb_hid -> Forall (fun m => is_ack_message m = false) msgs ->
  usb_writes (snd (usb_run (usb_new st msgs) es)) = firstn (usb_turns es) (lines_of st msgs).
Proof. intros st msgs es M N. apply (usb_history st msgs M N es). Qed.
Print Assumptions C53_writes.
(** A line is hexadecimal text that parses back to the octets of the message. *)
Theorem C53_lines : forall st msgs line, In line (lines_of st msgs) ->
  exists m b, In m msgs /\ fst (encode_msg m st) = Ok b /\ octets b /\
    line = String.append (msg_str b) newline /\ make_from_str (line_text line) = Ok b.
Proof.
  intros st msgs line. induction msgs as [|m msgs IH]; [contradiction|]. cbn [lines_of].
  destruct (fst (encode_msg m st)) as [b|] eqn:E; [|contradiction]. intros [<-|I].
  - exists m, b. pose proof (encoded_octets m st b E) as O. split; [left; reflexivity|]. split; [exact E|]. split; [exact O|]. split; [reflexivity|].
    rewrite text_newline. apply make_of_str. exact O.
  - destruct (displayable m); [|contradiction]. destruct (IH I) as (m' & b' & H1 & H2). exists m', b'. split; [right; exact H1|exact H2].
Qed.
Print Assumptions C53_lines.
Definition ex_line (d : list Z) : string := String.append (msg_str d) newline.
Example C53_example :
  let es := [UvLine (ex_line (ex_usb ex_frame)); UvWriter; UvLine (ex_line (ex_usb ex_poison)); UvLine (ex_line (ex_usb ex_frame)); UvWriter] in
  usb_reads (snd (usb_run (usb_new (ex_st Usb_hid) (firstn 2 ex_msgs)) es)) = [Ok (RList ex_delivered); Err ValueError] /\
  length (usb_writes (snd (usb_run (usb_new (ex_st Usb_hid) (firstn 2 ex_msgs)) es))) = 2%nat /\
  (* end of file: an empty line *)
  line_result (ex_st Usb_hid) "" = Err IndexError.
Proof. repeat split; vm_compute; reflexivity. Qed.

(** ** C54 *)

Theorem C54_request : forall ip port, ipv4 ip ->
  fst (discovery_made (dotted ip) port discovery_state) = Ok ([0x06; 0x10; 0x02; 0x01; 0x00; 0x0E; 0x08; 0x01] ++ ip ++ be 2 port).
Proof.
  intros ip port H. unfold discovery_made, mbind, mlift. rewrite search_frame by exact H. cbn [fst].
  unfold fromhex. change stringtooctects with make_from_str. apply make_of_str.
  change (octets ([0x06; 0x10; 0x02; 0x01; 0x00; 0x0E] ++ endpoint ip port)).
  apply octets_app. split; [octets_tac|]. apply endpoint_octets. exact H.
Qed.
Print Assumptions C54_request.
Theorem C54_response : forall l1 l2 a b i1 i2 i3 i4 p1 p2 dl dt x1 x2 r st, st_medium st = Knxnet_ip ->
  octets ([l1; l2; a; b; i1; i2; i3; i4; p1; p2; dl; dt; x1; x2] ++ r) ->
  listen_received ([0x06; 0x10; 0x02; 0x02; l1; l2; a; b; i1; i2; i3; i4; p1; p2; dl; dt; x1; x2] ++ r) st =
  (Ok (RList [MSearchRes (dotted [i1; i2; i3; i4]) (256 * p1 + p2) (256 * x1 + x2)]), st).
Proof.
  intros l1 l2 a b i1 i2 i3 i4 p1 p2 dl dt x1 x2 r st M O. cbn [app] in *.
  assert (O' : octets (0x06 :: 0x10 :: 0x02 :: 0x02 :: l1 :: l2 :: a :: b :: i1 :: i2 :: i3 :: i4 :: p1 :: p2 :: dl :: dt :: x1 :: x2 :: r)).
  { rewrite !octets_cons in *. unfold is_octet in *. intuition lia. }
  unfold listen_received, mbind, mlift. rewrite bytes_hex_parse by exact O'. rewrite decode_ip by exact M.
  rewrite ip_header by (unfold is_octet; lia).
  cbn -[d_search_res dotted Z.mul Z.add]. rewrite search_res_spec by exact O. reflexivity.
Qed.
Print Assumptions C54_response.
(** A response that is too short raises. *)
Theorem C54_short : forall r st, st_medium st = Knxnet_ip -> octets r -> zlen r < 14 ->
  listen_received ([0x06; 0x10; 0x02; 0x02] ++ r) st = (Err IndexError, st).
Proof.
  intros r st M O L. cbn [app].
  assert (O' : octets (0x06 :: 0x10 :: 0x02 :: 0x02 :: r)) by (rewrite !octets_cons; unfold is_octet; intuition lia).
  unfold listen_received, mbind, mlift. rewrite bytes_hex_parse by exact O'. rewrite decode_ip by exact M.
  rewrite ip_header by (unfold is_octet; lia). cbn -[d_search_res]. rewrite search_res_spec by exact O.
  destruct r as [|? [|? [|? [|? [|? [|? [|? [|? [|? [|? [|? [|? [|? [|? r]]]]]]]]]]]]]]; try reflexivity.
  rewrite !zlen_cons in L. pose proof (zlen_nonneg r). lia.
Qed.
Print Assumptions C54_short.
(** In a standard response the device block begins with length 36h and type 01h,
    medium and status; its individual address comes after these. *)
Theorem C54_address_refuted : exists i1 i2 p st d a port ia,
  st_medium st = Knxnet_ip /\
  d = [0x06; 0x10; 0x02; 0x02; 0x00; 0x4E; 0x08; 0x01; 192; 168; 0; 1; 0x0E; 0x57; 0x36; 0x01; 0x02; 0x00; i1; i2; p; p] /\
  fst (listen_received d st) = Ok (RList [MSearchRes a port ia]) /\ ia <> 256 * i1 + i2 /\ ia = 0x0200.
Proof.
  exists 0x11, 0xFF, 0, discovery_state. do 4 eexists. split; [reflexivity|]. split; [reflexivity|]. split; [vm_compute; reflexivity|]. split; [discriminate|reflexivity].
Qed.
Print Assumptions C54_address_refuted.
Example C54_example : ipv4 ex_ip /\
  fst (discovery_made "192.168.0.10" 3671 discovery_state) = Ok [0x06; 0x10; 0x02; 0x01; 0x00; 0x0E; 0x08; 0x01; 192; 168; 0; 10; 0x0E; 0x57] /\
  st_medium discovery_state = Knxnet_ip.
Proof. split; [exact ex_ip_ok|]. split; vm_compute; reflexivity. Qed.
