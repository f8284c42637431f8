(** C111: what a stranger's datagrams can do to a tunnel. *)
From Coq Require Import String Ascii ZArith List Bool Lia ZifyBool.
From Verif Require Import Py Base Msg Address Dpt Tables LData Inet State Encode Decode Client.
From Verif Require Import SpecMsg SpecTables SpecWire SpecDecode SpecClient SpecStranger.
From Verif Require Import MsgProofs DecodeProofs OctetsProofs ClientProofs DeliveryProofs StrangerProofs.
From Verif Require Import Props_Tables Props_Encode Props_Decode Props_Client.
Import ListNotations.
Open Scope Z_scope.

(** A datagram of any other kind leaves the client exactly as it was: nothing the
    client does later depends on it. *)
Theorem C111_only : forall ip c msgs es d, well_made ip c msgs -> orderly false (es ++ [EvData d]) -> ~ matters c es d ->
  after c (es ++ [EvData d]) = after c es /\ deliveries (shown c es (EvData d)) = [].
Proof.
  intros ip c msgs es d W O N. split; [exact (unmoved ip c msgs es d W O N)|].
  destruct (tunnelled d) as [[n cemi]|] eqn:Ht.
  - apply (C35_undue ip c msgs es d n cemi W O Ht). intros E. apply N. right. right. right. exists cemi. rewrite Ht, E. reflexivity.
  - apply (C35_others ip c msgs es _ W O). intros d' E. injection E as <-. exact Ht.
Qed.
Print Assumptions C111_only.

(** Two datagrams are enough to make the client report any telegram: a connect
    response, even a refusal, and the telegram with the counter 0, on any channel. *)
Theorem C111_injected : forall ip c msgs es a ch cemi m, well_made ip c msgs -> orderly false es -> fold_left up_step es false = true ->
  octets a -> connect_answer a = true -> octets cemi -> meaning (c_state c) cemi = Ok m ->
  deliveries (shown c (es ++ [EvData a]) (EvData (tunnelling_request ch 0 cemi))) = m.
Proof.
  intros ip c msgs es a ch cemi m W O Up Oa A Oc M.
  assert (O2 : orderly false ((es ++ [EvData a]) ++ [EvData (tunnelling_request ch 0 cemi)])).
  { rewrite <- app_assoc. apply orderly_app. split; [exact O|]. rewrite Up. cbn [app orderly]. split; [reflexivity|]. split; [exact Oa|].
    split; [reflexivity|]. split; [apply request_octets; exact Oc|exact Logic.I]. }
  pose proof (C35_due ip c msgs _ _ _ cemi W O2 (request_tunnelled ch 0 cemi)) as Y. cbv zeta in Y. rewrite M in Y. apply Y.
  rewrite taken_snoc. cbn [taken_step]. rewrite A. reflexivity.
Qed.
Print Assumptions C111_injected.
(** Without a connect response 256 datagrams are enough: the telegram is reported
    at least once, and the counter of requests is 0 afterwards. *)
Theorem C111_guessed : forall ip c msgs es ch cemi m, well_made ip c msgs -> orderly false es -> fold_left up_step es false = true ->
  octets cemi -> meaning (c_state c) cemi = Ok m ->
  0 <= expected c es < 256 /\
  flat_map deliveries (observations (after c es) (guesses ch cemi 256)) = concat (repeat m (Z.to_nat (256 - expected c es))) /\
  expected c (es ++ guesses ch cemi 256) = 0.
Proof.
  intros ip c msgs es ch cemi m W O Up Oc M. pose proof (Z.mod_pos_bound (taken (st_remote (c_state c)) (trace c es)) 256 ltac:(lia)) as R. fold (expected c es) in R.
  destruct (guess_run ip c msgs es ch cemi m W O Up Oc M 256 ltac:(lia)) as (_ & D & X). change (Z.of_nat 256) with 256 in D, X.
  split; [exact R|]. split; [rewrite D; do 2 f_equal; lia|]. rewrite X. destruct (expected c es <? 256) eqn:E; [reflexivity|lia].
Qed.
Print Assumptions C111_guessed.
(** A telegram that gets in takes the place of the gateway's own one with that
    counter, which is not reported; it is acknowledged all the same, unless its
    counter is 255. *)
Theorem C111_displaced : forall ip c msgs es d g cemi own m, well_made ip c msgs -> orderly false (es ++ [EvData d; EvData g]) ->
  tunnelled d = Some (expected c es, cemi) -> meaning (c_state c) cemi = Ok m -> tunnelled g = Some (expected c es, own) ->
  deliveries (shown c es (EvData d)) = m /\ deliveries (shown c (es ++ [EvData d]) (EvData g)) = [] /\
  acked (shown c (es ++ [EvData d]) (EvData g)) = (expected c es <? 255).
Proof.
  intros ip c msgs es d g cemi own m W O Td M Tg. pose proof (Z.mod_pos_bound (taken (st_remote (c_state c)) (trace c es)) 256 ltac:(lia)) as R. fold (expected c es) in R.
  assert (O2 : orderly false ((es ++ [EvData d]) ++ [EvData g])) by (rewrite <- app_assoc; exact O). pose proof (orderly_prefix _ _ _ O2) as O1.
  pose proof (C35_due ip c msgs es d _ cemi W O1 Td eq_refl) as Y. cbv zeta in Y. rewrite M in Y. destruct Y as (Y1 & _ & Y2).
  split; [exact Y1|]. assert (X : expected c (es ++ [EvData d]) = (expected c es + 1) mod 256) by (unfold expected; rewrite Y2; lia).
  split.
  - apply (C35_undue ip c msgs _ g _ own W O2 Tg). change (expected c es <> expected c (es ++ [EvData d])). lia.
  - destruct (expected c es <? 255) eqn:E.
    + apply (C36_repeated ip c msgs _ g _ own W O2 Tg). change (expected c es + 1 = expected c (es ++ [EvData d])). lia.
    + destruct (C36_refused ip c msgs _ g _ own W O2 Tg) as (_ & S & _); [change (expected c es <> expected c (es ++ [EvData d])); lia|change (expected c es + 1 <> expected c (es ++ [EvData d])); lia|].
      unfold acked. rewrite S. reflexivity.
Qed.
Print Assumptions C111_displaced.

(** 256 acknowledgements make the counter of the client's own messages 0: the next
    message goes out with it, whatever the gateway expects. *)
Theorem C111_acks : forall ip c msgs es ch e b r, well_made ip c msgs -> orderly false (es ++ false_acks ch 256 ++ [e]) ->
  next_local c (es ++ false_acks ch 256) = 0 /\
  (In b (o_sent (shown c (es ++ false_acks ch 256) e)) -> ip_service b = Some (0x0420, r) ->
   exists ch' cemi, b = tunnelling_request ch' 0 cemi).
Proof.
  intros ip c msgs es ch e b r W O. rewrite app_assoc in O. pose proof (orderly_prefix _ _ _ O) as O1. apply orderly_app in O1. destruct O1 as [O1 _].
  assert (L : next_local c (es ++ false_acks ch 256) = 0).
  { unfold next_local. rewrite fold_left_app. pose proof (well_made_history ip c msgs es W O1) as S. rewrite <- (s_local _ _ _ _ S).
    pose proof (s_good _ _ _ _ S) as (_ & _ & F & _). destruct F as (_ & _ & _ & _ & _ & R).
    pose proof (acks_local ch _ R 256 ltac:(lia)) as A. change (Z.of_nat 256) with 256 in A. rewrite A.
    destruct (st_local (c_state (after c es)) <? 256) eqn:E; [reflexivity|lia]. }
  split; [exact L|]. intros I Sv. destruct (C38_requests ip c msgs _ e b r W O I Sv) as (ch' & cemi & _ & E). exists ch', cemi.
  unfold next_local in L. rewrite L in E. exact E.
Qed.
Print Assumptions C111_acks.
(** One connect response with status 0 and its data blocks, or one disconnect
    response, gives the client another channel: all its messages carry that one
    until the next response. *)
Theorem C111_channel : forall ip c msgs es a h es' e b r, well_made ip c msgs -> orderly false (es ++ EvData a :: es' ++ [e]) ->
  channel_after a (channel_now c es) = Some h -> Forall keeps_channel es' ->
  In b (o_sent (shown c (es ++ EvData a :: es') e)) -> ip_service b = Some (0x0420, r) ->
  exists n cemi, b = tunnelling_request h n cemi.
Proof.
  intros ip c msgs es a h es' e b r W O C K I Sv.
  assert (O2 : orderly false ((es ++ EvData a :: es') ++ [e])) by (rewrite <- app_assoc; exact O).
  destruct (C38_requests ip c msgs _ e b r W O2 I Sv) as (ch' & cemi & E1 & E2). eexists. exists cemi. rewrite E2. f_equal.
  rewrite fold_left_app in E1. cbn [fold_left channel_step] in E1. rewrite channel_kept in E1 by exact K.
  fold (channel_now c es) in E1. rewrite C in E1. injection E1 as ->. reflexivity.
Qed.
Print Assumptions C111_channel.

(** The client of the examples, connected on channel 15h, with three requests taken
    and two messages acknowledged. *)
Definition sr_history : list event :=
  [EvMade; EvData ex_accept; EvData (ex_request 0); EvData (ex_request 1); EvData (ex_request 2); EvWriter; EvData (ex_ack 0); EvWriter; EvData (ex_ack 1)].
Definition sr_hijack : list Z := [0x06; 0x10; 0x02; 0x06; 0x00; 0x14; 0x63; 0x00] ++ repeat 0 12.
Definition sr_hangup : list Z := [0x06; 0x10; 0x02; 0x0A; 0x00; 0x08; 0x00; 0x00].
Example C111_example : well_made ex_ip ex_client ex_msgs /\ orderly false sr_history /\ fold_left up_step sr_history false = true /\
  expected ex_client sr_history = 3 /\ next_local ex_client sr_history = 2 /\ channel_now ex_client sr_history = Some 0x15 /\
  connect_answer ex_refuse = true /\ (exists m x, meaning (c_state ex_client) ex_frame = Ok (m :: x)) /\
  deliveries (shown ex_client sr_history (EvData (tunnelling_request 0x63 0 ex_frame))) = [] /\
  deliveries (shown ex_client (sr_history ++ [EvData ex_refuse]) (EvData (tunnelling_request 0x63 0 ex_frame))) <> [] /\
  ~ matters ex_client sr_history (ex_request 1) /\
  channel_after sr_hijack (channel_now ex_client sr_history) = Some 0x63 /\ channel_after sr_hangup (channel_now ex_client sr_history) = Some 0 /\
  keeps_channel (EvData (ex_request 3)) /\ o_sent (shown ex_client (firstn 7 sr_history ++ EvData sr_hijack :: []) EvWriter) <> [].
Proof.
  split; [exact ex_well_made|]. split; [orderly_tac|]. split; [reflexivity|]. split; [vm_compute; reflexivity|]. split; [vm_compute; reflexivity|].
  split; [vm_compute; reflexivity|]. split; [reflexivity|]. split; [eexists; eexists; vm_compute; reflexivity|]. split; [vm_compute; reflexivity|].
  split; [vm_compute; discriminate|]. split.
  { intros [H|[H|[H|[x H]]]]; [discriminate H|apply H; vm_compute; reflexivity|apply H; vm_compute; reflexivity|vm_compute in H; discriminate H]. }
  split; [vm_compute; reflexivity|]. split; [vm_compute; reflexivity|]. split; [vm_compute; split; discriminate|]. vm_compute. discriminate.
Qed.
