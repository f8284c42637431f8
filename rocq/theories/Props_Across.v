(** C76, C77: what one application sends another one hears. *)
From Coq Require Import String Ascii ZArith List Bool Lia ZifyBool.
From Verif Require Import Py Base Msg Address Dpt Tables LData Inet State Encode Decode Client.
From Verif Require Import SpecMsg SpecTables SpecWire SpecDecode SpecClient SpecSystem SpecAcross.
From Verif Require Import MsgProofs TablesProofs AssocProofs EncodeProofs DecodeProofs OctetsProofs ClientProofs DeliveryProofs RoundProofs SystemProofs AcrossProofs.
From Verif Require Import Props_Tables Props_Encode Props_Decode Props_Roundtrip Props_Client Props_System.
Import ListNotations.
Open Scope Z_scope.

(** ** C76 *)

(** A group request encoded on one state, carried over the bus and decoded on
    another one with tables and a medium of its own: the second reports an
    indication for exactly its own group objects of the address. *)
Theorem C76_across : forall st1 s1 go1 m w st2 tb l h s2 go2,
  st_assoc st1 = Some s1 -> st_gobj st1 = Some go1 -> said s1 go1 m = Some w ->
  built tb l h s2 -> st_assoc st2 = Some s2 -> st_gobj st2 = Some go2 -> audible tb l h s2 go2 w ->
  exists request, fst (encode_msg m st1) = wire st1 request /\
  forall indication cl ch pad, carried request indication -> proper_class st2 cl -> octets pad -> room st2 indication ->
  fst (decode_msg cl (delivered st2 ch pad indication) st2) = Ok (reported st2 (heard tb l h s2 go2 w)).
Proof.
  intros st1 s1 go1 m w st2 tb l h s2 go2 Ha Hg Sd B Ha2 Hg2 Au. exists (said_frame s1 go1 m).
  split; [apply (said_encode st1 s1 go1 m w); assumption|]. intros ind cl ch pad C P Op Rm.
  destruct (said_says s1 go1 m w ind Sd (proj1 Au) C) as (O & t & Et & Sy).
  apply (says_heard tb l h st2 s2 go2 cl _ t w); try assumption.
  split; [exact Ha2|]. split; [exact Hg2|]. split; [apply delivered_octets; assumption|]. split; [exact P|].
  rewrite delivered_on_bus; [exact Et|exact Rm].
Qed.
Print Assumptions C76_across.
(** An object of the sender's own type shows the value sent, field by field. *)
Theorem C76_fields : forall s1 go1 a d x n c, said s1 go1 (MGroupValueWriteReq a d) = Some (x, Some n) ->
  type_of go1 (asap_value a) = Some c ->
  forall name, bits_get (as_class c n) name = bits_get (mkdpt c (d_value d)) name.
Proof.
  intros s1 go1 a d x n c Sd Tc name. cbn [said] in Sd. rewrite Tc in Sd.
  destruct (sends_to s1 a) as [[|y r]|e]; try discriminate Sd. injection Sd as _ <-. apply C21_same_class.
Qed.
Print Assumptions C76_fields.

(** The second application: address 0900h for a switch and a brightness. *)
Definition ex_table2 := at_new (mkaddr 1 0x1003) [mkaddr 2 0x0900] 4.
Definition ex_calls2 : list as_call := [Associate (mkasap 4 None) [mkaddr 3 0x0900]; Associate (mkasap 5 None) [mkaddr 4 0x0900]].
Definition ex_assoc2 : assoc_table :=
  match assoc_new ex_table2 [] with Ok s => snd (as_run s ex_calls2) | Err _ => mkassoc ex_table2 [] [] end.
Definition ex_go2 : gobj_table := [(mkasap 4 None, Switch); (mkasap 5 None, Brightness)].
Lemma ex_built2 : built ex_table2 [] ex_calls2 ex_assoc2.
Proof. eexists. exists [Ok tt; Ok tt]. split; [vm_compute; reflexivity|]. split; [vm_compute; reflexivity|]. repeat constructor. Qed.
Definition ex_write : message := MGroupValueWriteReq (mkasap 1 None) (mkdpt Switch 1).
Definition ex_request1 : list Z := [0x11; 0x00; 0x96; 0xE0; 0x00; 0x00; 0x09; 0x00; 0x01; 0x00; 0x81].
Definition ex_indication : list Z := [0x29; 0x02; 0x03; 0x00; 0xBC; 0xD0; 0x11; 0x01; 0x09; 0x00; 0x01; 0x00; 0x81].
Definition ex_heard2 : list message :=
  [MGroupValueWriteInd (mkasap 4 None) (mkdpt Switch 0x81); MGroupValueWriteInd (mkasap 5 None) (mkdpt Brightness 0x81)].
Lemma ex_carried : carried ex_request1 ex_indication.
Proof.
  exists 0x96, 0xE0, 0, 0, [0x09; 0x00; 0x01; 0x00; 0x81], [0x03; 0x00], 0xBC, 0xD0, 0x11, 0x01.
  split; [reflexivity|]. split; [reflexivity|]. split; [reflexivity|]. split; [octets_tac|]. split; [octets_tac|reflexivity].
Qed.
Lemma ex_audible : audible ex_table2 [] ex_calls2 ex_assoc2 ex_go2 (0x0900, Some 0x81).
Proof.
  split; [cbn; lia|]. intros _. split; [exists 4; vm_compute; reflexivity|]. vm_compute. reflexivity.
Qed.
Example C76_example :
  said ex_assoc ex_go ex_write = Some (0x0900, Some 0x81) /\ carried ex_request1 ex_indication /\
  audible ex_table2 [] ex_calls2 ex_assoc2 ex_go2 (0x0900, Some 0x81) /\
  fst (encode_msg ex_write ex_cst) = wire ex_cst ex_request1 /\
  let st2 := state_new Usb_hid (Some ex_assoc2) (Some ex_go2) in
  room st2 ex_indication /\ heard ex_table2 [] ex_calls2 ex_assoc2 ex_go2 (0x0900, Some 0x81) = ex_heard2 /\
  fst (decode_msg CPlain (delivered st2 0 [0; 0] ex_indication) st2) = Ok (RList ex_heard2).
Proof.
  split; [vm_compute; reflexivity|]. split; [exact ex_carried|]. split; [exact ex_audible|].
  split; [vm_compute; reflexivity|]. split; [vm_compute; discriminate|]. split; vm_compute; reflexivity.
Qed.

(** The types need not agree, and nothing tells the receiver: a switch turned on
    arrives as brightness 81h, the APCI octet. *)
Theorem C76_type_refuted : exists s1 go1 a d w tb l h s2 go2 c b e,
  said s1 go1 (MGroupValueWriteReq a d) = Some w /\ built tb l h s2 /\ audible tb l h s2 go2 w /\
  type_of go1 (asap_value a) = Some c /\ In (MGroupValueWriteInd b e) (heard tb l h s2 go2 w) /\
  d_class e <> c /\ d_value e <> d_value d.
Proof.
  exists ex_assoc, ex_go, (mkasap 1 None), (mkdpt Switch 1), (0x0900, Some 0x81), ex_table2, [], ex_calls2, ex_assoc2, ex_go2,
    Switch, (mkasap 5 None), (mkdpt Brightness 0x81).
  split; [vm_compute; reflexivity|]. split; [exact ex_built2|]. split; [exact ex_audible|]. split; [reflexivity|].
  split; [vm_compute; auto|]. split; discriminate.
Qed.
Print Assumptions C76_type_refuted.

(** ** C77 *)

(** Two tunnelling clients at work, each with its gateway and a network that
    loses and repeats datagrams; the second gateway relays what the first puts
    on the bus.  The second client has heard a part of the first one's messages,
    in order, none twice, as its own tables have them. *)
Theorem C77_heard : forall ip1 c1 msgs es1 ch1 frame1 hs1 s1 go1 ip2 c2 msgs2 es2 ch2 frame2 hs2 tb l h s2 go2,
  linked ip1 c1 msgs es1 ch1 -> sendable frame1 -> st_local (c_state (after c1 es1)) = 0 ->
  st_assoc (c_state c1) = Some s1 -> st_gobj (c_state c1) = Some go1 ->
  linked ip2 c2 msgs2 es2 ch2 -> sendable frame2 ->
  built tb l h s2 -> st_assoc (c_state c2) = Some s2 -> st_gobj (c_state c2) = Some go2 ->
  Forall (fun m => exists w, said s1 go1 m = Some w /\ audible tb l h s2 go2 w) msgs ->
  let first := sy_run frame1 (sy_start (after c1 es1) ch1) hs1 in
  let second := sy_run frame2 (sy_start (after c2 es2) ch2) hs2 in
  relays (gw_bus (sy_gw first)) frame2 -> client_taken second <= zlen (gw_bus (sy_gw first)) ->
  exists part, part_of part msgs /\ zlen part = client_taken second /\
  reports second = flat_map (fun m => match said s1 go1 m with Some w => heard tb l h s2 go2 w | None => [] end) part.
Proof.
  intros ip1 c1 msgs es1 ch1 frame1 hs1 s1 go1 ip2 c2 msgs2 es2 ch2 frame2 hs2 tb l h s2 go2 L1 M1 Lo Ha1 Hg1 L2 M2 B Ha2 Hg2 Al first second R K.
  assert (Al' : Forall (fun m => said s1 go1 m <> None) msgs).
  { eapply Forall_impl; [|exact Al]. intros m (w & E & _). congruence. }
  destruct (sent_said ip1 c1 msgs es1 ch1 frame1 s1 go1 hs1 L1 M1 Ha1 Hg1 Al') as (before & now & rest & Em & _ & Ew).
  pose proof (C66_part ip1 c1 msgs es1 ch1 frame1 hs1 L1 M1 Lo) as P. cbv zeta in P. fold first in P, Ew. rewrite Ew in P.
  destruct (part_map _ _ _ P) as (sub & Ps & Eb). rewrite Eb in R, K.
  pose proof (C64_in_order ip2 c2 msgs2 es2 ch2 frame2 hs2 L2 M2) as [Rp _]. cbv zeta in Rp. fold second in Rp.
  pose proof (taken_nonneg ip2 c2 msgs2 es2 ch2 frame2 hs2 L2 M2) as N. fold second in N.
  unfold zlen in K. rewrite map_length in K.
  assert (Pm : part_of sub msgs) by (rewrite Em; apply part_mid; exact Ps).
  exists (firstn (Z.to_nat (client_taken second)) sub).
  split; [apply part_firstn; exact Pm|]. split; [unfold zlen; rewrite firstn_length; lia|]. rewrite Rp.
  destruct (well_made_start ip2 c2 msgs2 (proj1 L2)) as (_ & _ & _ & _ & F2).
  apply (relayed_meanings (c_state c2) tb l h s2 go2 s1 go1 sub frame2); try assumption; [|unfold zlen; lia].
  apply Forall_forall. intros m Im. rewrite Forall_forall in Al. apply Al. apply (part_in _ _ Pm). exact Im.
Qed.
Print Assumptions C77_heard.
(** When the first writer waits for the acknowledgement before each turn, that
    part is a prefix: nothing is left out. *)
Theorem C77_prefix : forall ip1 c1 msgs es1 ch1 frame1 hs1 s1 go1 ip2 c2 msgs2 es2 ch2 frame2 hs2 tb l h s2 go2,
  linked ip1 c1 msgs es1 ch1 -> sendable frame1 -> st_local (c_state (after c1 es1)) = 0 ->
  st_assoc (c_state c1) = Some s1 -> st_gobj (c_state c1) = Some go1 ->
  writer_sent (trace c1 es1) = [] -> paced frame1 0 (sy_start (after c1 es1) ch1) hs1 ->
  linked ip2 c2 msgs2 es2 ch2 -> sendable frame2 ->
  built tb l h s2 -> st_assoc (c_state c2) = Some s2 -> st_gobj (c_state c2) = Some go2 ->
  Forall (fun m => exists w, said s1 go1 m = Some w /\ audible tb l h s2 go2 w) msgs ->
  let first := sy_run frame1 (sy_start (after c1 es1) ch1) hs1 in
  let second := sy_run frame2 (sy_start (after c2 es2) ch2) hs2 in
  relays (gw_bus (sy_gw first)) frame2 -> client_taken second <= zlen (gw_bus (sy_gw first)) ->
  reports second = flat_map (fun m => match said s1 go1 m with Some w => heard tb l h s2 go2 w | None => [] end)
                            (firstn (Z.to_nat (client_taken second)) msgs).
Proof.
  intros ip1 c1 msgs es1 ch1 frame1 hs1 s1 go1 ip2 c2 msgs2 es2 ch2 frame2 hs2 tb l h s2 go2 L1 M1 Lo Ha1 Hg1 Ws Pc L2 M2 B Ha2 Hg2 Al first second R K.
  assert (Al' : Forall (fun m => said s1 go1 m <> None) msgs).
  { eapply Forall_impl; [|exact Al]. intros m (w & E & _). congruence. }
  destruct (sent_said ip1 c1 msgs es1 ch1 frame1 s1 go1 hs1 L1 M1 Ha1 Hg1 Al') as (before & now & rest & Em & Lb & Ew).
  rewrite Ws in Lb. destruct before; [|discriminate Lb]. cbn [app] in Em.
  destruct (C66_paced ip1 c1 msgs es1 ch1 frame1 hs1 L1 M1 Lo Pc) as (r & Er & _). fold first in Er, Ew. rewrite Ew in Er.
  symmetry in Er. apply eq_sym, map_eq_app in Er. destruct Er as (sub & now2 & En & Eb & _). rewrite <- Eb in R, K.
  pose proof (C64_in_order ip2 c2 msgs2 es2 ch2 frame2 hs2 L2 M2) as [Rp _]. cbv zeta in Rp. fold second in Rp.
  pose proof (taken_nonneg ip2 c2 msgs2 es2 ch2 frame2 hs2 L2 M2) as N. fold second in N.
  unfold zlen in K. rewrite map_length in K. rewrite Rp.
  destruct (well_made_start ip2 c2 msgs2 (proj1 L2)) as (_ & _ & _ & _ & F2).
  rewrite (relayed_meanings (c_state c2) tb l h s2 go2 s1 go1 sub frame2); try assumption; [| |unfold zlen; lia].
  - f_equal. rewrite Em, En, <- app_assoc, firstn_app. replace (Z.to_nat (client_taken second) - length sub)%nat with 0%nat by lia. cbn [firstn]. symmetry. apply app_nil_r.
  - apply Forall_forall. intros m Im. rewrite Forall_forall in Al. apply Al. rewrite Em, En, <- app_assoc. apply in_or_app. left. exact Im.
Qed.
Print Assumptions C77_prefix.
(** And everything arrives when nothing is lost: a round of the first tunnel for
    each message, then a round of the second for each telegram. *)
Theorem C77_complete : forall ip1 c1 msgs es1 ch1 frame1 s1 go1 ip2 c2 msgs2 es2 ch2 frame2 tb l h s2 go2,
  linked ip1 c1 msgs es1 ch1 -> sendable frame1 -> st_local (c_state (after c1 es1)) = 0 ->
  st_assoc (c_state c1) = Some s1 -> st_gobj (c_state c1) = Some go1 ->
  answered es1 = true -> ~ In EvWriter es1 ->
  linked ip2 c2 msgs2 es2 ch2 -> sendable frame2 ->
  built tb l h s2 -> st_assoc (c_state c2) = Some s2 -> st_gobj (c_state c2) = Some go2 ->
  Forall (fun m => displayable m = true /\ exists w, said s1 go1 m = Some w /\ audible tb l h s2 go2 w) msgs ->
  let n := length msgs in
  let first := sy_run frame1 (sy_start (after c1 es1) ch1) (concat (repeat [Turn; Arrive_up; Arrive_down] n)) in
  let second := sy_run frame2 (sy_start (after c2 es2) ch2) (concat (repeat [Transmit; Arrive_down; Arrive_up] n)) in
  zlen (gw_bus (sy_gw first)) = zlen msgs /\
  (relays (gw_bus (sy_gw first)) frame2 ->
   reports second = flat_map (fun m => match said s1 go1 m with Some w => heard tb l h s2 go2 w | None => [] end) msgs).
Proof.
  intros ip1 c1 msgs es1 ch1 frame1 s1 go1 ip2 c2 msgs2 es2 ch2 frame2 tb l h s2 go2 L1 M1 Lo Ha1 Hg1 An Nw L2 M2 B Ha2 Hg2 Al n first second.
  assert (Eb : gw_bus (sy_gw first) = map (said_frame s1 go1) msgs).
  { destruct (sim_start ip1 c1 msgs es1 ch1 frame1 0 L1 Lo) as (S & F & Hch). pose proof L1 as (W & O & _).
    pose proof (well_made_history ip1 c1 msgs es1 W O) as St. destruct (well_made_start ip1 c1 msgs W) as (Gd & T0 & _ & Wr & _).
    unfold first, n. rewrite (rounds_up ip1 ch1 (c_state c1) frame1 s1 go1 Hch F M1 Ha1 Hg1 msgs); try reflexivity; try exact Lo.
    - eexists. exact S.
    - split; [cbn; rewrite (s_conn _ _ _ _ St), An; apply orb_true_r|]. left. cbn.
      clear - Nw Wr Gd O T0. rewrite <- T0 in O. revert O Nw. induction es1 as [|e es IH] using rev_ind; intros O Nw; [exact Wr|].
      pose proof O as O'. apply orderly_app in O'. destruct O' as [O1 _]. pose proof (history ip1 c1 es Gd O1) as S.
      rewrite (other_writer ip1 c1 es e S (allowed_of ip1 c1 es e S O)).
      + apply IH; [exact O1|]. intros I. apply Nw. apply in_or_app. left. exact I.
      + intros ->. apply Nw. apply in_or_app. right. left. reflexivity.
    - eapply Forall_impl; [|exact Al]. intros m (Dm & w & E & _). split; [congruence|exact Dm]. }
  split; [rewrite Eb; unfold zlen; rewrite map_length; reflexivity|]. rewrite Eb. intros R.
  assert (Q : sy_run frame2 (sy_start (after c2 es2) ch2) [] = sy_start (after c2 es2) ch2) by reflexivity.
  destruct (well_made_start ip2 c2 msgs2 (proj1 L2)) as (_ & _ & _ & _ & F2).
  assert (Al2 : Forall (fun m => exists w, said s1 go1 m = Some w /\ audible tb l h s2 go2 w) msgs).
  { eapply Forall_impl; [|exact Al]. intros m (_ & X). exact X. }
  assert (Hl : forall i, 0 <= i < 0 + Z.of_nat n -> exists m, meaning (c_state c2) (frame2 i) = Ok m).
  { intros i Hi. destruct (nth_error msgs (Z.to_nat i)) as [m|] eqn:Em; [|apply nth_error_None in Em; unfold n in Hi; lia].
    destruct (relayed_meaning (c_state c2) tb l h s2 go2 s1 go1 msgs frame2 _ m F2 B Ha2 Hg2 Al2 R Em) as (w & _ & M).
    rewrite Z2Nat.id in M by lia. eauto. }
  destruct (C64_rounds ip2 c2 msgs2 es2 ch2 frame2 [] n L2 M2 eq_refl eq_refl eq_refl Hl) as (_ & _ & _ & _ & Rp).
  rewrite Q in Rp. fold second in Rp. change (client_taken (sy_start (after c2 es2) ch2)) with 0 in Rp. rewrite Rp.
  rewrite (relayed_meanings (c_state c2) tb l h s2 go2 s1 go1 msgs frame2); try assumption; [|unfold zlen, n; lia].
  f_equal. replace (Z.to_nat (0 + Z.of_nat n)) with (length msgs) by (unfold n; lia). apply firstn_all.
Qed.
Print Assumptions C77_complete.
(** A first client with a write and a read, a second one whose gateway
    relays them. *)
Definition ex_msgs1 : list message := [ex_write; MGroupValueReadReq (mkasap 1 None)].
Definition ex_client1 : client := client_new (dotted ex_ip) 3671 ex_cst ex_msgs1.
Definition ex_client2 : client :=
  client_new (dotted ex_ip) 3672 (netip_state_new Knxnet_ip (Some ex_assoc2) (Some ex_go2)) [].
Definition ex_start : list event := [EvMade; EvData ex_accept].
Definition ex_frames2 (i : Z) : list Z :=
  if i =? 0 then ex_indication else [0x29; 0x00; 0xBC; 0xD0; 0x11; 0x01; 0x09; 0x00; 0x01; 0x00; 0x00].
Lemma ex_linked1 : linked ex_ip ex_client1 ex_msgs1 ex_start 0x15.
Proof.
  split. { exists 3671, ex_cst. split; [reflexivity|]. split; [exact ex_ip_ok|]. repeat split; try discriminate. repeat constructor. }
  split; [orderly_tac|]. split; [vm_compute; reflexivity|]. split; [vm_compute; reflexivity|]. split; [lia|]. vm_compute. reflexivity.
Qed.
Lemma ex_linked2 : linked ex_ip ex_client2 [] ex_start 0x15.
Proof.
  split. { eexists 3672, _. split; [reflexivity|]. split; [exact ex_ip_ok|]. repeat split; try discriminate. repeat constructor. }
  split; [orderly_tac|]. split; [vm_compute; reflexivity|]. split; [vm_compute; reflexivity|]. split; [lia|]. vm_compute. reflexivity.
Qed.
Example C77_example :
  linked ex_ip ex_client1 ex_msgs1 ex_start 0x15 /\ meaningful (c_state ex_client1) ex_frames /\
  st_local (c_state (after ex_client1 ex_start)) = 0 /\ answered ex_start = true /\
  linked ex_ip ex_client2 [] ex_start 0x15 /\ meaningful (c_state ex_client2) ex_frames2 /\
  Forall (fun m => displayable m = true /\ exists w, said ex_assoc ex_go m = Some w /\ audible ex_table2 [] ex_calls2 ex_assoc2 ex_go2 w) ex_msgs1 /\
  let first := sy_run ex_frames (sy_start (after ex_client1 ex_start) 0x15) [Turn; Arrive_up; Arrive_down; Turn; Repeat_up 0; Arrive_up; Arrive_up] in
  let second := sy_run ex_frames2 (sy_start (after ex_client2 ex_start) 0x15)
    [Transmit; Repeat_down 0; Arrive_down; Arrive_down; Arrive_up; Transmit; Arrive_down] in
  relays (gw_bus (sy_gw first)) ex_frames2 /\ client_taken second = 2 /\ zlen (gw_bus (sy_gw first)) = 2 /\
  reports second = ex_heard2 ++ [MGroupValueReadInd (mkasap 4 None) (mkdpt Switch 0); MGroupValueReadInd (mkasap 5 None) (mkdpt Brightness 0)].
Proof.
  split; [exact ex_linked1|]. split; [exact ex_meaningful|]. split; [vm_compute; reflexivity|]. split; [vm_compute; reflexivity|].
  split; [exact ex_linked2|].
  split. { intros i. unfold ex_frames2. destruct (i =? 0); (split; [unfold ex_indication; octets_tac|eexists; vm_compute; reflexivity]). }
  split. { constructor; [split; [reflexivity|]; exists (0x0900, Some 0x81); split; [vm_compute; reflexivity|exact ex_audible]|].
    constructor; [|constructor]. split; [reflexivity|]. exists (0x0900, None). split; [vm_compute; reflexivity|].
    split; [cbn; lia|]. intros _. split; [exists 4; vm_compute; reflexivity|exact I]. }
  split.
  { set (b := gw_bus _). vm_compute in b. subst b. intros i f E. destruct i as [|[|[|i]]]; cbn in E; try discriminate E.
    - injection E as <-. exact ex_carried.
    - injection E as <-. exists 0x96, 0xE0, 0, 0, [0x09; 0x00; 0x01; 0x00; 0x00], [], 0xBC, 0xD0, 0x11, 0x01.
      split; [reflexivity|]. split; [reflexivity|]. split; [reflexivity|]. split; [constructor|]. split; [octets_tac|reflexivity]. }
  split; [vm_compute; reflexivity|]. split; vm_compute; reflexivity.
Qed.
